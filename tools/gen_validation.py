#!/usr/bin/env python3
"""Writes rocq/theories/Validation.v: the literals of /repo/tests (read as text with
ast, nothing of /repo is executed) as Examples about the model, closed by vm_compute."""
import ast, os, sys
from fractions import Fraction
root = os.path.dirname(os.path.dirname(os.path.abspath(__file__)))
T = "/repo/tests/"
def tree(f): return ast.parse(open(T + f).read())
def func(t, name): return next(n for n in t.body if isinstance(n, ast.FunctionDef) and n.name == name)
def lit(n):
    if isinstance(n, ast.Call) and isinstance(n.func, ast.Name) and n.func.id == "bytearray": return bytes(lit(n.args[0]))
    return ast.literal_eval(n)
def assigns(body):
    d = {}
    for s in body:
        if isinstance(s, ast.Assign) and isinstance(s.targets[0], ast.Name):
            try: d[s.targets[0].id] = lit(s.value)
            except Exception: pass
    return d
def zs(l): return "[" + "; ".join(map(str, l)) + "]"
def text(s): return zs([ord(c) for c in s])
def fl(x):
    neg = "true" if str(x).startswith("-") else "false"
    if x == 0: return f"(Fin {neg} 0 0)"
    q = Fraction(abs(x)); m, d = q.numerator, q.denominator; e = -(d.bit_length() - 1)
    while m % 2 == 0: m //= 2; e += 1
    return f"(Fin {neg} {m} ({e}))"
def val(n):
    if isinstance(n, ast.Call):
        return "VObj \"%s\" [%s]" % (n.func.id, ";\n      ".join(f'("{k.arg}", {val(k.value)})' for k in n.keywords))
    if isinstance(n, ast.List): return "VList [" + "; ".join(val(x) for x in n.elts) + "]"
    v = ast.literal_eval(n)
    if v is None: return "VNone"
    if isinstance(v, bool): return "VBool " + ("true" if v else "false")
    if isinstance(v, int): return f"VInt ({v})"
    if isinstance(v, float): return "VFloat " + fl(v)
    if isinstance(v, str): return "VStr " + text(v)
    raise Exception(v)
def defn(name, l):
    out, line = [], ""
    for x in l:
        y = line + f"{x}; "
        if len(y) > 116: out.append(line.rstrip()); y = f"{x}; "
        line = y
    out.append(line.rstrip("; "))
    return f"Definition {name} : bytes :=\n  [" + "\n   ".join(out) + "].\n"

o = []
w = o.append
w('''(** The model against the project's own tests: the literals of /repo/tests, and what
    the tests say about them.  Written by tools/gen_validation.py, which reads the
    tests as text.  Everything here is closed computation: a check of the model
    against observed device data, not a property. *)
From Coq Require Import String.
From Verif Require Import Py PyTime PyFloat Utils Frames Application Aes Security ParamLang Parameters.
From Verif Require Import Schema Schemas ClassVars PyText Json SpecSchema.
Open Scope string_scope. Open Scope list_scope. Open Scope Z_scope.
''')
# --- test_utils
h1 = bytes.fromhex("FE846C0F00000000000000"); h2 = bytes.fromhex("FE866C17000000000200021033123005060C2D")
src = open(T + "test_utils.py").read()
assert "FE846C0F00000000000000" in src and "FE866C17000000000200021033123005060C2D" in src
w("(** tests/test_utils.py:8-45 *)")
w(f"Example test_lrc : calculate_lrc {zs(h1)} = 0x19 /\\ calculate_lrc {zs(h2)} = 0x20.\nProof. vm_compute. auto. Qed.")
w(f"Example test_checksum : calculate_checksum {zs(h1)} = 0xFD /\\ calculate_checksum {zs(h2)} = 0xD4.\nProof. vm_compute. auto. Qed.")
w(f"Example test_drc : calculate_drc {zs(h1)} = 0x19 /\\ calculate_drc {zs(h2)} = 0x9B.\nProof. vm_compute. auto. Qed.")
# escape
f = func(tree("test_utils.py"), "test_escape_characters")
ins = [lit(s.value) for s in f.body if isinstance(s, ast.Assign) and s.targets[0].id == "input"]
outs = [bytes.fromhex(lit(s.test.comparators[0].args[0])) for s in f.body if isinstance(s, ast.Assert)]
w("(** tests/test_utils.py:48-96 *)")
for i, (a, b) in enumerate(zip(ins, outs)):
    w(defn(f"plain_{i}", a) + defn(f"escaped_{i}", b))
    w(f"Example test_escape_{i} : escape_characters plain_{i} = Ok escaped_{i} /\\ return_characters escaped_{i} = Ok plain_{i} /\\\n"
      f"  Ok [calculate_lrc (slice 1 (-4) plain_{i}); calculate_checksum (slice 1 (-4) plain_{i}); calculate_drc (slice 1 (-4) plain_{i})] =\n"
      f"  Ok (slice (-4) (-1) plain_{i}).\nProof. vm_compute. auto. Qed.")
w("Example test_return_characters_2 : return_characters [27; 27; 14] = Ok [27; 14].\nProof. reflexivity. Qed.")
w('''(** tests/test_utils.py:99-123 *)
Example test_datetime :
  bytes_to_datetime %s = Ok (mk_datetime 2006 5 30 12 33 10, false, false) /\\
  bytes_to_datetime %s = Ok (mk_datetime 2022 2 14 13 49 0, false, true) /\\
  datetime_to_bytes (mk_datetime 2006 5 30 12 33 10) = Ok %s.
Proof. vm_compute. auto. Qed.
Example test_pretty_text : pretty_text %s = %s.
Proof. vm_compute. reflexivity. Qed.
''' % (zs(bytes.fromhex("103312300506")), zs(bytes.fromhex("004953140222")), zs(bytes.fromhex("103312300506")), zs(b"MJ/m3\x003\x00"), text("MJ/m3 3")))
# --- test_frames
d = assigns(func(tree("test_frames.py"), "test_failing_lrc").body)["data"]
w("(** tests/test_frames.py *)\n" + defn("encrypted_response", d))
w('''Example test_failing_lrc : exists t f, return_characters encrypted_response = Ok t /\\
  response_from_bytes 0x87 t = Ok f /\\ len (f_data f) = 899.
Proof. eexists. eexists. split; [vm_compute; reflexivity|]. split; [vm_compute; reflexivity|]. vm_compute. reflexivity. Qed.
''')
# --- test_application
t = tree("test_application.py")
d = bytes.fromhex("02FE866C17000000000200021033123005060C2D20D49B0D")
w("(** tests/test_application.py:8-13 *)")
w(f'''Example test_read_time_response : exists f, response_from_bytes 0x86 {zs(d)} = Ok f /\\ f_service f = READ_DEVICE_TIME /\\
  read_time_from_bytes (f_data f) = Ok (ReadTimeResponse (mk_datetime 2006 5 30 12 33 10) [12] false false []).
Proof. eexists. split; [vm_compute; reflexivity|]. vm_compute. auto. Qed.
''')
ext = {}
for fn in ["test_parse_parameter_data_object_1", "test_parse_parameter_data_object_0", "test_read_several_archive", "test_read_archive"]:
    ff = func(t, fn)
    call = next(s.value for s in ff.body if isinstance(s, ast.Assign) and s.targets[0].id == "response")
    ext[fn] = lit(next(k.value for k in call.keywords if k.arg == "data"))
w("(** tests/test_application.py:16-85: the numbers are those the documentation of the fields gives for these bytes *)")
w(defn("parameters_page_1", ext["test_parse_parameter_data_object_1"]) + defn("parameters_page_0", ext["test_parse_parameter_data_object_0"]) + defn("archive_page", ext["test_read_archive"]))
# --- CALL
t = tree("test_call_to_dispatch.py")
m = assigns(t.body)
w("(** tests/test_call_to_dispatch.py *)\n" + defn("call_escaped", m["data"]) + defn("call_telegram", m["corrected_data"]))
w('''Example test_length_of_data : return_characters call_escaped = Ok call_telegram /\\ len call_telegram - 1 = 0x9C.
Proof. vm_compute. auto. Qed.
''')
calls = {}
for s in func(t, "test_parse_call_request").body:
    if isinstance(s, ast.Assert) and isinstance(s.test.comparators[0], ast.Constant):
        l = s.test.left
        if isinstance(l, ast.Call): l = l.func.value
        calls[l.attr] = s.test.comparators[0].value
json_calls = calls
# --- security
ff = func(tree("test_security.py"), "test_security_cbc"); m = assigns(ff.body)
w("(** tests/test_security.py *)")
w(f'''Example test_security_cbc : calculate_crc {zs(m["padded_data_with_header"][:-2])} = {int.from_bytes(m["modbus_crc_corrcet"], "big")} /\\
  aes_cbc_decrypt {zs(m["cipher_result"])}
    {zs(m["encryption_key"])} {zs(m["iv"])} =
  Ok {zs(m["padded_data"])}.
Proof. vm_compute. auto. Qed.
''')
# --- parameters: the single objects
imports = {}
w("(** tests/test_parser.py, and the objects tests/test_schema.py lists for a device of the same configuration *)")
tp = tree("test_parser.py")
data = assigns(func(tp, "test_parser").body)["data"]
data2 = assigns(func(tp, "test_make_value_parsers").body)["data"]
w(defn("all_parameters", data))
objs = next(s.value for s in func(tree("test_schema.py"), "test_all").body if isinstance(s, ast.Assign) and s.targets[0].id == "data").elts
w("Definition expected_objects : list value :=\n  [" + ";\n   ".join(val(x) for x in objs) + "].\n")

w("""(** where two attrs objects differ: class names, or the attributes by name *)
Fixpoint same_value (a b : value) {struct a} : bool :=
  match a, b with
  | VNone, VNone => true
  | VInt x, VInt y => x =? y
  | VBool x, VBool y => Bool.eqb x y
  | VFloat (Fin n m e), VFloat (Fin n' m' e') => Bool.eqb n n' && (m =? m') && (e =? e')
  | VStr x, VStr y => list_eqb x y
  | VList x, VList y =>
      (fix go x y := match x, y with [], [] => true | a :: x, b :: y => same_value a b && go x y | _, _ => false end) x y
  | VObj c l, VObj c' l' => String.eqb c c' &&
      (fix go x y := match x, y with
                     | [], [] => true
                     | (n, a) :: x, (n', b) :: y => String.eqb n n' && same_value a b && go x y
                     | _, _ => false end) l l'
  | _, _ => false
  end.
Fixpoint differing (x y : list (string * value)) : list string :=
  match x, y with
  | [], [] => []
  | (n, a) :: x, (n', b) :: y =>
      if String.eqb n n' then (if same_value a b then [] else [n]) ++ differing x y else ["other attributes"]
  | _, _ => ["other attributes"]
  end.
Definition object_difference (p : value * value) : list string :=
  match p with
  | (VObj c l, VObj c' l') => if String.eqb c c' then differing l l' else ["other class"]
  | _ => ["no object"]
  end.

(** tests/test_parser.py:10-16, and attribute by attribute against
    tests/test_schema.py:71-681.  The two literals in the tests are not of the same
    moment (another parameter CRC, other bytes behind the names): hence the 20
    differences.  All 511 other attributes agree, among them all the floats, rounded
    or not. *)
Example test_parser : exists l, parse None (Some all_parameters) = Some (Ok l) /\\ length l = 26%nat /\\
  map object_difference (combine l expected_objects) =
  [["parameter_crc"; "optical_port_speed"; "optical_port_bit_control"];
   ["name"; "decimals"]; ["name"; "decimals"]; ["name"]; []; ["decimals"]; ["name"; "decimals"];
   ["name"]; ["name"]; ["name"]; []; []; []; ["serial_number_of_gas_meter"]; []; []; []; []; []; [];
   ["name"]; []; []; []; ["name"];
   ["ip_address_for_registration_and_diagnostics"; "ip_address_for_calling_to_dispatching"; "ip_address_for_ping"]].
Proof. eexists. split; [vm_compute; reflexivity|]. split; vm_compute; reflexivity. Qed.
""")

# --- test_schema
aq = assigns(func(tree("test_schema.py"), "test_analog_quantity_schema").body)["data"]
def dat(v):
    if isinstance(v, bool): return "VBool " + ("true" if v else "false")
    if isinstance(v, int): return f"VInt ({v})"
    if isinstance(v, float): return "VFloat " + fl(v)
    if isinstance(v, str): return "VStr " + text(v)
    raise Exception(v)
w("(** tests/test_schema.py:37-68 *)")
w("Definition analog_quantity_data : value := VDict\n  [" + ";\n   ".join(f'("{k}", {dat(v)})' for k, v in aq.items()) + "].")
w("""Definition test_python : python := cpython (fun c => c) (fun _ => Ok []).
Example test_analog_quantity_schema : exists attrs, load test_python AnalogQuantitySchema analog_quantity_data = Ok (VObj "AnalogQuantity" attrs) /\\
  lookup "id" attrs = Some (VInt 26) /\\ lookup "digit" attrs = Some (VFloat %s).
Proof. eexists. split; [vm_compute; reflexivity|]. split; vm_compute; reflexivity. Qed.

(** tests/test_schema.py:681-698: the configuration of all the objects as JSON, which is
    text that json.loads reads (and gives the same data; the test only asks that it is read);
    loading that data gives the same objects again (the test does not do this), except that
    the booleans of a FLOW_RATE are the numbers 0 and 1 (equal in Python), and three types
    come back as dicts (C51, C72) *)
Definition test_configuration : res value :=
  os <- each (fun v => t <- get_object_type v ;; Ok (t, v, @None str)) expected_objects ;; save test_python os.
Definition expected_restored (p : value * (parameter_type * value * option str)) : bool :=
  let same := same_value (fst p) (snd (fst (snd p))) in
  match fst (fst (snd p)), object_difference (fst p, snd (fst (snd p))) with
  | FLOW_RATE, [a; b; c; d] => list_eqb (chars a ++ chars b ++ chars c ++ chars d)
      (chars "in_data_archive" ++ chars "in_daily_archive" ++ chars "in_monthly_archive" ++ chars "is_metrological_quantity")
  | (SET_POINT | ERROR_STANDARD_COUNTER | MODEM), ["no object"] => negb same
  | _, [] => same
  | _, _ => false
  end.
Example test_all : match test_configuration with
  | Ok d =>
      match json_dumps d with
      | Ok s => match json_loads s with
                | Ok d' => match json_dumps d' with Ok s' => list_eqb s s' | Err _ => false end &&
                    match restore test_python d' with
                    | Ok l => forallb expected_restored (combine expected_objects l) && (len l =? 26)
                    | Err _ => false
                    end
                | Err _ => false
                end
      | Err _ => false
      end
  | Err _ => false
  end = true.
Proof. vm_compute. reflexivity. Qed.
""".replace("\\\\", "\\").replace("\\", "\\") % fl(aq["digit"]))
C = calls
def dt(x):
    d, t = x.split("T"); return "(mk_datetime " + " ".join(str(int(y)) for y in d.split("-") + t.split(":")) + ")"
w("""(** tests/test_call_to_dispatch.py:95-150 *)
Example test_parse_call_request : exists f c, request_from_bytes 0x84 call_telegram = Ok f /\\\\ f_service f = CALL /\\\\
  f_data f = slice 12 (-4) call_telegram /\\\\ call_from_bytes (f_data f) = Ok c /\\\\
  %s /\\\\ protocol c = 0.
Proof.
  eexists. eexists. split; [vm_compute; reflexivity|]. split; [reflexivity|]. split; [vm_compute; reflexivity|].
  split; [vm_compute; reflexivity|]. vm_compute. repeat split.
Qed.
""".replace("\\\\\\\\", "\\\\").replace("\\\\", "\\") % " /\\\n  ".join(
    f"{k} c = " + (dt(v) if k.endswith("_time") else text(v) if isinstance(v, str) else str(v)) for k, v in C.items()))
w("""Example test_parse_parameter_pages :
  device_parameters_from_bytes parameters_page_0 = Ok (ReadDeviceParametersResponse (skipn 5 parameters_page_0) 0 11 false) /\\
  device_parameters_from_bytes parameters_page_1 = Ok (ReadDeviceParametersResponse (skipn 5 parameters_page_1) 1 13 false) /\\
  archive_by_time_from_bytes archive_page = Ok (ReadArchiveByTimeResponse 3 1 (skipn 5 archive_page)).
Proof. vm_compute. auto. Qed.
""".replace("\\\\", "\\"))
# tests/test_parameters.py
tp = tree("test_parameters.py")
names = []
for ff in tp.body:
    if not isinstance(ff, ast.FunctionDef) or ff.name == "test_parameter_0": continue
    m = assigns(ff.body)
    for s in ast.walk(ff):
        if isinstance(s, ast.Call) and isinstance(s.func, ast.Attribute) and s.func.attr == "from_bytes" and isinstance(s.func.value, ast.Attribute):
            cls = s.func.value.attr; arg = s.args[0].id
            names.append((cls, m[arg]))
w("(** tests/test_parameters.py: these objects are read without an exception *)")
w("Definition single_objects : list (class * bytes) :=\n  [" + ";\n   ".join(f"({c}_class, {zs(b)})" for c, b in names) + "].")
w("""Example test_parameters : forallb (fun x => match class_from_bytes (fst x) (snd x) with
  | Ok (VObj c _) => String.eqb c (class_name (fst x)) | _ => false end) single_objects = true /\\ length single_objects = %d%%nat.
Proof. vm_compute. auto. Qed.
""".replace("\\\\", "\\") % len(names))
open(root + "/rocq/theories/Validation.v", "w").write("\n".join(o))
