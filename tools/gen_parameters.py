"""Translate the from_bytes methods and attrs classes of /repo/elgas/parameters
(read as text with the ast module, never imported) into the syntax of
rocq/theories/ParamLang.v.  Writes rocq/theories/Parameters.v's class section to stdout."""
import ast, sys, os
D = sys.argv[1] if len(sys.argv) > 1 else "/repo/elgas/parameters"
FILES = """gas_composition system_parameters analog_quantity binary counter standard_counter flow_rate
conversion_coefficient error_counter error_standard_counter compressibility time_window diagnostics
setpoint energy tariff_counter difference_counter timer device_error sum_of_alarms statistics modem""".split()

def q(s): return '"%s"' % s
def const(n):
    if isinstance(n, ast.BinOp) and isinstance(n.op, ast.Mult): return const(n.left) * const(n.right)
    assert isinstance(n, ast.Constant), ast.dump(n); return n.value
def name(n): return n.id if isinstance(n, ast.Name) else None
def expr(n):
    if isinstance(n, ast.Constant) and n.value is None: return "None_"
    if isinstance(n, ast.Name): return "Var %s" % q(n.id)
    if isinstance(n, ast.Subscript):
        c = n.value; assert ast.unparse(c.func) == "struct.unpack" and n.slice.value == 0
        return app({"<f": "UnpackF", "<d": "UnpackD"}[c.args[0].value], c.args[1])
    if isinstance(n, ast.BinOp):
        if isinstance(n.op, ast.BitAnd): return app("(BitAnd %d)" % const(n.right), n.left)
        if isinstance(n.op, ast.RShift): return app("(ShiftRight %d)" % const(n.right), n.left)
    if isinstance(n, ast.Call):
        f = ast.unparse(n.func)
        if f == "data.pop": assert const(n.args[0]) == 0; return "Pop"
        if f == "pop_many": assert n.args[0].id == "data"; return "PopMany %d" % const(n.args[1])
        if f == "int.from_bytes": assert n.args[1].value == "little"; return app("FromLe", n.args[0])
        if f == "pretty_text": return app("PrettyText", n.args[0])
        if f == "parse_ip_address": return app("IpAddress", n.args[0])
        if f == "bool": return app("ToBool", n.args[0])
        if f == "int": return app("ToInt", n.args[0])
        if f == "round": assert n.args[1].value == 7; return app("Round7", n.args[0])
        if f == "list": return "EmptyList"
        if f.endswith(".hex"): return app("Hex", n.func.value)
        if f.endswith(".from_bytes"): return app('(FromBytes %s)' % q(n.func.value.id), n.args[0])
    raise Exception(ast.dump(n))
def paren(s): return s if s.isidentifier() else "(%s)" % s
def app(o, n): return "App %s %s" % (o, paren(expr(n)))
def stmts(b, ind):
    out = []
    for s in b:
        if isinstance(s, ast.Assign):
            assert len(s.targets) == 1
            t = s.targets[0].id
            if t == "data" : continue
            out.append("Assign %s %s" % (q(t), paren(expr(s.value))))
        elif isinstance(s, ast.Assert): assert ast.unparse(s.test) == "not data"; out.append("AssertNotData")
        elif isinstance(s, ast.If):
            assert ast.unparse(s.test) == "data"
            out.append("IfData (%s)\n%s        (%s)" % (block(s.body, ind + "          "), ind, block(s.orelse, ind + "          ")))
        elif isinstance(s, ast.For):
            assert s.iter.func.id == "range" and const(s.iter.args[0]) == 0
            out.append("ForRange %s (%s)" % (q(s.iter.args[1].id), block(s.body, ind + "    ")))
        elif isinstance(s, ast.Expr) and isinstance(s.value, ast.Call) and s.value.func.attr == "append":
            out.append("AppendTo %s %s" % (q(s.value.func.value.id), paren(expr(s.value.args[0]))))
        elif isinstance(s, ast.Return):
            assert s.value.func.id == "cls" and not s.value.args
            ks = ["(%s, %s)" % (q(k.arg), expr(k.value)) for k in s.value.keywords]
            out.append("Return [" + (";\n%s  " % ind).join(ks) + "]")
        else: raise Exception(ast.dump(s))
    return out
def block(b, ind): return "block [" + (";\n" + ind).join(stmts(b, ind)) + "]"

def main():
    for f in FILES:
        p = os.path.join(D, f + ".py"); t = ast.parse(open(p).read())
        for c in t.body:
            if not isinstance(c, ast.ClassDef) or c.name.endswith("Schema"): continue
            attrs = [a.target.id for a in c.body if isinstance(a, ast.AnnAssign) and "ClassVar" not in ast.unparse(a.annotation)]
            fb = [m for m in c.body if isinstance(m, ast.FunctionDef) and m.name == "from_bytes"]
            base = c.bases[0].id if c.bases else None
            assert all(a.value is None for a in c.body if isinstance(a, ast.AnnAssign) and "ClassVar" not in ast.unparse(a.annotation))
            path = "elgas/parameters/%s.py" % f
            if base:
                assert not attrs and not fb
                print('(** %s:%d-%d: inherits everything from [%s] *)' % (path, c.lineno, c.end_lineno, base))
                print('Definition %s_class := mk_class "%s" (class_attrs %s_class) (class_body %s_class).\n' % (c.name, c.name, base, base)); continue
            if fb:
                m = fb[0]
                print('(** %s:%d-%d *)' % (path, m.lineno, m.end_lineno))
                print('Definition %s_from_bytes : stmt :=\n  %s.' % (c.name, block(m.body, "    ")))
                last = m.lineno - 1
            else: last = c.end_lineno
            print('(** %s:%d-%d%s *)' % (path, c.lineno, last, "" if fb else ": no from_bytes"))
            print('Definition %s_class := mk_class "%s"\n  [%s]\n  %s.\n' % (c.name, c.name, ";\n   ".join(q(a) for a in attrs), "(Some %s_from_bytes)" % c.name if fb else "None"))
if __name__ == "__main__" and len(sys.argv) < 3: main()

def enum():
    t = ast.parse(open(os.path.join(D, "enumerations.py")).read())
    c = [c for c in t.body if isinstance(c, ast.ClassDef) and c.name == "ParameterObjectType"][0]
    ms = [(s.targets[0].id, s.value.value) for s in c.body if isinstance(s, ast.Assign)]
    print("(** elgas/parameters/enumerations.py:%d-%d *)" % (c.lineno, c.end_lineno))
    print("Inductive parameter_type :=\n" + "\n".join("| " + m for m, _ in ms) + ".\n")
    print("(** the values of the enumeration, same lines *)\nDefinition type_code (t : parameter_type) : Z :=\n  match t with\n" +
          "\n".join("  | %s => %d" % x for x in ms) + "\n  end.\n")
    print("(** all members, in order of definition, same lines *)\nDefinition all_types : list parameter_type :=\n  [" + "; ".join(m for m, _ in ms) + "].\n")
    t = ast.parse(open(os.path.join(D, "factory.py")).read())
    for cn, fn in (("ParameterFactory", "registered_class"),):
        c = [c for c in t.body if isinstance(c, ast.ClassDef) and c.name == cn][0]
        a = [a for a in c.body if isinstance(a, ast.AnnAssign)][0]
        ks = [(k.attr, v.id) for k, v in zip(a.value.keys, a.value.values)]
        print("(** elgas/parameters/factory.py:%d-%d, [object_map]; None: no such key *)" % (a.lineno, a.end_lineno))
        print("Definition %s (t : parameter_type) : option class :=\n  match t with\n" % fn +
          "\n".join("  | %s => Some %s_class" % x for x in ks))
        missing = [m for m, _ in ms if m not in dict(ks)]
        print("\n".join("  | %s => None" % m for m in missing) + "\n  end.\n")
if __name__ == "__main__" and len(sys.argv) < 3: enum()

def schemas():
    "Schemas.v: annotations of the attrs classes, the schemas and their registry"
    out = []
    def ann(s):
        return {"int": "AInt", "bool": "ABool", "float": "AFloat", "str": "AStr", "Optional[int]": "AOptional AInt",
                "Optional[str]": "AOptional AStr", "Iterable[str]": "AStrs", "GasComposition": "AGasComposition"}[s]
    def field(n):
        f = ast.unparse(n.func).split(".")[-1]
        kw = {k.arg: k.value.value for k in n.keywords}
        assert set(kw) <= {"required", "allow_none", "as_string"}
        b = lambda k: "true" if kw.get(k) else "false"
        if f == "Float": k = "(Float %s)" % b("as_string")
        elif f == "List":
            a = n.args[0]
            k = "(List_ %s)" % (kind0(a) if isinstance(a, ast.Attribute) else field(a)[2])
        elif f == "Nested": k = "(Nested (schema_fields %s) (schema_post_load %s))" % (n.args[0].id, n.args[0].id)
        elif f == "Dict": k = "Dict"
        else:
            assert f in ("Integer", "Number", "String", "Boolean"), f
            k = {"String": "String_"}.get(f, f); assert not n.args and "as_string" not in kw
        return b("required"), b("allow_none"), k
    def kind0(a): return {"String": "String_"}[a.attr]
    for f in FILES + ["../integration"]:
        t = ast.parse(open(os.path.join(D, f + ".py")).read())
        path = "elgas/parameters/%s.py" % f if not f.startswith("..") else "elgas/integration.py"
        for c in t.body:
            if not isinstance(c, ast.ClassDef): continue
            base = c.bases[0].id if c.bases and isinstance(c.bases[0], ast.Name) else None
            if not c.name.endswith("Schema"):
                if f.startswith(".."): continue
                at = [(a.target.id, ast.unparse(a.annotation)) for a in c.body if isinstance(a, ast.AnnAssign) and "ClassVar" not in ast.unparse(a.annotation)]
                if base: print("(** %s:%d-%d: inherited *)\nDefinition %s_annotations := %s_annotations." % (path, c.lineno, c.end_lineno, c.name, base))
                else: print("(** %s:%d-%d *)\nDefinition %s_annotations : list (string * annotation) :=\n  [%s]." % (path, c.lineno, c.end_lineno, c.name, ";\n   ".join('(%s, %s)' % (q(n), ann(a)) for n, a in at)))
                continue
            fs = []; post = None
            for m in c.body:
                if isinstance(m, ast.Assign): fs.append((m.targets[0].id,) + field(m.value))
                else:
                    assert isinstance(m, ast.FunctionDef) and ast.unparse(m.decorator_list[0]) == "post_load" and len(m.body) == 1
                    r = m.body[0].value; assert ast.unparse(r).endswith("(**data)"); post = r.func.id
            p = "(Some %s_class)" % post if post else "None"
            if base:
                assert not fs and post
                print("(** %s:%d-%d: inherits its fields *)\nDefinition %s := mk_schema (schema_fields %s) %s.\n" % (path, c.lineno, c.end_lineno, c.name, base, p)); continue
            assert ast.unparse(c.bases[0]) == "marshmallow.Schema"
            print("(** %s:%d-%d *)\nDefinition %s := mk_schema\n  [%s]\n  %s.\n" % (path, c.lineno, c.end_lineno, c.name, ";\n   ".join("mk_spec %s %s %s %s" % (q(x[0]), x[1], x[2], x[3]) for x in fs), p))
    t = ast.parse(open(os.path.join(D, "factory.py")).read())
    e = ast.parse(open(os.path.join(D, "enumerations.py")).read())
    ms = [s.targets[0].id for c in e.body if isinstance(c, ast.ClassDef) and c.name == "ParameterObjectType" for s in c.body if isinstance(s, ast.Assign)]
    for cn, fn, suffix, ty in (("ParameterSchemaFactory", "registered_schema", "", "schema"), ("ParameterFactory", "registered_annotations", "_annotations", "list (string * annotation)")):
        c = [c for c in t.body if isinstance(c, ast.ClassDef) and c.name == cn][0]
        a = [a for a in c.body if isinstance(a, ast.AnnAssign)][0]
        ks = [(k.attr, v.id) for k, v in zip(a.value.keys, a.value.values)]
        print("(** elgas/parameters/factory.py:%d-%d, [object_map]%s; None: no such key *)" % (a.lineno, a.end_lineno, "" if not suffix else ", the annotations of the class"))
        print("Definition %s (t : parameter_type) : option (%s) :=\n  match t with\n" % (fn, ty) + "\n".join("  | %s => Some %s%s" % (x[0], x[1], suffix) for x in ks))
        print("\n".join("  | %s => None" % m for m in ms if m not in dict(ks)) + "\n  end.\n")
if __name__ == "__main__" and len(sys.argv) > 2: schemas()
