"""Read the ClassVar assignments and base classes of /repo/elgas/parameters (as text,
with the ast module) and write the table of rocq/theories/ClassVars.v to stdout."""
import ast, os
from gen_parameters import FILES, D
def main():
    vars_, bases = [], []
    for f in FILES:
        t = ast.parse(open(os.path.join(D, f + ".py")).read())
        for c in t.body:
            if not isinstance(c, ast.ClassDef) or c.name.endswith("Schema"): continue
            out, lines = [], []
            for a in c.body:
                if isinstance(a, ast.Assign): raise Exception("plain assignment " + c.name)
                if isinstance(a, ast.AnnAssign) and "ClassVar" in ast.unparse(a.annotation):
                    lines += [a.lineno, a.end_lineno]
                    v = a.value
                    if isinstance(v, ast.Constant): out.append('("%s", CInt %d)' % (a.target.id, v.value))
                    else:
                        assert ast.unparse(v.value) == "ParameterObjectType"
                        out.append('("%s", CType %s)' % (a.target.id, v.attr))
            where = "elgas/parameters/%s.py:%s" % (f, "%d-%d" % (lines[0], lines[-1]) if lines else str(c.lineno))
            vars_.append('   ("%s", [%s])' % (c.name, "; ".join(out)) + "; (* %s *)" % where)
            if c.bases:
                assert len(c.bases) == 1
                bases.append('   ("%s", "%s")' % (c.name, c.bases[0].id) + "; (* elgas/parameters/%s.py:%d *)" % (f, c.lineno))
    def table(rows):
        rows = [r.replace("; (*", "  (*", 1) if i == len(rows) - 1 else r for i, r in enumerate(rows)]
        rows[-1] = rows[-1].replace(";  (*", "  (*")
        return "\n".join(rows)
    print("Definition class_variables : list (string * list (string * class_value)) :=\n  [\n" + table(vars_) + "].\n")
    print("Definition class_base : list (string * string) :=\n  [\n" + table(bases) + "].")
if __name__ == "__main__": main()
