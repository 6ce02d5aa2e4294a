"""Generate rocq/theories/ErrTable.v from the text of /repo.

The table holds, in source order,
- the members of the enum in brel/errors/error_code.py,
- the entries of the dict literal in brel/errors/error_factory_registry.py,
- every call in brel/ that passes an ErrorCode member, with its keyword names.
The source is parsed, never run."""
import ast
import glob
import os
import re

REPO = "/repo"


def parse(path):
    text = open(os.path.join(REPO, path)).read()
    # type parameter lists (PEP 695) are dropped so that an older parser accepts the file
    text = re.sub(r"(def \w+)\[[^\]]*\](\s*\()", r"\1\2", text)
    return ast.parse(text)


def const(node):
    if isinstance(node, ast.BinOp) and isinstance(node.op, ast.Add):
        return const(node.left) + const(node.right)
    assert isinstance(node, ast.Constant) and isinstance(node.value, str), ast.dump(node)
    return node.value


def lit(s):
    assert all(ord(c) < 128 for c in s), s
    return '"' + s.replace('"', '""') + '"'


def main():
    out = []
    w = out.append
    w("(** Generated by tools/gen_errors.py from the text of /repo; do not edit.")
    w("    [error_codes]: brel/errors/error_code.py (members of the enum);")
    w("    [registry]: brel/errors/error_factory_registry.py (the dict literal, all entries);")
    w("    [sites]: every call in brel/ that passes a member of the enum, with file, line and the")
    w("    names of its keyword arguments. *)")
    w("From Verif Require Import Base ErrBase.")
    w("Local Open Scope string_scope.")
    w("")
    names = []
    for n in ast.walk(parse("brel/errors/error_code.py")):
        if isinstance(n, ast.Assign):
            names = [x.id for x in n.targets[0].elts if isinstance(x, ast.Name)]
    w("Definition error_codes : list string := [")
    w(";\n".join("  " + lit(n) for n in names))
    w("].\n")
    tree = parse("brel/errors/error_factory_registry.py")
    ns = {}
    entries = []
    for n in ast.walk(tree):
        if isinstance(n, ast.Assign) and n.targets[0].id == "error_namespaces":
            ns = ast.literal_eval(n.value)
        if isinstance(n, ast.AnnAssign) and n.target.id == "error_factory_registry":
            for k, v in zip(n.value.keys, n.value.values):
                assert isinstance(v, ast.Lambda) and v.body.func.id == "ErrorInstance"
                assert not v.body.keywords
                a = v.body.args
                q = "None"
                if len(a) > 5:
                    assert a[5].func.id == "QName"
                    q = "(Some (%s, %s, %s))" % (
                        lit(ns[ast.literal_eval(a[5].args[0].slice)]),
                        lit(const(a[5].args[1])),
                        lit(const(a[5].args[2])),
                    )
                entries.append(
                    "  (* line %d *)\n  (%s, Entry %s %s %s\n    %s\n    %s)"
                    % (
                        k.lineno,
                        lit(k.attr),
                        a[0].attr,
                        a[1].attr,
                        lit(const(a[2])),
                        lit(const(a[3])),
                        q,
                    )
                )
    w("Definition registry : list (string * entry) := [")
    w(";\n".join(entries))
    w("].\n")
    sites = []
    for f in sorted(glob.glob(REPO + "/brel/**/*.py", recursive=True)):
        rel = os.path.relpath(f, REPO)
        found = []
        for n in ast.walk(parse(rel)):
            if isinstance(n, ast.Call):
                codes = [
                    a.attr
                    for a in n.args + [k.value for k in n.keywords]
                    if isinstance(a, ast.Attribute)
                    and isinstance(a.value, ast.Name)
                    and a.value.id == "ErrorCode"
                ]
                if codes:
                    assert len(codes) == 1 and n.func.attr == "insert", ast.unparse(n)
                    found.append((n.lineno, codes[0], [k.arg for k in n.keywords]))
        for line, code, kws in sorted(found):
            sites.append(
                "  Site %s %d %s [%s]" % (lit(rel), line, lit(code), "; ".join(map(lit, kws)))
            )
    w("Definition sites : list site := [")
    w(";\n".join(sites))
    w("].")
    open(os.path.join(os.path.dirname(__file__), "../rocq/theories/ErrTable.v"), "w").write(
        "\n".join(out) + "\n"
    )
    print(len(names), len(entries), len(sites))


main()
