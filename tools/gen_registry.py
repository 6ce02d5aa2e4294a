#!/usr/bin/env python3
"""Generate rocq/theories/Registry.v from the source text of the transformation registry.

The source file is parsed as text (ast.literal_eval on the dictionary literals); it is never
imported or executed.  Usage:  python3 tools/gen_registry.py > rocq/theories/Registry.v
"""
import ast

SRC = "/repo/brel/parsers/XHMTL/xhtml_parse_transformation_registry.py"
text = open(SRC, encoding="utf8").read()
tree = ast.parse(text)
nodes = {}
for n in ast.walk(tree):
    if isinstance(n, ast.Assign) and isinstance(n.targets[0], ast.Name):
        nodes[n.targets[0].id] = n


def lines(name):
    return f"{nodes[name].lineno}-{nodes[name].end_lineno}"


def cstr(s):
    """A Coq term of type str."""
    if s == "":
        return "[]"
    return "(u \"" + s.replace('"', '""') + "\")"


# ---------------------------------------------------------------- regular expressions
class P:
    def __init__(self, s):
        self.s, self.i, self.g = s, 0, 0

    def peek(self):
        return self.s[self.i] if self.i < len(self.s) else None

    def next(self):
        c = self.s[self.i]
        self.i += 1
        return c

    def alt(self):
        bs = [self.seq()]
        while self.peek() == "|":
            self.next()
            bs.append(self.seq())
        return ("alt", bs) if len(bs) > 1 else bs[0]

    def seq(self):
        items = []
        while self.peek() not in (None, "|", ")"):
            items.append(self.quant())
        return ("seq", items)

    def quant(self):
        a = self.atom()
        q = self.peek()
        lo = hi = None
        if q == "*":
            lo, hi = 0, None
        elif q == "+":
            lo, hi = 1, None
        elif q == "?":
            lo, hi = 0, 1
        elif q == "{":
            self.next()
            t = ""
            while self.peek() != "}":
                t += self.next()
            ab = t.split(",")
            lo = int(ab[0])
            hi = int(ab[-1])
        else:
            return a
        self.next()
        assert self.peek() not in ("*", "+", "?", "{"), "stacked quantifier"
        if a[0] == "cls":
            return ("rep", a, lo, hi)
        assert (lo, hi) == (0, 1), (a, lo, hi)
        return ("opt", a)

    def atom(self):
        c = self.next()
        if c == "^":
            assert self.i == 1
            return ("eps",)
        if c == "$":
            return ("end",)
        if c == "(":
            self.g += 1
            n = self.g
            assert self.peek() != "?"
            r = self.alt()
            assert self.next() == ")"
            return ("grp", n, r)
        if c == "[":
            neg = False
            if self.peek() == "^":
                self.next()
                neg = True
            items = []
            first = True
            while self.peek() != "]" or first:
                first = False
                d = self.next()
                if d == "\\":
                    d = self.next()
                    if d == "s":
                        items.append(("space",))
                        continue
                    assert d in ".'", d
                assert d != "["
                if self.peek() == "-" and self.s[self.i + 1] != "]":
                    self.next()
                    e = self.next()
                    assert e not in "\\["
                    items.append(("range", ord(d), ord(e)))
                else:
                    items.append(("range", ord(d), ord(d)))
            self.next()
            return ("cls", neg, items)
        if c == "\\":
            d = self.next()
            if d == "S":
                return ("cls", True, [("space",)])
            assert d in ".", d
            return ("cls", False, [("range", ord(d), ord(d))])
        assert c not in ".*+?{}", c
        return ("cls", False, [("range", ord(c), ord(c))])


def ccls(a):
    items = "; ".join(
        "CSpace" if it[0] == "space" else f"CRange {it[1]} {it[2]}" for it in a[2]
    )
    return f"(CSet {'true' if a[1] else 'false'} [{items}])"


def cre(r):
    k = r[0]
    if k == "eps":
        return "REps"
    if k == "end":
        return "REnd"
    if k == "cls":
        return f"(RChar {ccls(r)})"
    if k == "rep":
        hi = "None" if r[3] is None else f"(Some {r[3]}%nat)"
        return f"(RRep {ccls(r[1])} {r[2]}%nat {hi})"
    if k == "opt":
        return f"(ROpt {cre(r[1])})"
    if k == "grp":
        return f"(RGrp {r[1]}%nat {cre(r[2])})"
    if k == "alt":
        return "(ralts [" + "; ".join(cre(x) for x in r[1]) + "])"
    if k == "seq":
        # runs of literal characters become one RLit
        out, run = [], ""
        for x in r[1]:
            if x[0] == "cls" and not x[1] and len(x[2]) == 1 and x[2][0][0] == "range" and x[2][0][1] == x[2][0][2]:
                run += chr(x[2][0][1])
                continue
            if run:
                out.append(f"RLit {cstr(run)}")
                run = ""
            out.append(cre(x))
        if run:
            out.append(f"RLit {cstr(run)}")
        if len(out) == 1:
            return out[0] if out[0][0] == "(" else "(" + out[0] + ")"
        return "(rseq [" + "; ".join(out) + "])"
    raise Exception(k)


def ngroups(pattern):
    p = P(pattern)
    p.alt()
    return p.g


out = []
W = out.append
W("(** GENERATED by tools/gen_registry.py from the text of")
W("    brel/parsers/XHMTL/xhtml_parse_transformation_registry.py -- do not edit.")
W("    Literal transcription of the dictionaries of that file. *)")
W("From Verif Require Import Base Regex.")
W("Local Open Scope N_scope.")
W("")


def emit_dict(name, comment, entries, ty):
    W(f"(** {name}, lines {lines(name)}{comment} *)")
    W(f"Definition {name} : {ty} := [")
    W(";\n".join("  " + e for e in entries))
    W("].")
    W("")


num = ast.literal_eval(nodes["number_format_to_regex"].value)
emit_dict(
    "number_format_to_regex",
    ": format -> (regular expression, number of groups)",
    [f"({cstr(k)}, ({cre(P(v).alt())}, {ngroups(v)}%nat))" for k, v in num.items()],
    "list (str * (re * nat))",
)
dat = ast.literal_eval(nodes["date_format_to_regex"].value)
emit_dict(
    "date_format_to_regex",
    ": format -> (regular expression, number of groups)",
    [f"({cstr(k)}, ({cre(P(v).alt())}, {ngroups(v)}%nat))" for k, v in dat.items()],
    "list (str * (re * nat))",
)
irr = ast.literal_eval(nodes["irregular_date_order_dict"].value)
emit_dict(
    "irregular_date_order_dict",
    "",
    [f"({cstr(k)}, [{'; '.join(cstr(x) for x in v)}])" for k, v in irr.items()],
    "list (str * list str)",
)
mon = ast.literal_eval(nodes["country_to_month_names"].value)
emit_dict(
    "country_to_month_names",
    "; the key None is the empty option",
    [
        f"({'None' if k is None else 'Some ' + cstr(k)}, ["
        + "; ".join("[" + "; ".join(cstr(x) for x in names) + "]" for names in v)
        + "])"
        for k, v in mon.items()
    ],
    "list (option str * list (list str))",
)
# japanese eras: dict of tuples of datetime.date(...) calls
era = []
d = nodes["japanese_era_to_gregorian_period"].value
for k, v in zip(d.keys, d.values):
    ds = []
    for call in v.elts:
        assert call.func.attr == "date"
        ds.append(tuple(a.value for a in call.args))
    era.append(f"({cstr(k.value)}, (({ds[0][0]}, {ds[0][1]}, {ds[0][2]}), ({ds[1][0]}, {ds[1][1]}, {ds[1][2]})))")
emit_dict(
    "japanese_era_to_gregorian_period",
    ": era -> (first day, last day) as (year, month, day)",
    era,
    "list (str * ((N * N * N) * (N * N * N)))",
)
leg = ast.literal_eval(nodes["legacy_to_current_formats"].value)
emit_dict(
    "legacy_to_current_formats",
    "",
    [f"({cstr(k)}, {cstr(v)})" for k, v in leg.items()],
    "list (str * str)",
)
dig = ast.literal_eval(nodes["digits_map"].value)
emit_dict(
    "digits_map",
    " (in normalize_digits_in_string)",
    [f"({ord(k)}, {ord(v)})" for k, v in dig.items()],
    "list (N * N)",
)
sep = ast.literal_eval(nodes["separators"].value)
W(f"(** separators, line {nodes['separators'].lineno} (in process_number_part) *)")
W("Definition separators : list N := [" + "; ".join(str(ord(c)) for c in sep) + "].")
W("")

# ---------------------------------------------------------------- str.lower on the characters that occur
chars = sorted({c for v in dat.values() for c in v} | {c for v in mon.values() for ns in v for x in ns for c in x})
low = [(ord(c), ord(c.lower())) for c in chars if c.lower() != c and len(c.lower()) == 1]
assert all(len(c.lower()) == 1 for c in chars)


def alts(r):
    """All literal texts of an alternation (for the check on final sigma)."""
    k = r[0]
    if k == "alt":
        for x in r[1]:
            yield from alts(x)
    elif k == "grp":
        yield from alts(r[2])
    elif k == "seq":
        if all(x[0] == "cls" and not x[1] and len(x[2]) == 1 and x[2][0][0] == "range" and x[2][0][1] == x[2][0][2] for x in r[1]):
            yield "".join(chr(x[2][0][1]) for x in r[1])
        else:
            for x in r[1]:
                yield from alts(x)
    elif k == "opt":
        yield from alts(r[1])


for v in dat.values():
    for t in alts(P(v).alt()):
        assert t.lower() == "".join(c.lower() for c in t), t
W("(** Python's str.lower restricted to the characters that occur in the patterns and month")
W("    tables (single-character mappings; the generator checks that no accepted month spelling")
W("    is lowered differently as a whole string). *)")
W("Definition lower_table : list (N * N) := [")
W(";\n".join(f"  ({a}, {b})" for a, b in low))
W("].")
print("\n".join(out))
