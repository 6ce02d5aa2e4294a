#!/usr/bin/env python3
"""Small edits of every definition of a model.

sweep.py FILE PROPS[,PROPS...] [-n EDITS] [-s SEED] [-k DEF,DEF...]
makes EDITS small edits (an inverted test, a changed literal, a lost case ...) of each definition of
FILE (or of those named), one at a time, in a scratch copy of rocq/, and rebuilds what the files PROPS
need. A proof that fails is replaced by Admitted, as in mutate.py. Prints a JSON line for each edit: the
theorems of the first of PROPS in which any failed, or none if the edit survives. Edits that are not
well typed are passed over."""
import argparse, json, os, random, re, shutil, subprocess, sys, time
ap = argparse.ArgumentParser()
ap.add_argument("file"); ap.add_argument("props")
ap.add_argument("-n", type=int, default=2); ap.add_argument("-s", type=int, default=1); ap.add_argument("-k", default="")
A = ap.parse_args()
ROOT = os.path.abspath(os.path.join(os.path.dirname(__file__), ".."))
SCRATCH = os.environ.get("SCRATCH", "/tmp/mut/rocq")
sys.argv = [sys.argv[0], "/dev/null"]
exec(open(os.path.join(os.path.dirname(os.path.abspath(__file__)), "mutate.py")).read().split("\nfresh()\n")[0])

OPS = [
    (r"\bif (?!negb)([^;\n]+?) then", r"if negb (\1) then", "the test is inverted"),
    (r"\bif negb (\([^()]*\)|\w+) then", r"if \1 then", "the test is inverted"),
    (r"\btrue\b", "false", "true becomes false"), (r"\bfalse\b", "true", "false becomes true"),
    (r"&&", "||", "and becomes or"), (r"\|\|", "&&", "or becomes and"),
    (r'\bu "([^"]+)"', r'u "\1x"', "another text"), (r'\bch "(.)"', r'ch "~"', "another character"),
    (r"\bexistsb\b", "forallb", "some becomes all"), (r"\bforallb\b", "existsb", "all becomes some"),
    (r"\bfst\b", "snd", "the other component"), (r"\bsnd\b", "fst", "the other component"),
    (r"\bSome (\([^()]*\)|\w+)", "None", "nothing instead of a value"),
    (r"=> None\b", "=> Some []", "a value instead of nothing"),
    (r"\bRaise (\w+)", "Raise (if true then IndexError else \\1)", "another exception"),
    (r"\bNat\.ltb\b", "Nat.leb", "less or equal"), (r"\bNat\.leb\b", "Nat.ltb", "less"), (r"<\?", "<=?", "less or equal"), (r"<=\?", "<?", "less"),
    (r"(\w+|\([^()]*\)) \+\+ (\w+|\([^()]*\))", r"\2 ++ \1", "the other order"), (r"(\w+|\([^()]*\)) :: (\w+|\([^()]*\))", r"\2", "an item is lost"),
    (r"\brev (\w+)\b", r"\1", "not reversed"), (r"\bfilter (\([^()]*(?:\([^()]*\)[^()]*)*\)|\w+) ", "filter (fun _ => true) ", "nothing is left out"),
    (r"\bdict_set str_eqb (\w+)", r"(fun d k v => if dict_mem str_eqb d k then d else dict_set str_eqb d k v) \1", "the first stays"),
    (r"\bnegb (\([^()]*\)|\w+)", r"\1", "not negated"),
    (r"\bOk (\w+)\b", r"Raise (fst (ValueError, Ok \1))", "raises"),
    (r"\bstarts_with\b", "ends_with", "end instead of start"), (r"\bends_with\b", "starts_with", "start instead of end"),
    (r"\bcontains\b", "starts_with", "start instead of part"), (r"\bstrip\b", "(fun x : str => x)", "not stripped"),
    (r"\blast_of\b", "hd_error", "the first instead of the last"),
    (r"(?<![\w.])(\d+)(?![\w.\"])", lambda m: str(int(m.group(1)) + 1), "a number one higher"),
    (r"\+ 1\b", "+ 2", "a number one higher"), (r"\bS (\w+)", r"\1", "one less"),
]
src = open(ROOT + "/rocq/theories/" + A.file + ".v").read()
heads = list(re.finditer(r"^[ \t]*(?:#\[[^\]]*\] ?)?(Definition|Fixpoint|with)\s+([\w']+)", src, re.M))
stops = [m.start() for m in re.finditer(r"^[ \t]*(?:Definition|Fixpoint|with|Inductive|Record|Notation|Section|End|Lemma|Theorem|Variable|Context|Infix|Arguments|Local|Open|From|Require|\(\*\*)", src, re.M)] + [len(src)]
fresh()
ORDER = order(); D = deps()
need = {}
for p in A.props.split(","):
    need[p] = wanted_from = set()
    todo = [p]
    while todo:
        f = todo.pop()
        if f not in wanted_from:
            wanted_from.add(f); todo.extend(D.get(f, ()))
def restore(fs):
    for f in fs:
        for e in (".v", ".vo", ".glob", ".vok", ".vos"):
            a, b = ROOT + "/rocq/theories/" + f + e, SCRATCH + "/theories/" + f + e
            if os.path.exists(a):
                shutil.copy2(a, b)
def attempt(text):
    """None if not well typed; else (failed theorems, first failures)"""
    open(SCRATCH + "/theories/" + A.file + ".v", "w").write(text)
    ok, out, off, err = compile(A.file)
    if not ok:
        return None
    hit, first, failed = {A.file}, [], []
    try:
        for p in A.props.split(","):
            for f in ORDER:
                if f in hit or f not in need[p] or not (D.get(f, set()) & hit):
                    continue
                hit.add(f)
                for _ in range(60):
                    ok, out, off, err = compile(f)
                    if ok:
                        failed += [n for n, good in assumptions(f, out).items() if good is False and re.match(r"C\d+_", n)]
                        break
                    name = admit(f, off) if off is not None else None
                    if name is None:
                        return (failed, first + [f + " does not build"])
                    first.append(f + "." + name)
                else:
                    return (failed, first + [f + " has too many failures"])
            if failed:
                break
        return (sorted(set(failed)), first)
    finally:
        restore(hit)
rng = random.Random(A.s)
only = set(A.k.split(",")) if A.k else None
for h in heads:
    name = h.group(2)
    if only and name not in only:
        continue
    end = min(x for x in stops if x > h.start())
    colon = src.find(":=", h.start(), end)
    if colon < 0:
        continue
    cands, seen = [], set()
    for pat, rep, what in OPS:
        for m in re.finditer(pat, src[colon:end]):
            a, b = colon + m.start(), colon + m.end()
            new = m.expand(rep) if isinstance(rep, str) else rep(m)
            if (a, b, new) not in seen and new != m.group(0):
                seen.add((a, b, new)); cands.append((a, b, new, what))
    rng.shuffle(cands)
    done, used = 0, set()
    for a, b, new, what in cands:
        if done >= A.n:
            break
        if what in used and len(set(c[3] for c in cands)) > len(used):
            continue
        t0 = time.time()
        r = attempt(src[:a] + new + src[b:])
        restore([A.file])
        if r is None:
            continue
        used.add(what); done += 1
        line = src.rfind("\n", 0, a) + 1, src.find("\n", b)
        print(json.dumps({"definition": A.file + "." + name, "old": src[line[0]:line[1]].strip(), "new": (src[line[0]:a] + new + src[b:line[1]]).strip(), "what": what,
                          "failed": r[0], "first": r[1][:6], "seconds": round(time.time() - t0)}), flush=True)
