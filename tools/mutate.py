#!/usr/bin/env python3
"""Test the theorems against wrong programs.

mutate.py SPEC.jsonl [name ...]   edits a scratch copy of rocq/ as each line of SPEC says and
rebuilds what depends on the edited file. A proof that fails is replaced by Admitted and the build
goes on, so that every theorem affected is found; a theorem counts as failed if its own proof or
one it uses failed (Print Assumptions). Each line of SPEC has name, file, old, new (exact text,
unique), claim (what the edit breaks) and props (properties whose theorems must fail).
With FOCUS=1 only the files with theorems of these properties, and what they need, are rebuilt.
Prints a JSON line for each edit."""
import json, os, re, shutil, subprocess, sys, time
ROOT = os.path.abspath(os.path.join(os.path.dirname(__file__), ".."))
SCRATCH = os.environ.get("SCRATCH", "/tmp/mut/rocq")
HEAD = re.compile(r"^[ \t]*(?:Local |Global |#\[[^\]]*\] ?)*(Lemma|Theorem|Example|Corollary|Fact|Remark|Definition|Fixpoint|Instance)\s+([\w']+)", re.M)
TIMEOUT = int(os.environ.get("TIMEOUT", "400"))

def fresh():
    shutil.rmtree(SCRATCH, ignore_errors=True)
    os.makedirs(os.path.dirname(SCRATCH), exist_ok=True)
    subprocess.run(["cp", "-a", ROOT + "/rocq", SCRATCH], check=True)

def order():
    out = subprocess.run("coqdep -Q theories Verif -sort " + " ".join(
        l.strip() for l in open(SCRATCH + "/_CoqProject") if l.strip().endswith(".v")), shell=True, cwd=SCRATCH,
        capture_output=True, text=True).stdout
    return [os.path.basename(f).replace(".v", "").replace("./", "") for f in out.split()]

def deps():
    out = subprocess.run("coqdep -Q theories Verif theories/*.v", shell=True, cwd=SCRATCH, capture_output=True, text=True).stdout
    d = {}
    for line in out.split("\n"):
        m = re.match(r"theories/(\w+)\.vo\b[^:]*: (.*)", line)
        if m:
            d[m.group(1)] = set(re.findall(r"theories/(\w+)\.vo", m.group(2)))
    return d

def compile(f):
    """(ok, output, failing character offset or None)"""
    p = SCRATCH + "/theories/" + f + ".v"
    try:
        r = subprocess.run(["coqc", "-time", "-q", "-Q", "theories", "Verif", p], cwd=SCRATCH, capture_output=True, text=True, timeout=TIMEOUT)
        out, err = r.stdout, r.stderr
        if r.returncode == 0:
            return True, out, None, ""
    except subprocess.TimeoutExpired as e:
        out = (e.stdout or b"").decode() if isinstance(e.stdout, bytes) else (e.stdout or "")
        ends = [int(m.group(1)) for m in re.finditer(r"^Chars \d+ - (\d+) ", out, re.M)]
        return False, out, (ends[-1] + 2 if ends else 0), "timeout"
    m = re.search(r'line (\d+), characters (\d+)-(\d+):', err)
    if not m:
        return False, out, None, err
    lines = open(p, "rb").read().split(b"\n")
    off = sum(len(l) + 1 for l in lines[:int(m.group(1)) - 1]) + int(m.group(2))
    return False, out, off, err

def admit(f, off):
    """Replace the proof around byte offset off by Admitted; the name of its statement."""
    p = SCRATCH + "/theories/" + f + ".v"
    b = open(p, "rb").read()
    heads = [(m.start(), m.group(2).decode()) for m in re.finditer(HEAD.pattern.encode(), b, re.M) if m.start() <= off]
    if not heads:
        return None
    start, name = heads[-1]
    m = re.compile(rb"\bProof\b[^.]*\.").search(b, start)
    e = re.compile(rb"\b(Qed|Defined)\.").search(b, start)
    if not m or not e or m.start() > e.start() or off > e.end() or off < m.start() - 0 and off < start:
        return None
    if off < m.start():
        return None
    b = b[:m.start()] + b"Admitted." + b[e.end():]
    open(p, "wb").write(b)
    return name

def assumptions(f, out):
    names = re.findall(r"^Print Assumptions ([\w']+)\.", open(SCRATCH + "/theories/" + f + ".v").read(), re.M)
    out = "\n".join(l for l in out.split("\n") if not re.match(r"^Chars \d+ - \d+ ", l))
    blocks = re.findall(r"^(Closed under the global context|Axioms:)", out, re.M)
    if len(blocks) != len(names):
        return {n: None for n in names}
    return {n: b.startswith("Closed") for n, b in zip(names, blocks)}

def wanted(props, d):
    """The files that hold theorems of the properties, and those they depend on."""
    todo = [f for f in d if re.search(r"^Theorem (%s)_" % "|".join(props), open(SCRATCH + "/theories/" + f + ".v").read(), re.M)]
    seen = set()
    while todo:
        f = todo.pop()
        if f not in seen:
            seen.add(f)
            todo.extend(d.get(f, ()))
    return seen

def run(m):
    fresh()
    p = SCRATCH + "/theories/" + m["file"] + ".v"
    s = open(p).read()
    if s.count(m["old"]) != 1:
        return {"name": m["name"], "error": "old text occurs %d times" % s.count(m["old"])}
    open(p, "w").write(s.replace(m["old"], m["new"]))
    d = deps()
    focus = wanted(m["props"], d) if os.environ.get("FOCUS") else set(d)
    hit, res, broken, thms = {m["file"]}, {}, [], {}
    t0 = time.time()
    for f in ORDER:
        if f != m["file"] and (f not in focus or not (d.get(f, set()) & hit)):
            continue
        hit.add(f)
        for _ in range(60):
            ok, out, off, err = compile(f)
            if ok:
                thms.update(assumptions(f, out))
                break
            name = admit(f, off) if off is not None else None
            if name is None:
                return {"name": m["name"], "error": "does not build: " + f, "at": off, "message": err[:600], "broken": broken}
            broken.append(f + "." + name)
        else:
            return {"name": m["name"], "error": "too many failures in " + f, "broken": broken}
    failed = sorted(n for n, ok in thms.items() if ok is False)
    alive = sorted(n for n, ok in thms.items() if ok and any(n.startswith(q + "_") for q in m["props"]))
    return {"name": m["name"], "failed": failed, "first": broken, "alive": alive,
            "caught": [q for q in m["props"] if any(n.startswith(q + "_") for n in failed)],
            "missed": [q for q in m["props"] if not any(n.startswith(q + "_") for n in failed)],
            "seconds": round(time.time() - t0)}

fresh()
ORDER = order()
for line in open(sys.argv[1]):
    if line.strip():
        m = json.loads(line)
        if len(sys.argv) > 2 and m["name"] not in sys.argv[2:]:
            continue
        print(json.dumps(run(m)), flush=True)
