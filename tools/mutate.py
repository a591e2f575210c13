#!/usr/bin/env python3
"""Mutation tests of the theorems, in scratch copies outside /verif.

usage: mutate.py mutations.json [jobs]

A mutation is {"id", "file", "old", "new", "claim"}: in theories/<file>, replace the
single occurrence of "old" by "new"; "claim" says what this breaks.  Proofs that fail are
replaced by Admitted in the copy, so that Print Assumptions in the Properties files shows which
property theorems depend on them.  Examples that fail are listed separately.  Appends one
line per mutation to seeded/RESULTS.jsonl.  With MUT_FIRST=1 it stops at the first Properties file that has failing theorems.
"""
import json, os, re, shutil, subprocess, sys
from concurrent.futures import ThreadPoolExecutor
ROOT = os.environ.get("MUT_ROOT") or os.path.join(os.path.dirname(os.path.abspath(__file__)), "..")
SCRATCH = "/tmp/mutate"
LIMIT = 240
FIRST = bool(os.environ.get("MUT_FIRST"))   # stop at the first Properties file with a theorem that fails

def deps(d):
    files = [l.strip() for l in open(d + "/_CoqProject") if l.strip().endswith(".v")]
    out = subprocess.run(["coqdep", "-Q", "theories", "Verif"] + files, cwd=d, capture_output=True, text=True).stdout
    dep = {}
    for l in out.splitlines():
        m = re.match(r"(theories/\w+)\.vo\b[^:]*:(.*)", l)
        if m:
            dep[m.group(1) + ".v"] = [x[:-1] for x in m.group(2).split() if x.endswith(".vo")]
    order, seen = [], set()
    def visit(f):
        if f in seen: return
        seen.add(f)
        for g in dep.get(f, []):
            visit(g)
        order.append(f)
    for f in files: visit(f)
    return order, dep

def nearest(order, dep, changed):
    """The files to compile, so that the Properties files that need least of them come first."""
    dirty = {changed}
    for f in order:
        if any(g in dirty for g in dep[f]): dirty.add(f)
    def needs(f, acc):
        if f in dirty and f not in acc:
            acc.add(f)
            for g in dep[f]: needs(g, acc)
        return acc
    weigh = lambda acc: sum(os.path.getsize(ROOT + "/rocq/" + f) for f in acc)
    out = []
    for f in sorted((f for f in order if "Properties" in f and f in dirty), key=lambda f: weigh(needs(f, set()))):
        acc = needs(f, set())
        out += [g for g in order if g in acc and g not in out]
    return out + [f for f in order if f in dirty and f not in out]

def coqc(d, f):
    log = d + "/out.txt"
    with open(log, "w") as o:
        try:
            r = subprocess.run(["stdbuf", "-oL", "coqc", "-time", "-Q", "theories", "Verif", f], cwd=d,
                               stdout=o, stderr=subprocess.STDOUT, timeout=LIMIT).returncode
        except subprocess.TimeoutExpired:
            r = -1
    return r, open(log, errors="replace").read()

DECL = re.compile(r"^ *(Lemma|Theorem|Example|Corollary|Fact|Remark)\s+(\w+)", re.M)
def admit(path, out, timed_out):
    src = open(path).read()
    if timed_out:
        spans = re.findall(r"Chars (\d+) - (\d+)", out)
        b = src.encode()
        pos = len(b[:int(spans[-1][1])].decode(errors="ignore")) if spans else 0
    else:
        m = re.findall(r'File "[^"]*", line (\d+), characters', out)
        if not m: return None
        n = int(m[-1])
        pos = sum(len(l) + 1 for l in src.split("\n")[:n]) - 1
    best = None
    for m in DECL.finditer(src):
        if m.start() <= pos: best = m
    if best is None: return None
    pr = src.find("Proof.", best.end())
    ends = [x for x in (src.find("Qed.", pr), src.find("Defined.", pr)) if x >= 0]
    if pr < 0 or not ends: return None
    e = src.index(".", min(ends)) + 1
    line_start = src.rfind("\n", 0, pos) + 1
    if e < line_start or (not timed_out and pos < pr): return None   # error in a definition or a statement
    open(path, "w").write(src[:pr] + "Admitted." + src[e:])
    return best.group(1), best.group(2)

def one(args):
    m, k = args
    d = "%s/w%s" % (SCRATCH, m["id"])
    shutil.rmtree(d, ignore_errors=True)
    shutil.copytree(ROOT + "/rocq", d, copy_function=shutil.copy2, ignore=shutil.ignore_patterns(".lia.cache"))
    p = d + "/theories/" + m["file"]
    s = open(p).read()
    if s.count(m["old"]) != 1:
        return dict(m, result="old text occurs %d times" % s.count(m["old"]))
    open(p, "w").write(s.replace(m["old"], m["new"]))
    order, dep = deps(d)
    if FIRST: order = nearest(order, dep, "theories/" + m["file"])
    dirty, lemmas, examples, theorems = {"theories/" + m["file"]}, [], [], []
    for f in order:
        if f not in dirty and not any(g in dirty for g in dep[f]): continue
        dirty.add(f)
        while True:
            r, out = coqc(d, f)
            if r == 0: break
            a = admit(d + "/" + f, out, r == -1)
            if a is None:
                err = out[out.rfind("Error"):][:400] if r != -1 else "timeout"
                shutil.rmtree(d, ignore_errors=True)
                return dict(m, result="does not compile: %s %s" % (f, err))
            (examples if a[0] == "Example" else lemmas).append(a[1])
            if os.path.exists(d + "/.lia.cache"): os.remove(d + "/.lia.cache")
        if "Properties" in f:
            src = open(d + "/" + f).read()
            names = re.findall(r"^Print Assumptions (\w+)", src, re.M)
            plain = re.sub(r"^Chars .*$\n?", "", out, flags=re.M)
            blocks = re.findall(r"^(Closed under the global context|Axioms:(?:\n(?!Closed|Axioms).*)*)", plain, re.M)
            if len(blocks) != len(names): theorems.append("?%s %d/%d" % (f, len(blocks), len(names)))
            theorems += [n for n, b in zip(names, blocks) if not b.startswith("Closed")]
            if FIRST and theorems: break
    shutil.rmtree(d, ignore_errors=True)
    return dict(m, result="killed" if theorems else "survived", lemmas=lemmas, examples=examples, theorems=theorems)

if __name__ == "__main__":
    ms = json.load(open(sys.argv[1]))
    jobs = int(sys.argv[2]) if len(sys.argv) > 2 else 2
    os.makedirs(SCRATCH, exist_ok=True)
    with ThreadPoolExecutor(jobs) as ex:
        for r in ex.map(one, [(m, i) for i, m in enumerate(ms)]):
            with open(os.path.join(os.path.dirname(os.path.abspath(__file__)), "..", "seeded", "RESULTS.jsonl"), "a") as f: f.write(json.dumps(r) + "\n")
            print(r["id"], r["result"], r.get("lemmas"), r.get("examples"), r.get("theorems"), flush=True)
