#!/usr/bin/env python3
"""Mutation testing of the theorems.

usage: mutate.py MUTANTS.json SCRATCH_DIR [JOBS]

MUTANTS.json is a list of {"id", "file", "old", "new", "definition", "edit", "claim"}: in theories/FILE the (unique) text OLD
is replaced by NEW in a scratch copy; "java" instead of "file" edits a copy of /repo and translates it again.  Everything that
depends on the edited file is compiled again.  A proof that fails is replaced by Admitted (in the scratch copy only) and the build goes on, so that
all failures are seen (with FIRST=1 in the environment, until one property theorem rests on a failed proof); at the end the .glob files tell which property theorems rest on a failed proof.
One JSON line per mutant is printed: the theorems that failed and the lemmas that broke.
"""
import json, os, re, shutil, subprocess, sys, concurrent.futures as cf, glob, bisect

# the compiled tree the mutants start from
ROOT = os.environ.get("VERIF_BASE") or os.path.dirname(os.path.dirname(os.path.abspath(__file__)))
LIMIT = 400
FIRST = os.environ.get("FIRST") == "1"

def copy(a, b):
    shutil.rmtree(b, ignore_errors=True)
    subprocess.run(["cp", "-a", a, b], check=True)

def deps(th):
    files = [os.path.relpath(f, th) for f in glob.glob(th + "/*/*.v")]
    out = subprocess.run(["coqdep", "-Q", ".", "Verif"] + files, cwd=th, capture_output=True, text=True).stdout
    d = {}
    for line in out.replace("\\\n", " ").splitlines():
        l, r = line.split(":", 1)
        t = l.split()[0]
        if t.endswith(".vo"):
            d[t[:-1]] = [x[:-1] for x in r.split() if x.endswith(".vo")]
    return d

def coqc(th, f, timed=False):
    cmd = "ulimit -v 6000000; exec timeout %d coqc %s -Q . Verif %s" % (LIMIT, "-time" if timed else "", f)
    p = subprocess.run(["bash", "-c", cmd], cwd=th, capture_output=True, text=True)
    return p.returncode, p.stdout, p.stderr

HEAD = re.compile(r"^[ ]*(?:Local |Global )?(Lemma|Theorem|Example|Corollary|Fact|Remark)\s+(\w+)", re.M)

def strip_comments(s):
    # keep offsets
    out, depth, i = list(s), 0, 0
    while i < len(s):
        if s.startswith("(*", i): depth += 1; out[i] = out[i+1] = " "; i += 2; continue
        if s.startswith("*)", i) and depth: depth -= 1; out[i] = out[i+1] = " "; i += 2; continue
        if depth and s[i] != "\n": out[i] = " "
        i += 1
    return "".join(out)

def patch(path, off):
    """replace the proof around character offset off; returns (name, kind) or None"""
    s = open(path, encoding="utf-8").read()
    c = strip_comments(s)
    best = None
    for m in HEAD.finditer(c):
        if m.start() <= off: best = m
        else: break
    if not best: return None
    pm = re.compile(r"\bProof\b[^.]*\.").search(c, best.end())
    qm = re.compile(r"\b(Qed|Defined|Admitted)\.").search(c, best.end())
    if not pm or not qm or qm.group(1) == "Admitted" or off > qm.end(): return None
    if off < pm.start():
        s = s[:best.start()] + s[qm.end():]
        kind = "statement"
    else:
        s = s[:pm.end()] + " Admitted." + s[qm.end():]
        kind = "proof"
    open(path, "w", encoding="utf-8").write(s)
    return best.group(2), kind

def build(th, f, broke):
    for _ in range(60):
        rc, out, err = coqc(th, f)
        if rc == 0: return True
        m = None
        for m in re.finditer(r'File "[^"]*", line (\d+), characters (\d+)-(\d+):\s*\n(?:Error|.*Error)', err): pass
        path = os.path.join(th, f)
        s = open(path, encoding="utf-8").read()
        if m:
            lines = s.encode().split(b"\n")
            bo = sum(len(l) + 1 for l in lines[:int(m.group(1)) - 1]) + int(m.group(2))
            off = len(s.encode()[:bo].decode("utf-8", "ignore"))
        else:
            rc, out, err = coqc(th, f, True)
            if rc == 0: return True
            ms = re.findall(r"^Chars (\d+) - (\d+)", out, re.M)
            bo = int(ms[-1][1]) + 1 if ms else 0
            off = len(s.encode()[:bo].decode("utf-8", "ignore")) + 1
        r = patch(path, off)
        if r is None:
            # a name removed earlier, e.g. in Print Assumptions
            b = s.rfind("\n", 0, off) + 1
            e = s.find("\n", off)
            line = s[b:e]
            if re.match(r"\s*(Print Assumptions|Check|Hint|Global Hint)", line):
                open(path, "w", encoding="utf-8").write(s[:b] + s[e:])
                continue
            broke.append((f, "(file)", (err.strip().splitlines() or ["timeout"])[-1][:200]))
            return False
        broke.append((f, r[0], r[1]))
    return False

def theorems(th):
    r = {}
    for f in sorted(glob.glob(th + "/Props/*.v")):
        r["Props/" + os.path.basename(f)] = re.findall(r"^Theorem (\w+)", open(f, encoding="utf-8").read(), re.M)
    return r

def graph(th):
    """who mentions whom, from the .glob files"""
    g = {}
    for f in glob.glob(th + "/*/*.glob"):
        mod = os.path.relpath(f, th)[:-5].replace("/", ".")
        defs, refs = [], []
        for line in open(f):
            m = re.match(r"R(\d+):\d+ Verif\.([\w.]+) (\S+) (\S+) \w+", line)
            if m: refs.append((int(m.group(1)), m.group(2), m.group(4))); continue
            m = re.match(r"(?:prf|def|thm|ex|lem|fix|ind|rec|inst|coe) (\d+):\d+ \S+ (\S+)", line)
            if m: defs.append((int(m.group(1)), m.group(2)))
        defs.sort()
        for o, mo, n in refs:
            i = bisect.bisect_right(defs, (o, "~")) - 1
            if i >= 0: g.setdefault((mod, defs[i][1]), set()).add((mo, n))
    return g

def tainted(t, g, bads):
    seen, todo = {t}, [t]
    while todo:
        x = todo.pop()
        if x in bads: return True
        for y in g.get(x, ()):
            if y not in seen: seen.add(y); todo.append(y)
    return False

def run(mut, scratch, jobs):
    th = scratch + "/theories"
    os.makedirs(scratch, exist_ok=True)
    copy(ROOT + "/rocq/theories", th)
    if "java" in mut:
        repo = scratch + "/repo"
        copy("/repo", repo)
        p = repo + "/" + mut["java"]
        s = open(p).read()
        assert s.count(mut["old"]) == mut.get("count", 1), ("count", s.count(mut["old"]), mut["id"])
        open(p, "w").write(s.replace(mut["old"], mut["new"]))
        gen = scratch + "/gen"
        shutil.rmtree(gen, ignore_errors=True); os.makedirs(gen + "/Java")
        for tool in ["translate.py", "mksrc.py", "mkcodec.py"]:
            t = subprocess.run([sys.executable, ROOT + "/tools/" + tool, repo, gen], capture_output=True, text=True)
            if t.returncode:
                return {"id": mut["id"], "failed": [tool + " stops: " + t.stderr.strip().splitlines()[-1][:200]], "broke": []}
        start = set()
        for d in ["Model", "Java"]:
            for f in os.listdir(gen + "/" + d):
                if open(gen + "/" + d + "/" + f).read() != open(th + "/" + d + "/" + f).read():
                    shutil.copy(gen + "/" + d + "/" + f, th + "/" + d + "/" + f); start.add(d + "/" + f)
    else:
        p = th + "/" + mut["file"]
        s = open(p, encoding="utf-8").read()
        edits = mut["edits"] if "edits" in mut else [[mut["old"], mut["new"]]]
        for a, b in edits:
            assert s.count(a) == 1, ("count", s.count(a), mut["id"], a)
            s = s.replace(a, b)
        open(p, "w", encoding="utf-8").write(s)
        start = {mut["file"]}
    before = theorems(th)
    d = deps(th)
    dirty, done, bad = set(start), set(), set()
    grew = True
    while grew:
        grew = False
        for f, ds in d.items():
            if f not in dirty and any(x in dirty for x in ds): dirty.add(f); grew = True
    broke = []
    todo = set(dirty)
    with cf.ThreadPoolExecutor(jobs) as ex:
        fut = {}
        while todo or fut:
            for f in sorted(todo):
                if all(x not in dirty or x in done for x in d[f]):
                    if any(x in bad for x in d[f]): bad.add(f); todo.discard(f); done.add(f); break
                    if len(fut) < jobs: fut[ex.submit(build, th, f, broke)] = f; todo.discard(f)
            if not fut:
                continue
            fin, _ = cf.wait(list(fut), timeout=1, return_when=cf.FIRST_COMPLETED)
            for x in fin:
                f = fut.pop(x)
                done.add(f)
                if not x.result(): bad.add(f)
            if FIRST and fin and broke and todo:
                g = graph(th)
                bads = {(f[:-2].replace("/", "."), n) for f, n, _ in broke}
                if bad or any(tainted((f[:-2].replace("/", "."), t), g, bads) for f, ts in before.items() for t in ts): todo = set()
    failed, after = [], theorems(th)
    bads = {(f[:-2].replace("/", "."), n) for f, n, _ in broke}
    for f, ts in before.items():
        if f in bad: failed += ts
        else: failed += [t for t in ts if t not in after[f]]
    g = graph(th)
    failed = sorted(set(failed) | {t for f, ts in before.items() if f not in bad for t in ts if t in after[f]
                                   and tainted((f[:-2].replace("/", "."), t), g, bads)})
    return {"id": mut["id"], "failed": sorted(failed), "broke": ["%s:%s(%s)" % x for x in broke], "bad": sorted(bad)}

if __name__ == "__main__":
    muts = json.load(open(sys.argv[1]))
    jobs = int(sys.argv[3]) if len(sys.argv) > 3 else 4
    for m in muts:
        try: r = run(m, sys.argv[2], jobs)
        except AssertionError as e: r = {"id": m["id"], "error": str(e)}
        print(json.dumps(r), flush=True)
