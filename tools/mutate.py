#!/usr/bin/env python3
"""Tests the theorems against wrong programs.

usage: mutate.py MUTANTS.py [name ...]

Works in a scratch copy (/tmp/mut/base, or $MUT_BASE, must be a built copy of
/verif/rocq).  A mutant has "edits" of the model, or "src" edits of the Rust
text, which is then translated again by rs2v.py.
For every mutant: edit a definition, recompile what depends on it.  A lemma
whose proof no longer goes through is cut out (in the scratch copy only) and
compilation goes on, so that every failure is found.  A theorem of a Prop*.v
file fails if it, or a lemma it depends on (from the .glob files of the
unmodified build), fails.  Prints one JSON object per mutant.
"""
import concurrent.futures as cf, glob, json, os, re, shutil, subprocess, sys, time
BASE = os.environ.get("MUT_BASE", "/tmp/mut/base")
LEMMA = re.compile(r"^[ \t]*(?:Local |Global )?(Lemma|Theorem|Example|Corollary|Fact|Remark)\s+([\w']+)", re.M)

def files():
    return [l.strip()[9:-2] for l in open(BASE + "/_CoqProject") if l.startswith("theories/")]

def deps():
    fs = files()
    d = {}
    for f in fs:
        t = open(f"{BASE}/theories/{f}.v").read()
        s = set()
        for m in re.finditer(r"From Verif Require (?:Import )?([^.]*)\.", t):
            s |= set(m[1].split())
        d[f] = s & set(fs)
    return d

def graph():
    """name -> set of names it refers to, names are Module.ident"""
    g = {}
    for f in files():
        defs, refs = [], []
        for l in open(f"{BASE}/theories/{f}.glob"):
            m = re.match(r"R(\d+):\d+ Verif\.(\w+) (\S+) (\S+) (\w+)$", l.strip())
            if m:
                refs.append((int(m[1]), f"{m[2]}.{m[4]}"))
                continue
            m = re.match(r"(\w+) (\d+):\d+ (\S+) (\S+)$", l.strip())
            if m and m[1] in ("prf", "def", "thm", "ex", "lem", "ind", "rec", "constr", "proj", "coe", "inst"):
                defs.append((int(m[2]), f"{f}.{m[4]}"))
        defs.sort()
        import bisect
        starts = [d[0] for d in defs]
        for _, n in defs:
            g.setdefault(n, set())
        for p, n in refs:
            i = bisect.bisect_right(starts, p) - 1
            if i >= 0:
                g[defs[i][1]].add(n)
    return g

def strip_assumptions(t):
    return re.sub(r"^Print Assumptions .*\n", "", t, flags=re.M)

class Build:
    def __init__(self, work):
        self.work, self.failed, self.fatal = work, [], []
    def coqc(self, f, timeout):
        env = dict(os.environ)
        cmd = f"ulimit -v 9000000; exec timeout {timeout} coqc -time -Q theories Verif theories/{f}.v"
        p = subprocess.run(["bash", "-c", cmd], cwd=self.work, stdout=subprocess.PIPE, stderr=subprocess.STDOUT)
        return p.returncode, p.stdout.decode(errors="replace")
    def compile(self, f):
        path = f"{self.work}/theories/{f}.v"
        for _ in range(80):
            r, out = self.coqc(f, 400)
            if r == 0:
                return True
            src = open(path, "rb").read().decode()
            m = re.findall(r'^File "[^"]*", line (\d+), characters (\d+)-(\d+):\s*\n(?=Error|[^\n]*Error)', out, re.M)
            if m:
                line = int(m[-1][0])
                pos = sum(len(x) + 1 for x in src.split("\n")[:line - 1]) + int(m[-1][1])
            else:                      # timeout, out of memory: after the last sentence timed
                c = re.findall(r"^Chars (\d+) - (\d+)", out, re.M)
                if not c:
                    break
                pos = len(src.encode()[:int(c[-1][1])].decode()) + 2
            ls = [x for x in LEMMA.finditer(src) if x.start() <= pos]
            if not ls:
                break
            l = ls[-1]
            pm = re.compile(r"^[ \t]*Proof\b", re.M).search(src, l.end())
            q = re.compile(r"\b(Qed|Defined)\.").search(src, pm.end() if pm else l.end())
            if not pm or not q or not (pm.start() <= pos + 1 and pos <= q.end()):
                break
            self.failed.append(f"{f}.{l[2]}")
            src = src[:pm.start()] + "Admitted." + src[q.end():]
            open(path, "w").write(src)
        self.fatal.append(f)
        return False

def run(mut, g, dd):
    work = "/tmp/mut/work_" + mut["name"]
    shutil.rmtree(work, ignore_errors=True)
    shutil.copytree(BASE, work)
    for f in glob.glob(work + "/theories/Prop*.v"):
        open(f, "w").write(strip_assumptions(open(f).read())) if False else None
    dirty = set()
    if "src" in mut:
        src, out = work + "/src", work + "/gen"
        shutil.copytree("/repo/src", src); os.mkdir(out); shutil.copy("/repo/Cargo.toml", work + "/Cargo.toml")
        for fn, old, new in mut["src"]:
            p = f"{src}/{fn}"
            t = open(p).read()
            if old not in t:
                return dict(name=mut["name"], error=f"text not found in {fn}: {old}")
            open(p, "w").write(t.replace(old, new) if mut.get("all") else t.replace(old, new, 1))
        r = subprocess.run([sys.executable, os.path.join(os.path.dirname(os.path.abspath(__file__)), "rs2v.py"), src, out], stdout=subprocess.PIPE, stderr=subprocess.STDOUT)
        if r.returncode:
            return dict(name=mut["name"], error="rs2v: " + r.stdout.decode()[-300:])
        for p in glob.glob(out + "/*.v"):
            fn = os.path.basename(p)[:-2]
            if open(p).read() != open(f"{work}/theories/{fn}.v").read():
                shutil.copy(p, f"{work}/theories/{fn}.v"); dirty.add(fn)
        if not dirty:
            return dict(name=mut["name"], error="translation unchanged")
    for fn, old, new in mut.get("edits", []):
        p = f"{work}/theories/{fn}.v"
        t = open(p).read()
        if t.count(old) < 1:
            return dict(name=mut["name"], error=f"text not found in {fn}: {old}")
        t = t.replace(old, new) if mut.get("all") else t.replace(old, new, 1)
        open(p, "w").write(t)
        dirty.add(fn)
    order = files()
    todo = []
    for f in order:
        if f in dirty or dd[f] & set(todo):
            todo.append(f)
    for f in todo:
        if f.startswith("Prop"):
            p = f"{work}/theories/{f}.v"
            t = open(p).read(); open(p, "w").write(strip_assumptions(t))
    b = Build(work)
    done, bad, running = set(order) - set(todo), set(), {}
    t0 = time.time()
    with cf.ThreadPoolExecutor(4) as ex:
        pend = list(todo)
        while pend or running:
            for f in list(pend):
                if dd[f] & bad:
                    bad.add(f); pend.remove(f); b.fatal.append(f + " (dependency)")
                elif dd[f] <= done:
                    running[ex.submit(b.compile, f)] = f; pend.remove(f)
            if not running:
                continue
            ds, _ = cf.wait(running, return_when=cf.FIRST_COMPLETED)
            for d in ds:
                f = running.pop(d)
                (done if d.result() else bad).add(f)
    # closure
    rev = {}
    for n, s in g.items():
        for x in s:
            rev.setdefault(x, set()).add(n)
    hit, stack = set(), list(b.failed)
    badfiles = {f.split()[0] for f in b.fatal}
    stack += [n for n in g if n.split(".")[0] in badfiles and n.split(".")[0].startswith(("Proof", "Prop"))]
    while stack:
        n = stack.pop()
        if n in hit: continue
        hit.add(n); stack += rev.get(n, ())
    thms = sorted(n.split(".")[1] for n in hit if n.startswith("Prop") and re.match(r"C\d\d_", n.split(".")[1]))
    shutil.rmtree(work, ignore_errors=True)
    broken = [t for t in thms if not t.endswith("_case")]
    claims = sorted({t[:3] for t in broken})
    return dict(name=mut["name"], edits=mut.get("edits", []), src=mut.get("src", []), claims=mut["claims"], why=mut.get("why", ""), failed_lemmas=b.failed, fatal=b.fatal,
                failed_theorems=broken, failed_claims=claims, missed=[c for c in mut["claims"] if c not in claims],
                seconds=round(time.time() - t0))

if __name__ == "__main__":
    ns = {}
    exec(open(sys.argv[1]).read(), ns)
    g, dd = graph(), deps()
    for m in ns["MUTANTS"]:
        if len(sys.argv) > 2 and m["name"] not in sys.argv[2:]:
            continue
        print(json.dumps(run(m, g, dd)), flush=True)
