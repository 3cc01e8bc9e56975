#!/usr/bin/env python3
"""Which lines of /repo/src do the models cite?

usage: cites.py [-v] [REPO]
Reads the comments of Model*.v, Tables*.v, Base.v.  A citation is `file.rs:a-b`
or `file.rs:a`; later `:a-b` in the same comment refer to the same file.
Prints the runs of code lines (no comments, no blank lines, no tests) that no
model cites; -v also prints the first line of every cited range.
"""
import glob, os, re, sys
args = [a for a in sys.argv[1:] if a != "-v"]
verbose = "-v" in sys.argv
repo = args[0] if args else "/repo"
here = os.path.dirname(os.path.abspath(__file__)) + "/../rocq/theories/"
src = {os.path.basename(f): open(f).read().split("\n") for f in glob.glob(repo + "/src/*.rs")}
cited = {f: set() for f in src}
bad = 0
for f in sorted(glob.glob(here + "Model*.v") + glob.glob(here + "Tables*.v") + [here + "Base.v"]):
    t = open(f).read()
    cur = None
    m0 = re.search(r"([\w]+\.rs)", t[:400])
    default = m0[1] if m0 else None
    for c in re.finditer(r"\(\*(.*?)\*\)", t, re.S):
        cur = None
        for m in re.finditer(r"([\w]+\.rs)(?::(\d+)(?:-(\d+))?)?|(?:^|[\s(,]):?(\d+)-(\d+)\b|(?:^|[\s(,]):(\d+)\b", c[1]):
            if m[1]:
                cur = m[1]
                if not m[2]:
                    continue
                a, b = int(m[2]), int(m[3] or m[2])
            elif m[4]:
                a, b = int(m[4]), int(m[5])
            else:
                a = b = int(m[6])
            file = cur or default
            if file not in src:
                continue
            if not (1 <= a <= b <= len(src[file])):
                print("BAD", os.path.basename(f), file, a, b); bad += 1; continue
            cited[file] |= set(range(a, b + 1))
            if verbose and cur:
                print(f"{os.path.basename(f)}:{t[:c.start()].count(chr(10))+1}  {file}:{a}-{b}  {src[file][a-1].strip()[:70]}")
for f in sorted(src):
    ls, test, run = src[f], False, []
    def flush():
        if run:
            print(f"{f}:{run[0]}-{run[-1]}  {ls[run[0]-1].strip()[:80]}")
        run.clear()
    for i, l in enumerate(ls, 1):
        if re.match(r"#\[cfg\((test|bench|all\(test)", l):
            break
        s = l.strip()
        if not s or s.startswith("//") or s in ("}", ")", "};", "{") or s.startswith("#[") or s.startswith("use "):
            continue
        if i in cited[f]:
            flush()
        else:
            run.append(i)
    flush()
sys.exit(1 if bad else 0)
