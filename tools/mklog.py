#!/usr/bin/env python3
"""Appends the results of mutate.py (a JSON-lines file) to seeded/LOG.jsonl.

usage: mklog.py RESULTS.jsonl [name=theorem,theorem ...]

name=theorem,... records the theorems that were tightened or added because the
mutant had survived.  Results of a mutant that is already in the log are
skipped."""
import json, os, re, sys
root = os.path.join(os.path.dirname(os.path.abspath(__file__)), "..")
log = os.path.join(root, "seeded/LOG.jsonl")
have = {json.loads(l)["name"] for l in open(log)} if os.path.exists(log) else set()
tight = dict(a.split("=", 1) for a in sys.argv[2:])
titles = {}
for l in open(os.path.join(root, "properties.jsonl")):
    d = json.loads(l); titles[d["id"]] = d["title"]
DEF = re.compile(r"^[ \t]*(?:Definition|Fixpoint|Record|Inductive|Function)\s+([\w']+)", re.M)
def where(mod, old):
    try: t = open(os.path.join(root, f"rocq/theories/{mod}.v")).read()
    except OSError: return mod
    i = t.find(old)
    ds = [m[1] for m in DEF.finditer(t) if i >= 0 and m.start() <= i + max(0, old.find("Definition"))]
    return f"{mod}.{ds[-1]}" if ds else mod
n = 0
with open(log, "a") as f:
    for l in open(sys.argv[1]):
        d = json.loads(l)
        if d["name"] in have or d.get("error"): continue
        n += 1
        f.write(json.dumps({
            "name": d["name"],
            "definition": sorted({where(e[0], e[1]) for e in d["edits"]} | {"text of src/" + e[0] for e in d.get("src", [])}),
            "edit": [{"file": f"rocq/theories/{e[0]}.v", "old": e[1], "new": e[2]} for e in d["edits"]] +
                    [{"file": f"src/{e[0]} (translated again)", "old": e[1], "new": e[2]} for e in d.get("src", [])],
            "bug": d["why"],
            "claim_broken": [f"{c}: {titles.get(c, '')}" for c in d["claims"]] or ["none: the edit is equivalent or only an internal change"],
            "theorems_failed": d["failed_theorems"],
            "files_not_built": [x for x in d["fatal"] if "dependency" not in x],
            "claims_that_survived": d["missed"],
            "theorems_tightened": tight[d["name"]].split(",") if d["name"] in tight else []}) + "\n")
print(n, "added")
