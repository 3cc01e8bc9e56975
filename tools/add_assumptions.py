#!/usr/bin/env python3
"""Put a Print Assumptions line beneath every theorem of the Prop*.v files."""
import glob, os, re
d = os.path.join(os.path.dirname(os.path.abspath(__file__)), "..", "rocq", "theories")
for f in sorted(glob.glob(os.path.join(d, "Prop*.v"))):
    out, name = [], None
    for line in open(f).read().split("\n"):
        if line.startswith("Print Assumptions"):
            continue
        out.append(line)
        m = re.match(r"(Theorem|Example) (\w+)", line)
        if m: name = m[2] if m[1] == "Theorem" else None
        if line.endswith("Qed.") and name:
            out.append("Print Assumptions %s." % name); name = None
    open(f, "w").write("\n".join(out))
