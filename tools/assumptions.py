#!/usr/bin/env python3
"""Prints what Print Assumptions lists for each theorem of rocq/theories/Props (which must be built), grouped."""
import glob, os, re, subprocess, sys, tempfile
root = os.path.dirname(os.path.dirname(os.path.abspath(__file__)))
names = []
src = ""
for f in sorted(glob.glob(os.path.join(root, "rocq/theories/Props/*.v"))):
    mod = os.path.basename(f)[:-2]
    src += f"From Verif.Props Require {mod}.\n"
    for m in re.finditer(r"^Theorem\s+(C\d\d+_\w+)", open(f).read(), re.M):
        names.append((mod, m.group(1)))
for mod, n in names:
    src += f'Fail Check "@@{n}". Print Assumptions Verif.Props.{mod}.{n}.\n'
src = re.sub(r'Fail Check "@@(\w+)"\.', r'Goal True. idtac "@@\1". Abort.', src)
with tempfile.TemporaryDirectory() as d:
    open(d + "/a.v", "w").write(src)
    out = subprocess.run(["coqc", "-Q", os.path.join(root, "rocq/theories"), "Verif", d + "/a.v"], stdout=subprocess.PIPE, stderr=subprocess.STDOUT, text=True).stdout
groups = {}
for part in out.split("@@")[1:]:
    n, body = part.split("\n", 1)
    ax = tuple(sorted(a for a in re.findall(r"^([A-Za-z][\w.']*)", body, re.M) if a not in ("Axioms", "Closed")))
    groups.setdefault(ax, []).append(n)
lines = []
for ax, ns in sorted(groups.items()):
    lines.append("* " + (", ".join(f"`{a}`" for a in ax) or "no axioms (closed under the global context)") + f" - {len(ns)} theorems: " + ", ".join(ns))
print("\n".join(lines))
if "--design" in sys.argv:   # put the list into DESIGN.md
    p = os.path.join(root, "DESIGN.md")
    d = open(p).read()
    a, b = "<!-- assumptions -->\n", "<!-- end of assumptions -->\n"
    i, j = d.index(a) + len(a), d.index(b)
    open(p, "w").write(d[:i] + "\n".join(lines) + "\n" + d[j:])
