#!/usr/bin/env python3
"""Write what Print Assumptions says of each theorem into section 3 of DESIGN.md (run after a build)."""
import os, re, subprocess
root = os.path.abspath(os.path.join(os.path.dirname(os.path.abspath(__file__)), ".."))
src = open(root + "/rocq/theories/Assumptions.v").read()
names = re.findall(r"^Print Assumptions \w+\.(\w+)\.", src, re.M)
out = subprocess.run(["coqc", "-Q", "theories", "Verif", "theories/Assumptions.v"], cwd=root + "/rocq", capture_output=True, text=True, check=True).stdout
blocks = re.split(r"(?m)^(?=Closed under the global context|Axioms:)", out)[1:]
assert len(blocks) == len(names), (len(blocks), len(names))
groups = {}
for n, b in zip(names, blocks):
    key = tuple(sorted(re.findall(r"^([A-Za-z_][\w.]*)(?= :|\n)", b.split("\n", 1)[1], re.M))) if b.startswith("Axioms") else ()
    groups.setdefault(key, []).append(n)
text = "<!-- assumptions -->\n"
for k in sorted(groups):
    text += ("* Closed under the global context" if not k else "* " + ", ".join("`%s`" % a for a in k)) + " (%d theorems): " % len(groups[k]) + ", ".join(groups[k]) + ".\n"
text += "<!-- end of assumptions -->"
f = root + "/DESIGN.md"
s = open(f).read()
s = re.sub(r"<!-- assumptions -->.*?<!-- end of assumptions -->", lambda m: text, s, flags=re.S)
open(f, "w").write(s)
print({k: len(v) for k, v in groups.items()})
