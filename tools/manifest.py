#!/usr/bin/env python3
"""Regenerate MANIFEST.json and rocq/theories/Assumptions.v from the theorem names in rocq/theories/Prop_*.v."""
import glob, json, os, re
root = os.path.join(os.path.dirname(os.path.abspath(__file__)), "..")
notes = json.load(open(os.path.join(root, "tools", "notes.json")))
listed = set(re.findall(r"theories/(\S+\.v)", open(os.path.join(root, "rocq/_CoqProject")).read()))
thms = {}
where = {}
for f in sorted(glob.glob(os.path.join(root, "rocq/theories/Prop_*.v"))):
    if os.path.basename(f) not in listed:
        continue
    for m in re.finditer(r"^Theorem ((C\d\d+)_\w+)", open(f).read(), re.M):
        thms.setdefault(m.group(2), []).append(m.group(1))
        where[m.group(1)] = os.path.basename(f)[:-2]
claims = []
for line in open(os.path.join(root, "properties.jsonl")):
    i = json.loads(line)["id"]
    n = notes.get(i, {})
    if i in thms:
        claims.append({"property": i, "status": n.get("status", "proved"), "theorems": thms[i], "note": n.get("note", "")})
json.dump({"claims": claims}, open(os.path.join(root, "MANIFEST.json"), "w"), indent=1, ensure_ascii=False)
print(len(claims), "claims,", sum(len(c["theorems"]) for c in claims), "theorems")

with open(os.path.join(root, "rocq/theories/Assumptions.v"), "w") as out:
    out.write("(** Generated by tools/manifest.py: what each theorem listed in MANIFEST.json rests on. *)\n")
    out.write("From Verif Require " + " ".join(sorted(set(where.values()))) + ".\n\n")
    for c in claims:
        for t in c["theorems"]:
            out.write("Print Assumptions %s.%s.\n" % (where[t], t))
