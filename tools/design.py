#!/usr/bin/env python3
"""Regenerates the per-property table of DESIGN.md (between the markers) from
properties.jsonl, tools/plan.txt, tools/status.txt and MANIFEST.json."""
import json, os
root = os.path.dirname(os.path.dirname(os.path.abspath(__file__)))
plan = {}
for l in open(root + "/tools/plan.txt"):
    if l.strip():
        a = [x.strip() for x in l.split("|", 2)]
        plan[a[0]] = a[1:]
cl = {c["property"]: c for c in json.load(open(root + "/MANIFEST.json"))["claims"]}
rows = []
for l in open(root + "/properties.jsonl"):
    p = json.loads(l)
    i = p["id"]
    if i not in plan:
        print("no plan for", i); continue
    c = cl.get(i, {"status": "planned", "theorems": [], "note": ""})
    rows.append("### %s %s (%s)\n\n* Model: %s\n* Proof: %s\n* Theorems: %s\n* Result: %s\n" % (
        i, p["title"], c["status"], plan[i][0], plan[i][1],
        ", ".join("`%s`" % t for t in c["theorems"]) or "-", c["note"] if c["note"] != "-" else "as stated"))
d = open(root + "/DESIGN.md").read()
a, b = "<!-- table -->", "<!-- end table -->"
pre = d[: d.index(a) + len(a)]
post = d[d.index(b):]
open(root + "/DESIGN.md", "w").write(pre + "\n\n" + "\n".join(rows) + "\n" + post)
print(len(rows), "properties in DESIGN.md")
