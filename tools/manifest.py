#!/usr/bin/env python3
"""Writes MANIFEST.json from tools/claims.json-like table below, checking that every
theorem named exists in rocq/theories/Props."""
import json, re, glob, os, collections
root = os.path.dirname(os.path.dirname(os.path.abspath(__file__)))
names = collections.OrderedDict()
for f in sorted(glob.glob(root + "/rocq/theories/Props/*.v")):
    for m in re.finditer(r"^(?:Theorem)\s+(\w+)", open(f).read(), re.M):
        names[m.group(1)] = f
status = {}
for line in open(root + "/tools/status.txt"):
    line = line.strip()
    if not line or line.startswith("#"):
        continue
    pid, st, note = line.split("|", 2)
    status[pid.strip()] = (st.strip(), note.strip())
props = [json.loads(l)["id"] for l in open(root + "/properties.jsonl")]
claims = []
for pid in props:
    th = [n for n in names if n.startswith(pid + "_")]
    if pid in status:
        st, note = status[pid]
        if not th and st != "not_applicable":
            print("no theorems for", pid); continue
        claims.append({"property": pid, "status": st, "theorems": th, "note": note})
    elif th:
        print("theorems but no status for", pid)
json.dump({"claims": claims}, open(root + "/MANIFEST.json", "w"), indent=1)
print(len(claims), "claims of", len(props), "properties;", len(names), "theorems")
