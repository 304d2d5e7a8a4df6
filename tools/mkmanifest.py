"""Regenerate MANIFEST.json from the theorem names in Properties_*.v.

Every `Theorem Cnn_...` is attached to property Cnn.  tools/notes.json holds the
status (when not "proved") and the note of each property.
"""
import glob
import json
import re

ids = [json.loads(line)["id"] for line in open("/verif/properties.jsonl") if line.strip()]
assert len(ids) == len(set(ids))
thms = {i: [] for i in ids}
for path in sorted(glob.glob("/verif/rocq/theories/Properties_*.v")):
    src = open(path).read()
    for m in re.finditer(r"^Theorem (C\d+)_(\w+)", src, re.M):
        thms[m.group(1)].append(f"{m.group(1)}_{m.group(2)}")
notes = json.load(open("/verif/tools/notes.json"))
claims = []
for i in ids:
    n = notes.get(i, {})
    if not thms[i] and "status" not in n:
        print("no theorem yet:", i)
        continue
    claims.append({"property": i, "status": n.get("status", "proved"),
                   "theorems": thms[i], "note": n.get("note", "")})
json.dump({"claims": claims}, open("/verif/MANIFEST.json", "w"), indent=1)
