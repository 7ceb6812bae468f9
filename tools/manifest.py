#!/usr/bin/env python3
"""Regenerate MANIFEST.json from the theorem names in rocq/theories/*Props.v.

A theorem Cnn_... belongs to property Cnn.  A property with a ..._partial or
..._refuted theorem is "partial"; notes come from tools/notes.json."""
import glob, json, os, re
root = os.path.dirname(os.path.dirname(os.path.abspath(__file__)))
notes = json.load(open(os.path.join(root, "tools", "notes.json")))
ids = [json.loads(l)["id"] for l in open(os.path.join(root, "properties.jsonl")) if l.strip()]
byid = {i: [] for i in ids}
for f in sorted(glob.glob(os.path.join(root, "rocq", "theories", "*Props.v"))):
    for m in re.finditer(r"^(?:Theorem|Corollary|Lemma)\s+(C\d\d+)_(\w+)", open(f).read(), re.M):
        if m.group(1) not in byid:
            raise SystemExit("theorem without property: " + m.group(0))
        byid[m.group(1)].append(m.group(1) + "_" + m.group(2))
claims, missing = [], []
for i in ids:
    ths = byid[i]
    n = notes.get(i, {})
    if not ths and n.get("status") != "not_applicable":
        missing.append(i)
        continue
    weak = any(t.endswith("_partial") or t.endswith("_refuted") for t in ths)
    status = n.get("status") or ("partial" if weak else "proved")
    claims.append({"property": i, "status": status, "theorems": ths, "note": n.get("note", "")})
json.dump({"claims": claims}, open(os.path.join(root, "MANIFEST.json"), "w"), indent=1, ensure_ascii=False)
print(len(claims), "claims;", "no theorems yet:", " ".join(missing))
for c in claims:
    if not c["note"]: print("no note:", c["property"])
