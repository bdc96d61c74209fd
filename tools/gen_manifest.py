#!/usr/bin/env python3
"""Write MANIFEST.json. The theorem names are collected from rocq/theories/Prop*.v: a theorem
named Cnn_... belongs to property Cnn. STATUS below gives status and note."""
import glob, json, os, re
root = os.path.dirname(os.path.dirname(os.path.abspath(__file__)))
STATUS = {}
exec(open(os.path.join(root, "tools", "status.py")).read())
thms = {}
for f in sorted(glob.glob(os.path.join(root, "rocq/theories/Prop*.v"))):
    for m in re.finditer(r"^Theorem (C\d+)(_\w+)", open(f).read(), re.M):
        thms.setdefault(m.group(1), []).append(m.group(1) + m.group(2))
ids = [json.loads(l)["id"] for l in open(os.path.join(root, "properties.jsonl"))]
claims = []
for i in ids:
    if i in STATUS:
        st, note = STATUS[i]
        assert thms.get(i) or st == "not_applicable", i
        claims.append({"property": i, "status": st, "theorems": thms.get(i, []), "note": note})
    elif i in thms:
        print("no status for", i)
json.dump({"claims": claims}, open(os.path.join(root, "MANIFEST.json"), "w"), indent=1)
print(len(claims), "claims;", "missing:", [i for i in ids if i not in STATUS])
