#!/usr/bin/env python3
# Writes /verif/MANIFEST.json: every Theorem named Cnn_... in rocq/theories/Props*.v
# belongs to property Cnn.  STATUS and NOTE hold what cannot be read off the names.
import re, glob, json, os
R = os.path.dirname(os.path.dirname(os.path.abspath(__file__)))
exec(open(os.path.join(R, "tools", "notes.py")).read())
thms = {}
for f in sorted(glob.glob(R + "/rocq/theories/Props*.v")):
    for n in re.findall(r"^(?:Theorem|Corollary)\s+(C\d+\w*)", open(f).read(), re.M):
        thms.setdefault(re.match(r"C\d+", n).group(0), []).append(n)
claims = []
for l in open(R + "/properties.jsonl"):
    p = json.loads(l)["id"]
    ts = thms.get(p, [])
    st = STATUS.get(p)
    if st is None:
        st = "proved" if ts and not any("_partial" in t or "_refuted" in t for t in ts) else "partial"
    claims.append({"property": p, "status": st, "theorems": ts,
                   "note": NOTE.get(p, "" if ts else "not yet proved")})
json.dump({"claims": claims}, open(R + "/MANIFEST.json", "w"), indent=1)
print({s: sum(c["status"] == s for c in claims) for s in ("proved", "partial", "not_applicable")},
      "no theorem:", [c["property"] for c in claims if not c["theorems"]])
