#!/usr/bin/env python3
"""Single source for properties.jsonl and MANIFEST.json.  Run from /verif."""
import json, os, re
HERE = os.path.dirname(os.path.abspath(__file__))
ROOT = os.path.dirname(HERE)
exec(open(os.path.join(HERE, "props_data.py")).read())   # defines PROPS, CLAIMS
with open(os.path.join(ROOT, "properties.jsonl"), "w") as f:
    for p in PROPS:
        f.write(json.dumps(dict(id=p[0], title=p[1], statement=p[2], quantifier=p[3],
                                why_tests_cant=p[4], anchors=p[5])) + "\n")
# check theorem names exist
names = set()
td = os.path.join(ROOT, "rocq", "theories")
for fn in os.listdir(td):
    if fn.endswith(".v"):
        for m in re.finditer(r"^\s*(?:Theorem|Lemma|Corollary|Example)\s+([A-Za-z0-9_']+)", open(os.path.join(td, fn)).read(), re.M):
            names.add(m.group(1))
ids = [p[0] for p in PROPS]
assert len(ids) == len(set(ids)), "dup ids"
claims = []
for c in CLAIMS:
    assert c[0] in ids, c[0]
    for t in c[2]:
        if t not in names:
            print("WARNING: missing theorem", t, "for", c[0])
    claims.append(dict(property=c[0], status=c[1], theorems=c[2], note=c[3]))
missing = [i for i in ids if i not in [c[0] for c in CLAIMS]]
if missing: print("no claim for:", missing)
json.dump(dict(claims=claims), open(os.path.join(ROOT, "MANIFEST.json"), "w"), indent=1)
print(len(PROPS), "properties", len(CLAIMS), "claims")
