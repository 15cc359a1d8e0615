#!/usr/bin/env python3
"""Write MANIFEST.json and rocq/theories/Assumptions.v from the table below, checking that every
named theorem exists in the sources."""
import json, re, glob, os
root = os.path.dirname(os.path.dirname(os.path.abspath(__file__)))
C = []
def claim(p, status, thms, note): C.append(dict(property=p, status=status, theorems=thms.split(), note=note))
exec(open(os.path.join(root, "tools", "claims.py")).read())
names = {}
for f in sorted(glob.glob(root + "/rocq/theories/*.v")):
    for m in re.finditer(r"^\s*(?:Theorem|Lemma|Corollary)\s+([A-Za-z0-9_']+)", open(f).read(), re.M):
        names.setdefault(m.group(1), os.path.basename(f)[:-2])
props = [json.loads(l)["id"] for l in open(root + "/properties.jsonl")]
for c in C:
    assert c["property"] in props, c
    for t in c["theorems"]:
        assert t in names, t
missing = [p for p in props if p not in [c["property"] for c in C]]
print("properties without a claim:", missing)
unclaimed = [n for n in names if re.match(r"C\d\d_", n) and not any(n in c["theorems"] for c in C)]
print("property theorems not claimed:", unclaimed)
json.dump({"claims": C}, open(root + "/MANIFEST.json", "w"), indent=1)
mods = sorted({names[t] for c in C for t in c["theorems"]})
with open(root + "/rocq/theories/Assumptions.v", "w") as f:
    f.write("(** * Assumptions: generated by tools/mk_manifest.py; what each claimed theorem rests on *)\n")
    f.write("From Verif Require %s.\n" % " ".join(mods))
    for c in C:
        for t in c["theorems"]:
            f.write("Print Assumptions Verif.%s.%s.\n" % (names[t], t))
