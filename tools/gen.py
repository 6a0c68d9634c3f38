#!/usr/bin/env python3
"""Generate MANIFEST.json and rocq/theories/Assumptions.v from tools/claims.json.

claims.json: {"C01": {"status": "...", "note": "...", "extra": [..]}}.
Every theorem named Cnn_... in theories/Props*.v is attached to its property
(a name may carry several ids: C03_C04_...); "extra" adds further names."""
import json, re, glob, os
root = os.path.dirname(os.path.dirname(os.path.abspath(__file__)))
props = [json.loads(l)["id"] for l in open(f"{root}/properties.jsonl") if l.strip()]
claims = json.load(open(f"{root}/tools/claims.json"))
thms = {}
mods = []
for f in sorted(glob.glob(f"{root}/rocq/theories/Props*.v")):
    mods.append(os.path.basename(f)[:-2])
    for m in re.finditer(r"^[ ]*Theorem ((?:C\d\d+_)+\w+)", open(f).read(), re.M):
        name = m.group(1)
        ids = re.match(r"((?:C\d+_)+)", name).group(1).strip("_").split("_")
        for i in ids:
            thms.setdefault(i, []).append(name)
out = []
for p in props:
    c = claims.get(p)
    if c is None and p not in thms:
        continue
    c = c or {}
    t = thms.get(p, []) + c.get("extra", [])
    if not t and c.get("status") != "not_applicable":
        continue
    st = c.get("status")
    if st is None:
        st = "partial" if any("_partial" in x or "_refuted" in x for x in t) else "proved"
    out.append({"property": p, "status": st, "theorems": t, "note": c.get("note", "")})
unknown = set(thms) - set(props)
assert not unknown, unknown
json.dump({"claims": out}, open(f"{root}/MANIFEST.json", "w"), indent=1)
names = []
for p in sorted(thms):
    for n in thms[p]:
        if n not in names:
            names.append(n)
with open(f"{root}/rocq/theories/Assumptions.v", "w") as o:
    o.write("(** Generated by tools/gen.py: the assumptions of every property theorem. *)\n")
    o.write("From Verif Require Import " + " ".join(mods) + ".\n\n")
    for n in names:
        o.write(f"Print Assumptions {n}.\n")
print(len(out), "claims", len(names), "theorems", "missing:", [p for p in props if p not in [x["property"] for x in out]])
