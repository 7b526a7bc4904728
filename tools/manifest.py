"""Regenerate MANIFEST.json from the property files and the notes table below."""
import glob, json, os, re
here = os.path.dirname(os.path.abspath(__file__))
root = os.path.dirname(here)
notes = json.load(open(os.path.join(here, "notes.json")))
thms = {}
order = [l.strip() for l in open(os.path.join(root, "rocq/_CoqProject")) if "/Prop_" in l]
for f in order:
    for m in re.finditer(r"^Theorem (C\d+)_(\w+)", open(os.path.join(root, "rocq", f)).read(), re.M):
        thms.setdefault(m[1], []).append(m[1] + "_" + m[2])
ids = [json.loads(l)["id"] for l in open(os.path.join(root, "properties.jsonl"))]
claims = []
for i in ids:
    status, note = notes.get(i, [None, ""])
    t = thms.get(i, [])
    if not t and status is None:
        continue
    if status is None:
        bad = [x for x in t if x.endswith("_partial") or x.endswith("_refuted")]
        if bad:
            raise SystemExit(f"{i}: {bad} needs an entry in notes.json")
        status = "proved"
    claims.append({"property": i, "status": status, "theorems": t, "note": note})
extra = set(thms) - set(ids)
if extra:
    raise SystemExit(f"theorems without property: {sorted(extra)}")
json.dump({"claims": claims}, open(os.path.join(root, "MANIFEST.json"), "w"), indent=1)
print(len(claims), "claims,", sum(map(len, thms.values())), "theorems; missing:", [i for i in ids if i not in {c["property"] for c in claims}])
