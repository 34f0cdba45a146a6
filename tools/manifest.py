"""Regenerate MANIFEST.json from the theorem names in rocq/theories/Properties*.v."""
import glob, json, os, re
root = os.path.dirname(os.path.dirname(os.path.abspath(__file__)))
notes = json.load(open(f"{root}/tools/notes.json"))
force = json.load(open(f"{root}/tools/status.json")) if os.path.exists(f"{root}/tools/status.json") else {}
props = [json.loads(l)["id"] for l in open(f"{root}/properties.jsonl") if l.strip()]
thms = {p: [] for p in props}
for f in sorted(glob.glob(f"{root}/rocq/theories/Properties*.v")):
    for m in re.finditer(r"^Theorem\s+((C\d+)_\w+)", open(f).read(), re.M):
        thms[m.group(2)].append(m.group(1))
claims = []
for p in props:
    if not thms[p]:
        if p in force:
            claims.append({"property": p, "status": force[p], "theorems": [], "note": notes.get(p, "")})
        continue
    st = force.get(p, "partial" if any(t.endswith(("_refuted", "_partial")) for t in thms[p]) else "proved")
    claims.append({"property": p, "status": st, "theorems": thms[p], "note": notes.get(p, "")})
json.dump({"claims": claims}, open(f"{root}/MANIFEST.json", "w"), indent=1)
print(len(claims), "claims; missing:", [p for p in props if p not in [c["property"] for c in claims]])
