"""Regenerates MANIFEST.json from the theorem names in rocq/theories/Props*.v."""
import glob, json, re, os
root = os.path.dirname(os.path.dirname(os.path.abspath(__file__)))
thms = {}
for f in sorted(glob.glob(root + "/rocq/theories/Props*.v")):
    for m in re.finditer(r"^Theorem (C\d\d+)(\w*)", open(f).read(), re.M):
        thms.setdefault(m.group(1), []).append((m.group(1) + m.group(2), os.path.basename(f)))
notes = json.load(open(root + "/tools/notes.json"))
claims = []
for line in open(root + "/properties.jsonl"):
    p = json.loads(line)
    ts = thms.get(p["id"], [])
    if not ts:
        print("missing", p["id"])
        continue
    names = [t for t, _ in ts]
    part = any(n.endswith("_partial") or n.endswith("_refuted") for n in names)
    note = notes.get(p["id"], "")
    note = (note + " " if note else "") + "(" + ", ".join(sorted({f for _, f in ts})) + ")"
    claims.append({"property": p["id"], "status": "partial" if part else "proved",
                   "theorems": names, "note": note})
json.dump({"claims": claims}, open(root + "/MANIFEST.json", "w"), indent=1)
print(len(claims), sum(c["status"] == "proved" for c in claims))
