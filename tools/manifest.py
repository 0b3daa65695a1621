"""Write MANIFEST.json from the theorem names cNN_... found in rocq/theories/Props (run from anywhere)."""
import json, re, pathlib
root = pathlib.Path(__file__).resolve().parent.parent
notes_file = root / "tools" / "notes.json"
notes = json.loads(notes_file.read_text()) if notes_file.exists() else {}
ids = [json.loads(l)["id"] for l in (root / "properties.jsonl").read_text().splitlines() if l.strip()]
thms = {}
for f in sorted((root / "rocq/theories/Props").glob("*.v")):
    for m in re.finditer(r"^Theorem (c(\d\d+)_\w+)", f.read_text(), re.M):
        thms.setdefault("C" + m.group(2), []).append(m.group(1))
claims = []
for i in ids:
    t = thms.pop(i, [])
    if not t:
        continue
    status = "partial" if any(x.endswith("_partial") for x in t) else "proved"
    claims.append({"property": i, "status": status, "theorems": t, "note": notes.get(i, "")})
assert not thms, thms
(root / "MANIFEST.json").write_text(json.dumps({"claims": claims}, indent=1) + "\n")
print(len(claims), "claims; missing:", [i for i in ids if i not in {c["property"] for c in claims}])
