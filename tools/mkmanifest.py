#!/usr/bin/env python3
"""Write MANIFEST.json from the theorem names in rocq/theories/Properties and the
status table below."""
import json, pathlib, re
root = pathlib.Path(__file__).resolve().parent.parent
thms = {}
for f in sorted((root / "rocq/theories/Properties").glob("*.v")):
    for m in re.finditer(r"^Theorem ((C\d\d+)_\w+)", f.read_text(), re.M):
        thms.setdefault(m.group(2), []).append(m.group(1))
NOTES = json.loads((root / "tools/status.json").read_text())
ids = [json.loads(l)["id"] for l in (root / "properties.jsonl").read_text().splitlines() if l.strip()]
claims = []
for i in ids:
    if i not in thms:
        continue
    st = NOTES.get(i, {})
    claims.append({"property": i, "status": st.get("status", "proved"),
                   "theorems": thms[i], "note": st.get("note", "")})
(root / "MANIFEST.json").write_text(json.dumps({"claims": claims}, indent=1) + "\n")
print(len(claims), "claims;", [i for i in ids if i not in thms], "missing")
