#!/usr/bin/env python3
"""Regenerates MANIFEST.json from the theorem names in rocq/theories/Props."""
import json, pathlib, re
root = pathlib.Path(__file__).resolve().parent.parent
NOTES = json.loads((root / "tools" / "notes.json").read_text())
thms = {}
for f in sorted((root / "rocq" / "theories" / "Props").glob("*.v")):
    for m in re.finditer(r"^Theorem\s+((C\d+)_\w+)", f.read_text(), re.M):
        thms.setdefault(m.group(2), []).append(m.group(1))
claims = []
for line in (root / "properties.jsonl").read_text().splitlines():
    pid = json.loads(line)["id"]
    ts = thms.get(pid, [])
    part = any(t.endswith("_partial") or t.endswith("_refuted") for t in ts)
    status = "partial" if (part or not ts) else "proved"
    note = NOTES.get(pid, "") or ("not yet proved" if not ts else "")
    claims.append(dict(property=pid, status=status, theorems=ts, note=note))
(root / "MANIFEST.json").write_text(json.dumps({"claims": claims}, indent=1, ensure_ascii=False) + "\n")
print({s: sum(c["status"] == s for c in claims) for s in ("proved", "partial")},
      "without theorems:", [c["property"] for c in claims if not c["theorems"]])
