#!/usr/bin/env python3
"""Regenerate MANIFEST.json from the property theorems in rocq/theories/*Props.v and tools/notes.json.

A theorem belongs to property Cnn when its name starts with Cnn_.  A property with a
_partial or _refuted theorem is reported as partial, any other one with theorems as proved."""
import json, pathlib, re
root = pathlib.Path(__file__).resolve().parent.parent
props = [json.loads(l) for l in (root / "properties.jsonl").read_text().splitlines() if l.strip()]
notes = json.loads((root / "tools" / "notes.json").read_text())
thms = {}
for f in sorted((root / "rocq" / "theories").glob("*Props*.v")):
    for name in re.findall(r"^Theorem (C\d+_\w+)", f.read_text(), re.M):
        thms.setdefault(name.split("_")[0], []).append(name)
known = {p["id"] for p in props}
assert set(thms) <= known, set(thms) - known
claims = []
for p in props:
    t = thms.get(p["id"], [])
    note = notes.get(p["id"], "")
    if not t and not isinstance(note, dict):
        continue
    if not t:
        status, note = note["status"], note["note"]
    else:
        status = "partial" if any(n.endswith("_partial") or n.endswith("_refuted") for n in t) else "proved"
        if isinstance(note, dict):
            status, note = note.get("status", status), note["note"]
    claims.append({"property": p["id"], "status": status, "theorems": t, "note": note})
(root / "MANIFEST.json").write_text(json.dumps({"claims": claims}, indent=1) + "\n")
print({s: sum(c["status"] == s for c in claims) for s in ("proved", "partial", "not_applicable")})
