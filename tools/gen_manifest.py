#!/usr/bin/env python3
"""Write MANIFEST.json from the theorem names in rocq/theories/*Props.v
(Cnn_... belongs to property Cnn) and the notes in tools/notes.json."""
import json, re, pathlib
root = pathlib.Path(__file__).resolve().parent.parent
props = [json.loads(l) for l in (root/"properties.jsonl").read_text().splitlines() if l.strip()]
notes = json.loads((root/"tools"/"notes.json").read_text())
thms = {}
for f in sorted((root/"rocq"/"theories").glob("*Props.v")):
    for m in re.finditer(r"^Theorem\s+((C\d+)_\w+)", f.read_text(), re.M):
        thms.setdefault(m.group(2), []).append(m.group(1))
claims = []
for p in props:
    i = p["id"]
    t = thms.get(i, [])
    n = notes.get(i, {})
    if not t:
        st = n.get("status", "partial"); note = n.get("note", "not modelled yet")
    else:
        st = n.get("status"); note = n.get("note", "")
        if st is None:
            st = "partial" if any(x.endswith(("_partial", "_refuted")) for x in t) else "proved"
    claims.append({"property": i, "status": st, "theorems": t, "note": note})
(root/"MANIFEST.json").write_text(json.dumps({"claims": claims}, indent=1) + "\n")
unk = set(thms) - {p["id"] for p in props}
if unk: print("theorems without property:", unk)
print({s: sum(c["status"] == s for c in claims) for s in ("proved", "partial", "not_applicable")},
      sum(len(c["theorems"]) for c in claims), "theorems")
