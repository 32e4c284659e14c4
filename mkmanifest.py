"""Regenerates MANIFEST.json from the theorem names in rocq/theories/*Properties.v."""
import json, re, pathlib
root = pathlib.Path(__file__).parent
notes = json.loads((root / "manifest_notes.json").read_text())
thms = {}
for f in sorted((root / "rocq/theories").glob("*Properties.v")):
    for name in re.findall(r"^Theorem (C\d+_\w*)", f.read_text(), re.M):
        thms.setdefault(name.split("_")[0], []).append(name)
claims = []
for line in (root / "properties.jsonl").read_text().splitlines():
    pid = json.loads(line)["id"]
    n = notes.get(pid, {})
    if any(t.endswith(("_refuted", "_partial")) for t in thms.get(pid, [])) and n.get("status") != "partial":
        raise SystemExit(f"{pid} has a refuted or partial theorem but is not marked partial")
    if pid in thms:
        claims.append({"property": pid, "status": n.get("status", "proved"), "theorems": thms[pid], "note": n.get("note", "")})
    else:
        claims.append({"property": pid, "status": "partial", "theorems": [], "note": n.get("note", "not yet modelled")})
(root / "MANIFEST.json").write_text(json.dumps({"claims": claims}, indent=1) + "\n")
