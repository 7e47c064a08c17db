"""Regenerate MANIFEST.json from the theorem names in rocq/theories/T_*.v and tools/notes.json."""
import glob, json, os, re
root = os.path.dirname(os.path.dirname(os.path.abspath(__file__)))
names = {}
for f in sorted(glob.glob(os.path.join(root, "rocq/theories/T_*.v"))):
    for m in re.finditer(r"^Theorem\s+((C\d\d+)_\w+)", open(f).read(), re.M):
        names.setdefault(m.group(2), []).append(m.group(1))
notes = json.load(open(os.path.join(root, "tools/notes.json")))
claims = []
for line in open(os.path.join(root, "properties.jsonl")):
    pid = json.loads(line)["id"]
    th = names.get(pid, [])
    n = notes.get(pid, {})
    st = n.get("status") or ("partial" if not th or any(t.endswith("_partial") for t in th) else "proved")
    claims.append({"property": pid, "status": st, "theorems": th,
                   "note": n.get("note", "" if th else "not yet formalised")})
json.dump({"claims": claims}, open(os.path.join(root, "MANIFEST.json"), "w"), indent=1)
print(sum(1 for c in claims if c["theorems"]), "of", len(claims))
