"""Replace a substring in the statement of one property: setprop.py C64 OLD NEW."""
import json, os, sys
p = os.path.join(os.path.dirname(os.path.dirname(os.path.abspath(__file__))), "properties.jsonl")
rows = [json.loads(l) for l in open(p)]
for r in rows:
    if r["id"] == sys.argv[1]:
        assert sys.argv[2] in r["statement"], r["statement"]
        r["statement"] = r["statement"].replace(sys.argv[2], sys.argv[3])
open(p, "w").write("".join(json.dumps(r) + "\n" for r in rows))
