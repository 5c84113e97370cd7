"""setprop.py ID field=value ...: edit one property of properties.jsonl (or add it)."""
import json, os, sys
p = os.path.join(os.path.dirname(os.path.abspath(__file__)), "..", "properties.jsonl")
rows = [json.loads(l) for l in open(p) if l.strip()]
pid = sys.argv[1]
row = next((r for r in rows if r["id"] == pid), None)
if row is None:
    row = {"id": pid}
    rows.append(row)
for a in sys.argv[2:]:
    k, v = a.split("=", 1)
    row[k] = json.loads(v) if k == "anchors" else v
open(p, "w").write("".join(json.dumps(r) + "\n" for r in rows))
