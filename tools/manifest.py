"""Regenerate MANIFEST.json from tools/claims.txt.

Each line: property | status | theorem names (comma separated) | note
"""
import json, os, re, sys
here = os.path.dirname(os.path.abspath(__file__))
claims = []
for line in open(os.path.join(here, "claims.txt")):
    line = line.strip()
    if not line or line.startswith("//"):
        continue
    prop, status, thms, note = [x.strip() for x in line.split("|", 3)]
    claims.append({"property": prop, "status": status,
                   "theorems": [t.strip() for t in thms.split(",") if t.strip()], "note": note})
json.dump({"claims": claims}, open(os.path.join(here, "..", "MANIFEST.json"), "w"), indent=1)
# every theorem named must exist in Props
src = ""
for d, _, fs in os.walk(os.path.join(here, "..", "rocq", "theories", "Props")):
    for f in fs:
        if f.endswith(".v"):
            src += open(os.path.join(d, f)).read()
names = set(re.findall(r"^Theorem (\w+)", src, re.M))
used = {t for c in claims for t in c["theorems"]}
print("missing:", sorted(used - names))
print("unclaimed:", sorted(names - used))
