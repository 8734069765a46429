#!/usr/bin/env python3
"""Generate MANIFEST.json from the table below and list files in _CoqProject."""
import json, os, re
C = []
def claim(p, status, theorems, note=""):
    C.append({"property": p, "status": status, "theorems": theorems, "note": note})
here = os.path.dirname(os.path.abspath(__file__))
exec(open(os.path.join(here, "claims.py")).read())
json.dump({"claims": C}, open(os.path.join(here, "..", "MANIFEST.json"), "w"), indent=1)
# sanity: every theorem name exists in some Thm file
src = ""
d = os.path.join(here, "..", "rocq", "theories")
for f in sorted(os.listdir(d)):
    if f.endswith(".v"): src += open(os.path.join(d, f)).read()
for c in C:
    for t in c["theorems"]:
        if not re.search(r"(Theorem|Lemma)\s+%s\b" % re.escape(t), src): print("MISSING", t)
named = {t for c in C for t in c["theorems"]}
for f in sorted(os.listdir(d)):
    if f.startswith("Thm") and f.endswith(".v"):
        for t in re.findall(r"^Theorem\s+(\w+)", open(os.path.join(d, f)).read(), re.M):
            if t not in named: print("UNLISTED", t)
