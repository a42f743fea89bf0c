#!/usr/bin/env python3
"""Write MANIFEST.json from the table below."""
import json, os
T = []
def c(p, status, theorems, note):
    T.append({"property": p, "status": status, "theorems": theorems.split(), "note": note})
exec(open(os.path.join(os.path.dirname(__file__), "claims.py")).read())
T.sort(key=lambda e: e["property"])
json.dump({"claims": T}, open(os.path.join(os.path.dirname(__file__), "..", "MANIFEST.json"), "w"), indent=1)
