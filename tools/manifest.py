#!/usr/bin/env python3
"""Writes /verif/MANIFEST.json.  One entry per property of properties.jsonl."""
import json, os
here = os.path.dirname(os.path.abspath(__file__))
C = {}
def claim(pid, status, theorems, note=""):
    C[pid] = {"property": pid, "status": status, "theorems": theorems.split(), "note": note}

exec(open(os.path.join(here, "claims.py")).read())
json.dump({"claims": [C[k] for k in sorted(C)]},
          open(os.path.join(here, "..", "MANIFEST.json"), "w"), indent=1)
