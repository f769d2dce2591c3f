"""Writes MANIFEST.json: which theorems prove which property."""
import json, os
C = []
def c(prop, theorems, note="", status="proved"):
    C.append(dict(property=prop, status=status, theorems=theorems.split(), note=note))
exec(open(os.path.join(os.path.dirname(__file__), "claims.py")).read())
root = os.path.join(os.path.dirname(__file__), "..")
json.dump({"claims": C}, open(os.path.join(root, "MANIFEST.json"), "w"), indent=1)
