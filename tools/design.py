#!/usr/bin/env python3
"""Generates ../DESIGN.md from properties.jsonl, MANIFEST.json and the texts below."""
import json, os, glob, re
here = os.path.dirname(os.path.abspath(__file__))
root = os.path.join(here, "..")
props = [json.loads(l) for l in open(os.path.join(root, "properties.jsonl"))]
claims = {c["property"]: c for c in json.load(open(os.path.join(root, "MANIFEST.json")))["claims"]}
where = {}
for f in sorted(glob.glob(os.path.join(root, "rocq/theories/Prop_*.v"))):
    for m in re.finditer(r"^Theorem (C\d+)_\w+", open(f).read(), re.M):
        where.setdefault(m.group(1), os.path.basename(f))
HOW = {}
def how(ids, txt):
    for i in ids.split():
        if "-" in i:
            a, b = i[1:].split("-C")
            for k in range(int(a), int(b) + 1): HOW["C%02d" % k] = txt
        else: HOW[i] = txt
exec(open(os.path.join(here, "design_text.py")).read())
out = [HEAD.strip(), "", "## Properties", "",
 "| id | property | status | theorems in | what is modelled, and how it is proved |", "|---|---|---|---|---|"]
for p in props:
    c = claims.get(p["id"], {"status": "planned", "theorems": []})
    out.append("| %s | %s | %s | %s | %s |" % (p["id"], p["title"].replace("|", "/"), c["status"], where.get(p["id"], ""), HOW.get(p["id"], "")))
missing = [p["id"] for p in props if p["id"] not in HOW]
if missing: print("no method for", missing)
out += ["", "## Partial and refuted properties", "",
  "A theorem whose name contains `_refuted` exhibits a run of the model, found by reading the code, in which the English claim",
  "fails; `_partial` theorems say what holds instead.", ""]
for p in props:
    c = claims.get(p["id"])
    if c and c["status"] != "proved": out.append("* **%s** %s" % (p["id"], c["note"]))
out += ["", TAIL.strip(), ""]
open(os.path.join(root, "DESIGN.md"), "w").write("\n".join(out))
