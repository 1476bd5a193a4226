#!/usr/bin/env python3
"""Append the list of property theorems to DESIGN.md (below the marker line)."""
import json, os
here = os.path.dirname(os.path.abspath(__file__))
path = os.path.join(here, "..", "DESIGN.md")
mark = "<!-- generated below by tools/design_tail.py -->\n"
text = open(path).read().split(mark)[0]
out = []
for c in json.load(open(os.path.join(here, "..", "MANIFEST.json")))["claims"]:
    for t in c["theorems"]:
        out.append("| %s | `%s` | Closed under the global context |\n" % (c["property"], t))
open(path, "w").write(text + mark + "\n| property | theorem | `Print Assumptions` |\n|---|---|---|\n" + "".join(out))
