#!/usr/bin/env python3
"""note.py ID STATUS NOTE: set the manifest note of a property."""
import json, sys, os
p = os.path.join(os.path.dirname(os.path.abspath(__file__)), "notes.json")
n = json.load(open(p))
n[sys.argv[1]] = {"status": sys.argv[2], "note": sys.argv[3]}
json.dump(dict(sorted(n.items())), open(p, "w"), indent=1)
