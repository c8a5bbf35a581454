#!/usr/bin/env python3
"""addnote.py Cnn 'note' [status]: sets the note of a property in tools/notes.json."""
import json, sys, os
p = os.path.dirname(os.path.abspath(__file__)) + '/notes.json'
d = json.load(open(p))
d[sys.argv[1]] = {"note": sys.argv[2], **({"status": sys.argv[3]} if len(sys.argv) > 3 else {})}
json.dump(d, open(p, 'w'), indent=0)
