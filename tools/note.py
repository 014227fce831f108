#!/usr/bin/env python3
# note.py Cxx "text": sets the manifest note of a property and regenerates the lists.
import json, subprocess, sys
f = '/verif/tools/notes.json'
n = json.load(open(f))
for i in range(1, len(sys.argv) - 1, 2):
    n[sys.argv[i]] = {"note": sys.argv[i + 1]}
json.dump(n, open(f, 'w'), indent=0)
subprocess.run(['python3', '/verif/tools/gen_props.py'])
subprocess.run(['python3', '/verif/tools/gen_manifest.py'])
