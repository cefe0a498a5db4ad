"""tools/note.py ID STATUS NOTE: set the manifest note of a property"""
import sys, json, os
p = os.path.join(os.path.dirname(os.path.abspath(__file__)), 'notes.json')
d = json.load(open(p)); d[sys.argv[1]] = [sys.argv[2], sys.argv[3]]
json.dump(d, open(p, 'w'), indent=1, ensure_ascii=False)
