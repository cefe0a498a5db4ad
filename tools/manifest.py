"""Regenerate MANIFEST.json from the theorem names C<nn>_* in rocq/theories/P_*.v and tools/notes.json"""
import re, json, glob, os
root = os.path.dirname(os.path.dirname(os.path.abspath(__file__)))
props = [json.loads(l) for l in open(root + '/properties.jsonl')]
notes = json.load(open(root + '/tools/notes.json'))
thms = {}
for f in sorted(glob.glob(root + '/rocq/theories/P_*.v')):
    for m in re.finditer(r'^Theorem (C\d\d)(\w*)', open(f).read(), re.M):
        thms.setdefault(m.group(1), []).append(m.group(1) + m.group(2))
claims = []
for p in props:
    i = p['id']
    if i in thms or i in notes:
        st, note = notes.get(i, ['proved', ''])
        claims.append(dict(property=i, status=st, theorems=thms.get(i, []), note=note))
json.dump(dict(claims=claims), open(root + '/MANIFEST.json', 'w'), indent=1)
print(len(claims), 'claims', sum(len(c['theorems']) for c in claims), 'theorems', [c['property'] for c in claims])
