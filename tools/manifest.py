"""Regenerate MANIFEST.json: theorems are collected from rocq/theories/Properties*.v by their Cnn_ prefix."""
import glob, json, re, os
root = os.path.dirname(os.path.dirname(os.path.abspath(__file__)))
ths = {}
for f in sorted(glob.glob(root + '/rocq/theories/Properties*.v')):
    for m in re.finditer(r'^Theorem (C\d\d+)_(\w+)', open(f).read(), re.M):
        ths.setdefault(m.group(1), []).append(f'{m.group(1)}_{m.group(2)}')
notes = json.load(open(root + '/tools/notes.json'))
claims = []
for line in open(root + '/properties.jsonl'):
    p = json.loads(line)['id']
    n = notes.get(p, {})
    t = ths.get(p, [])
    if not t and n.get('status') != 'not_applicable':
        continue
    status = n.get('status') or ('partial' if all(x.endswith('_partial') for x in t) else 'proved')
    claims.append({'property': p, 'status': status, 'theorems': t, 'note': n.get('note', '')})
json.dump({'claims': claims}, open(root + '/MANIFEST.json', 'w'), indent=1, ensure_ascii=False)
print(len(claims), 'claims,', sum(len(c['theorems']) for c in claims), 'theorems')
