"""Regenerate MANIFEST.json from the theorem names in rocq/theories/Prop*.v, tools/notes.json and the table of properties in DESIGN.md."""
import re, json, glob, os
root = os.path.dirname(os.path.dirname(os.path.abspath(__file__)))
notes = json.load(open(root + '/tools/notes.json'))
props = [json.loads(l)['id'] for l in open(root + '/properties.jsonl') if l.strip()]
design = {}
for l in open(root + '/DESIGN.md'):
    if re.match(r'\| C\d', l):
        cells = [c.strip() for c in l.strip().strip('|').split('|')]
        for p in re.findall(r'C\d\d+', cells[0]):
            design[p] = cells[-1]
th = {p: [] for p in props}
for f in sorted(glob.glob(root + '/rocq/theories/Prop*.v')):
    for m in re.finditer(r'^Theorem (C\d\d+)_(\w+)', open(f).read(), re.M):
        th[m.group(1)].append(m.group(1) + '_' + m.group(2))
claims = []
for p in props:
    n = notes.get(p, {})
    if not th[p] and n.get('status') != 'not_applicable':
        continue
    st = n.get('status') or ('partial' if any(t.endswith(('_partial', '_refuted')) for t in th[p]) else 'proved')
    claims.append({"property": p, "status": st, "theorems": th[p], "note": n.get('note', design.get(p, ''))})
json.dump({"claims": claims}, open(root + '/MANIFEST.json', 'w'), indent=1)
print(len(claims), 'claims', sum(len(c['theorems']) for c in claims), 'theorems')
