"""Write MANIFEST.json from the theorem names in rocq/theories/Prop_*.v.

Every theorem is called Cnn_...; the status and the note of a property come from
the table below."""
import glob, json, os, re
here = os.path.dirname(os.path.abspath(__file__))
thms = {}
for f in sorted(glob.glob(os.path.join(here, '../rocq/theories/Prop_*.v'))):
    for m in re.finditer(r'^Theorem ((C\d+)_\w+)', open(f).read(), re.M):
        thms.setdefault(m.group(2), []).append(m.group(1))
table = json.load(open(os.path.join(here, 'status.json')))
claims = []
for l in open(os.path.join(here, '../properties.jsonl')):
    p = json.loads(l)['id']
    st, note = table.get(p, ['partial', 'not proved yet'])
    t = thms.get(p, [])
    claims.append({'property': p, 'status': st, 'theorems': t, 'note': note})
json.dump({'claims': claims}, open(os.path.join(here, '../MANIFEST.json'), 'w'), indent=1)
