"""Writes MANIFEST.json: one claim per property, listing the theorems found in rocq/theories/Prop_*.v."""
import json, re, glob, os
root = os.path.dirname(os.path.dirname(os.path.abspath(__file__)))
notes = json.load(open(os.path.join(root, 'tools', 'manifest_notes.json')))
thms = {}
for f in sorted(glob.glob(os.path.join(root, 'rocq/theories/Prop_*.v'))):
    for m in re.finditer(r'^(?:Theorem|Lemma|Corollary)\s+(C\d\d+\w*)', open(f).read(), re.M):
        thms.setdefault(re.match(r'C\d+', m.group(1)).group(0), []).append(m.group(1))
claims = []
for line in open(os.path.join(root, 'properties.jsonl')):
    pid = json.loads(line)['id']
    names = thms.get(pid, [])
    n = notes.get(pid, {})
    if not names and 'status' not in n:
        continue
    claims.append({'property': pid, 'status': n.get('status', 'proved'), 'theorems': names, 'note': n.get('note', '')})
json.dump({'claims': claims}, open(os.path.join(root, 'MANIFEST.json'), 'w'), indent=1)
print(len(claims), 'claims', sum(len(c['theorems']) for c in claims), 'theorems')
