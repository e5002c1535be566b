"""Regenerates MANIFEST.json from the theorem names in rocq/theories/*Props.v and the notes below."""
import glob, json, os, re
root = os.path.dirname(os.path.dirname(os.path.abspath(__file__)))
notes = json.load(open(os.path.join(root, 'tools', 'notes.json')))
thms = {}
for f in sorted(glob.glob(os.path.join(root, 'rocq/theories/*Props.v'))):
    for m in re.finditer(r'^Theorem ((C\d\d+)_\w+)', open(f).read(), re.M):
        thms.setdefault(m.group(2), []).append(m.group(1))
claims = []
for pid in sorted(thms):
    n = notes.get(pid, {})
    status = n.get('status') or ('partial' if any(re.search(r'_(partial|refuted)$', t) for t in thms[pid]) else 'proved')
    claims.append({'property': pid, 'status': status, 'theorems': thms[pid], 'note': n.get('note', '')})
for pid in sorted(notes):
    if pid not in thms:
        claims.append({'property': pid, 'status': notes[pid].get('status', 'not_applicable'), 'theorems': [], 'note': notes[pid].get('note', '')})
json.dump({'claims': claims}, open(os.path.join(root, 'MANIFEST.json'), 'w'), indent=1)
print(len(claims), 'claims', sum(len(c['theorems']) for c in claims), 'theorems')
