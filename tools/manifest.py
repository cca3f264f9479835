"""Writes MANIFEST.json: the theorems are those named Cnn_* in rocq/theories/Properties*.v, status and notes are below."""
import re, glob, json, os
ROOT = os.path.dirname(os.path.dirname(os.path.abspath(__file__)))
exec(open(os.path.join(ROOT, 'tools', 'manifest_notes.py')).read())
thms = {}
for f in sorted(glob.glob(ROOT + '/rocq/theories/Properties*.v')):
    for m in re.finditer(r'^Theorem (C\d\d)_([A-Za-z0-9_\']+)', open(f).read(), re.M):
        thms.setdefault(m.group(1), []).append(m.group(1) + '_' + m.group(2))
ids = [json.loads(l)['id'] for l in open(ROOT + '/properties.jsonl') if l.strip()]
claims = []
for i in ids:
    if i in thms:
        st, note = NOTES[i]
        claims.append({'property': i, 'status': st, 'theorems': thms[i], 'note': note})
    elif i in NOTES:
        st, note = NOTES[i]
        claims.append({'property': i, 'status': st, 'theorems': [], 'note': note})
json.dump({'claims': claims}, open(ROOT + '/MANIFEST.json', 'w'), indent=1)
print(len(claims), 'claims', sum(len(c['theorems']) for c in claims), 'theorems;', 'missing:', [i for i in ids if i not in thms and i not in NOTES])
