"""Writes MANIFEST.json: theorem names are collected from rocq/theories/Props_*.v
(every Theorem whose name starts with a property id), statuses and notes from the
tables below."""
import json, re, glob, os
root = os.path.dirname(os.path.dirname(os.path.abspath(__file__)))
PARTIAL = {      # id -> what is missing
}
NOTE = {
 'C01': "any arithmetic",
 'C03': "positive span, cos(sweep)>0, exact arithmetic",
 'C04': "positive span, exact arithmetic",
 'C06': "for every airplane built by any history of public calls",
}
exec(open(os.path.join(root, 'tools', 'manifest_notes.py')).read()) if os.path.exists(os.path.join(root, 'tools', 'manifest_notes.py')) else None
thms = {}
for f in sorted(glob.glob(os.path.join(root, 'rocq/theories/Props_*.v'))):
    for m in re.finditer(r'^Theorem\s+((C\d\d\d?)_\w+)', open(f).read(), re.M):
        thms.setdefault(m.group(2), []).append(m.group(1))
claims = []
for line in open(os.path.join(root, 'properties.jsonl')):
    p = json.loads(line)['id']
    if p in thms:
        partial = p in PARTIAL
        bad = [t for t in thms[p] if t.endswith('_partial')]
        if bad and not partial:
            print('WARNING', p, 'has partial theorems but is not listed partial')
        note = NOTE.get(p, '')
        if partial:
            note = (note + ' ' if note else '') + 'Missing: ' + PARTIAL[p]
        claims.append({'property': p, 'status': 'partial' if partial else 'proved',
                       'theorems': thms[p], 'note': note})
    else:
        print('no theorem for', p)
json.dump({'claims': claims}, open(os.path.join(root, 'MANIFEST.json'), 'w'), indent=1)
print(len(claims), 'claims', sum(len(c['theorems']) for c in claims), 'theorems')
