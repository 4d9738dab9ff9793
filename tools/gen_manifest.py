#!/usr/bin/env python3
"""Regenerates MANIFEST.json from the theorem names Cnn_* in rocq/theories/Properties*.v and tools/status.json."""
import json, re, glob
here = __file__.rsplit('/', 2)[0]
thms = {}
comment = {}
for f in sorted(glob.glob(here + '/rocq/theories/Properties*.v')):
    text = open(f).read()
    for m in re.finditer(r'^(?:Theorem|Lemma)\s+((C\d\d\d?)_\w+)', text, re.M):
        thms.setdefault(m.group(2), []).append(m.group(1))
    for m in re.finditer(r'\(\*\*((?:(?!\*\)).)*)\*\)\s*\n(?:Theorem|Lemma) (C\d+_\w+)', text, re.S):
        comment[m.group(2)] = re.sub(r'\s+', ' ', m.group(1)).strip()
    for m in re.finditer(r'^(?:Theorem|Lemma)\s+(C\d\d\d?_\w+)', text, re.M):
        if m.group(1) not in comment:   # a comment in front of the definitions that the theorem is about
            a = text.rfind('(**', 0, m.start()); b = text.find('*)', a)
            if a >= 0 and 'Qed.' not in text[b:m.start()]:
                comment[m.group(1)] = re.sub(r'\s+', ' ', text[a + 3:b]).strip()
def note_of(names):
    """What the comments in front of the partial and refuted theorems say."""
    some = ' '.join(n + ': ' + comment[n] for n in names if n.endswith(('_partial', '_refuted')) and n in comment)
    return some or ' '.join(n + ': ' + comment[n] for n in names if n in comment)
st = json.load(open(here + '/tools/status.json'))
claims = []
for l in open(here + '/properties.jsonl'):
    p = json.loads(l)['id']
    t = thms.get(p, [])
    if p in st:
        s, note = st[p]
    elif t:
        s, note = ('partial' if any(x.endswith(('_partial', '_refuted')) for x in t) else 'proved'), note_of(t)
    else:
        s, note = 'partial', 'no theorem yet'
    claims.append({'property': p, 'status': s, 'theorems': t, 'note': note})
json.dump({'claims': claims}, open(here + '/MANIFEST.json', 'w'), indent=1)
print({s: sum(c['status'] == s for c in claims) for s in ('proved', 'partial', 'not_applicable')},
      [c['property'] for c in claims if not c['theorems']])
