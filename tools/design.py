"""Regenerates the property table of DESIGN.md and ASSUMPTIONS.md.
Run from /verif after a build: python3 tools/design.py [--axioms]"""
import json, os, re, subprocess, sys
T = 'rocq/theories/'
order = [l.strip()[9:-2] for l in open('rocq/_CoqProject') if l.strip().endswith('.v')]
where = {}
for f in order:
    for m in re.finditer(r'^\s*(?:Theorem|Lemma|Corollary|Example)\s+([\w\']+)', open(T + f + '.v').read(), re.M):
        where.setdefault(m.group(1), f)
plan = json.load(open('tools/plan.json'))
props = [json.loads(l) for l in open('properties.jsonl')]
claims = {c['property']: c for c in json.load(open('MANIFEST.json'))['claims']}
rows = ['| id | property | modelled, and how proved | theorems in |', '|---|---|---|---|']
for p in props:
    c = claims.get(p['id'])
    files = []
    for t in (c['theorems'] if c else []):
        f = where.get(t, '?')
        if f not in files: files.append(f)
    if p['id'] not in plan: print('no plan for', p['id'])
    txt = plan.get(p['id'], '')
    if c and c['note']: txt += ' *(' + c['note'] + ')*'
    rows.append('| %s | %s | %s | %s |' % (p['id'], p['title'], txt.replace('|', '/'), ', '.join(files)))
s = open('DESIGN.md').read()
a, b = '<!-- table -->', '<!-- end table -->'
s = s[:s.index(a) + len(a)] + '\n' + '\n'.join(rows) + '\n' + s[s.index(b):]
open('DESIGN.md', 'w').write(s)

if '--axioms' in sys.argv:
    ths = []
    for p in props:
        for t in claims[p['id']]['theorems']:
            if t not in ths: ths.append(t)
    src = ''.join('Require Verif.%s.\n' % f for f in order)
    for t in ths:
        src += 'Goal True. idtac "@@ %s". Abort.\nPrint Assumptions Verif.%s.%s.\n' % (t, where[t], t)
    open('/tmp/pa.v', 'w').write(src)
    out = subprocess.run(['coqc', '-Q', 'rocq/theories', 'Verif', '/tmp/pa.v'], capture_output=True, text=True)
    if out.returncode: print(out.stderr[-2000:])
    res = {}
    for part in out.stdout.split('@@ ')[1:]:
        name, body = part.split('\n', 1)
        ax = [] if 'Closed under the global context' in body else re.findall(r'^([A-Za-z_][\w.\']*)(?=\s*$|\s*:)', body, re.M)
        res[name.strip()] = sorted(set(x for x in ax if x not in ('Axioms',)))
    groups = {}
    for t in ths: groups.setdefault(tuple(res[t]), []).append(t)
    o = ['# Print Assumptions of every theorem of MANIFEST.json', '',
         'Generated by tools/design.py --axioms (Coq 8.16.1). All names below are axioms of the Coq standard library.', '']
    for g in sorted(groups, key=len):
        o.append('## ' + (', '.join('`%s`' % x for x in g) if g else 'Closed under the global context (no axioms)'))
        o.append('')
        for t in groups[g]: o.append('* %s (%s)' % (t, where[t]))
        o.append('')
    open('ASSUMPTIONS.md', 'w').write('\n'.join(o))
    print({k: len(v) for k, v in groups.items()})
