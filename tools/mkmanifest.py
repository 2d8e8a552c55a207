#!/usr/bin/env python3
"""Collect the theorem names of theories/T_*.v into MANIFEST.json.
STATUS holds the judgement for each property; the default is partial."""
import os, re, json, glob
ROOT = os.path.join(os.path.dirname(__file__), '..')
names = {}
for fn in sorted(glob.glob(os.path.join(ROOT, 'rocq', 'theories', 'T_*.v'))):
    for m in re.finditer(r'^Theorem\s+((C\d\d\d?)_\w+)', open(fn).read(), re.M):
        names.setdefault(m.group(2), []).append(m.group(1))
STATUS = {}
exec(open(os.path.join(os.path.dirname(__file__), 'status.py')).read())
MODS = sorted((os.path.basename(f)[2:-2] for f in glob.glob(os.path.join(ROOT, 'rocq', 'theories', 'M_*.v'))), key=len, reverse=True)
def auto(p, th):
    """Which modules of /repo a property stated for every distribution is proved, partly proved or refuted for."""
    kind = {}
    for t in th:
        b = t[len(p) + 1:]
        m = next((m for m in MODS if b == m or b.startswith(m + '_')), b)
        kind.setdefault(m, []).append(b)
    ref = sorted(m for m, l in kind.items() if any('refuted' in b for b in l))
    par = sorted(m for m, l in kind.items() if m not in ref and any('partial' in b for b in l))
    n = f"theorems for {len(kind)} modules"
    if ref: n += '; the code violates it at some point (refuted) for ' + ', '.join(ref)
    if par: n += '; proved only in part for ' + ', '.join(par)
    return n + '; for the modules and functions without a theorem see DESIGN.md section 4'
claims = []
for line in open(os.path.join(ROOT, 'properties.jsonl')):
    p = json.loads(line)['id']
    th = names.get(p, [])
    st, note = STATUS.get(p, ('partial', ''))
    if not th and st != 'not_applicable':
        st, note = 'partial', (note or 'no theorem yet; see DESIGN.md')
    if th and not note and st == 'partial': note = auto(p, th)
    claims.append({'property': p, 'status': st, 'theorems': th, 'note': note})
json.dump({'claims': claims}, open(os.path.join(ROOT, 'MANIFEST.json'), 'w'), indent=1)
print(sum(len(v) for v in names.values()), 'theorems;', [c['property'] for c in claims if not c['theorems']])
