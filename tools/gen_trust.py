"""Regenerates the two generated appendices of DESIGN.md (between the markers):
   assumptions of every property theorem and the inventory of modelled source lines.
   usage: gen_trust.py DIR_WITH_COMPILED_THEORIES"""
import re, os, sys, json, subprocess, collections
V = '/verif'; TH = V + '/rocq/theories'; C = sys.argv[1]
thms = []
for fn in sorted(os.listdir(TH)):
    if fn.endswith('.v'):
        for l in open(f'{TH}/{fn}'):
            m = re.match(r'Theorem (C\d\d\w*)', l)
            if m: thms.append((fn[:-2], m.group(1)))
mods = sorted({m for m, _ in thms})
src = 'Require ' + ' '.join('Verif.' + m for m in mods) + '.\n'
src = 'From Coq Require Import String.\n' + src
for m, t in thms:
    src += f'Check tt. Print Assumptions Verif.{m}.{t}.\n'
os.makedirs('/tmp/trust', exist_ok=True)
open('/tmp/trust/Trust.v', 'w').write(src)
r = subprocess.run(['coqc', '-Q', C, 'Verif', 'Trust.v'], cwd='/tmp/trust', capture_output=True, text=True)
if r.returncode: sys.exit(r.stderr[-2000:])
parts = r.stdout.split('tt\n     : unit\n')[1:]
assert len(parts) == len(thms), (len(parts), len(thms))
groups = collections.OrderedDict()
for (m, t), p in zip(thms, parts):
    if 'Closed under the global context' in p: key = ()
    else: key = tuple(sorted(set(re.findall(r'^([A-Za-z_][\w.]*)\s*(?::|$)', p.replace('Axioms:', ''), re.M))))
    groups.setdefault(key, []).append(t)
out = ['### Assumptions of each theorem (output of `Print Assumptions`)', '']
for key, ts in sorted(groups.items(), key=lambda x: len(x[0])):
    out.append('* ' + ('**no axioms** (closed under the global context)' if not key else '**' + ', '.join(f'`{k}`' for k in key) + '**')
               + f' – {len(ts)} theorems: ' + ', '.join(ts) + '.')
out += ['', '### Source lines cited by the model', '',
        'Collected from the comments of the theory files; everything not cited here is not modelled.', '']
repo = [os.path.relpath(os.path.join(d, f), '/repo') for d, _, fs in os.walk('/repo') for f in fs
        if f.endswith(('.py', '.f90', '.F90')) ]
base = collections.defaultdict(list)
for f in repo: base[os.path.basename(f)].append(f)
cit = collections.defaultdict(lambda: collections.defaultdict(set))
for fn in sorted(os.listdir(TH)):
    if not fn.endswith('.v'): continue
    txt = open(f'{TH}/{fn}').read(); cur = None
    for com in re.findall(r'\(\*(.*?)\*\)', txt, re.S):
        toks = re.finditer(r'([\w/]+\.(?:py|f90|F90))|(?<![\w.])(?:lines?|l\.)\s*((?:\d+(?:\s*[-–]\s*\d+)?(?:,\s*(?:and\s*)?)?)+)|(?<=(?:\.py|f90|F90))[,:]?\s+((?:\d+(?:[-–]\d+)?(?:,\s*)?)+)', com)
        for t in toks:
            if t.group(1):
                c = [f for f in repo if f == t.group(1) or f.endswith('/' + t.group(1))]
                if len(c) > 1: c = [f for f in c if 'test' not in f] or c
                cur = c[0] if c else None
                if cur: cit[cur][fn]
            elif cur:
                for a, b in re.findall(r'(\d+)(?:\s*[-–]\s*(\d+))?', t.group(2) or t.group(3)):
                    a = int(a); b = int(b or a)
                    if a <= b < a + 3000: cit[cur][fn].update(range(a, b + 1))
def rng(s):
    s = sorted(s); o = []
    for x in s:
        if o and x <= o[-1][1] + 2: o[-1][1] = x
        else: o.append([x, x])
    return ', '.join(f'{a}-{b}' if a < b else str(a) for a, b in o)
for f in sorted(cit):
    allr = set().union(*cit[f].values()); n = sum(1 for _ in open('/repo/' + f, errors='replace')); allr = {x for x in allr if x <= n}
    out.append(f'* `{f}` ({n} lines): lines {rng(allr) or "see comments"}; in ' + ', '.join(x[:-2] for x in cit[f]) + '.')
rest = collections.defaultdict(list)
for f in sorted(repo):
    if f not in cit and 'test' not in f.lower() and not f.endswith('__init__.py') and f.startswith('ccpy/'): rest[os.path.dirname(f)].append(os.path.basename(f))
out += ['', 'Files of the package with no modelled line:', '']
for d in sorted(rest): out.append(f'* `{d}`: ' + ', '.join(rest[d]) + '.')
D = V + '/DESIGN.md'; s = open(D).read()
B, E = '<!-- generated: trust -->', '<!-- end generated -->'
new = B + '\n' + '\n'.join(out) + '\n' + E
s = re.sub(re.escape(B) + r'.*?' + re.escape(E), lambda _: new, s, flags=re.S) if B in s else s.rstrip() + '\n\n## Appendix: trusted base in detail\n\n' + new + '\n'
open(D, 'w').write(s)
print(len(thms), {k: len(v) for k, v in groups.items()}, len(cit), sum(map(len, rest.values())))
