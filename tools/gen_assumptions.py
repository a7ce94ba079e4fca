"""Write the section "Assumptions per theorem" of DESIGN.md from the output of Print Assumptions.

Needs the compiled files of rocq/theories (run make in rocq first). With an argument, only the named
Prop_ modules are queried again and the others are taken from the cache file."""
import glob, json, os, re, subprocess, sys, tempfile

HERE = os.path.dirname(os.path.dirname(os.path.abspath(__file__)))
THEORIES = os.path.join(HERE, 'rocq', 'theories')
CACHE = os.path.join(tempfile.gettempdir(), 'verif_assumptions.json')
BEGIN, END = '<!-- assumptions: begin -->', '<!-- assumptions: end -->'
SHORT = {'ClassicalDedekindReals.sig_forall_dec': 'F', 'ClassicalDedekindReals.sig_not_dec': 'N',
         'FunctionalExtensionality.functional_extensionality_dep': 'E', 'Classical_Prop.classic': 'C'}


def query(module):
    text = open(os.path.join(THEORIES, module + '.v')).read()
    names = re.findall(r'^Print Assumptions (\w+)\.', text, re.M)
    source = 'From Verif Require Import %s.\n' % module
    source += ''.join('Goal True. idtac "@@ %s". Abort.\nPrint Assumptions %s.\n' % (n, n) for n in names)
    with tempfile.TemporaryDirectory() as tmp:
        open(os.path.join(tmp, 'q.v'), 'w').write(source)
        out = subprocess.run(['coqc', '-Q', THEORIES, 'Verif', 'q.v'], cwd=tmp, capture_output=True, text=True)
    if out.returncode:
        raise SystemExit(module + ': ' + out.stderr[-300:])
    result = {}
    for name, block in zip(names, re.split(r'@@ \w+', out.stdout)[1:]):
        found = set(re.findall(r'^([A-Za-z_][\w.]*)\s*:', block, re.M)) - {'Axioms'}
        result[name] = [module, sorted(found)]
    return result


modules = sorted(os.path.basename(f)[:-2] for f in glob.glob(os.path.join(THEORIES, 'Prop_*.v')))
data = json.load(open(CACHE)) if len(sys.argv) > 1 and os.path.exists(CACHE) else {}
for m in modules:
    if len(sys.argv) == 1 or m in sys.argv[1:]:
        data = {n: v for n, v in data.items() if v[0] != m}
        data.update(query(m))
json.dump(data, open(CACHE, 'w'))

groups = {}
for name, (module, axioms) in data.items():
    axioms = [a for a in axioms if a != 'Axioms']
    for a in axioms:
        if a not in SHORT:
            raise SystemExit('unexpected axiom %s in %s' % (a, name))
    groups.setdefault(tuple(sorted(axioms)), []).append(name)
lines = [BEGIN, '', '%d theorems, grouped by what `Print Assumptions` lists.' % len(data), '']
for axioms, names in sorted(groups.items(), key=lambda g: (len(g[0]), g[0])):
    title = ', '.join('`%s`' % a for a in axioms) if axioms else 'Closed under the global context'
    lines += ['**%s** (%d theorems):' % (title, len(names)), '', ', '.join(sorted(names)) + '.', '']
lines.append(END)
path = os.path.join(HERE, 'DESIGN.md')
text = open(path).read()
block = '\n'.join(lines)
if BEGIN in text:
    text = text[:text.index(BEGIN)] + block + text[text.index(END) + len(END):]
else:
    text = text.rstrip('\n') + '\n\n## Assumptions per theorem\n\n' + block + '\n'
open(path, 'w').write(text)
print({len(k): len(v) for k, v in groups.items()})
