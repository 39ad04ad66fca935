"""Generate the Prop*.v files (theorem statements closed by `exact lemma`) from the *Thms.v proof files.

Usage: gen_prop.py Thms.v Prop.v "Title" "Require line"...
Every Lemma/Example named cNN_* in the proof file becomes a Theorem/Example CNN_* in the property file."""
import json, re, sys, textwrap, os
here = os.path.dirname(os.path.dirname(os.path.abspath(__file__)))
src, dst, title = sys.argv[1:4]
reqs = sys.argv[4:]
props = {}
for l in open(os.path.join(here, 'properties.jsonl')):
    d = json.loads(l); props[d['id']] = d
s = open(src).read()
mod = os.path.basename(src)[:-2]
out = ['(** %s.\n\n    Statements only: every theorem is closed by the lemma of the same name (in lower case) in\n    %s.v.  Generated by tools/gen_prop.py. *)' % (title, mod)]
out += reqs
seen = set()
items = []
for m in re.finditer(r'((?:\(\*\*(?:(?!\*\)).)*?\*\)\s*)?)^(Lemma|Example) (c(\d\d\d?)_\w+)(.*?)\nProof\.', s, re.S | re.M):
    items.append((m.group(4), m.group(2), m.group(3), m.group(5), m.group(1)))
order = sorted(range(len(items)), key=lambda i: (int(items[i][0]), i))
for i in order:
    n, kind, name, stmt, com = items[i]
    pid = 'C' + n
    if pid not in seen:
        seen.add(pid)
        d = props[pid]
        out.append('\n' + '\n'.join(textwrap.wrap('(** ** %s. %s.  %s *)' % (pid, d['title'], d['statement'].replace('"', "''")), 110, subsequent_indent='    ')))
    com = com.strip()
    if com and not re.match(r'\(\*\* (\*\* .*|C\d\d\d?) \*\)$', com):
        out.append(com)
    N = 'C' + name[1:]
    out.append('%s %s%s\nProof. exact %s.%s. Qed.' % ('Theorem' if kind == 'Lemma' else 'Example', N, stmt, mod, name))
    if kind == 'Lemma':
        out.append('Print Assumptions %s.' % N)
open(dst, 'w').write('\n'.join(out) + '\n')
print(dst, len(seen), 'properties', sum(1 for it in items if it[1] == 'Lemma'), 'theorems')
