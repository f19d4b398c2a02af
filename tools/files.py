"""Rewrites section 5 of DESIGN.md: which file of theorems has which properties."""
import os
import re

root = os.path.join(os.path.dirname(__file__), '..')
design = os.path.join(root, 'DESIGN.md')
rows = []
for line in open(os.path.join(root, 'rocq', '_CoqProject')):
    name = os.path.basename(line.strip())
    if not name.startswith('Prop_'):
        continue
    source = open(os.path.join(root, 'rocq', 'theories', name)).read()
    ids = sorted(set(re.findall(r'^(?:Theorem|Corollary|Example|Lemma) (C\d\d+)_', source, re.M)))
    rows.append('| `%s` | %s |\n' % (name[:-2], ', '.join(ids)))
text = open(design).read()
mark = '\n## 5. Where the theorems are\n'
text = text.split(mark)[0].rstrip('\n') + '\n'
text += mark + '\nWritten by tools/files.py. The theorems of a property and its examples begin with its id.\n\n| file | properties |\n|---|---|\n' + ''.join(sorted(rows))
open(design, 'w').write(text)
