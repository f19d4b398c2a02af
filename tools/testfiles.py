"""Write rocq/theories/T_Files.v: the files of /repo/tests/resources that the unit tests use,
as bytes, and the settings as JSON values."""
import json, os
R = '/repo/tests/resources'
OUT = os.path.join(os.path.dirname(os.path.abspath(__file__)), '../rocq/theories/T_Files.v')

def zs(l):
    return '[' + '; '.join(str(x) for x in l) + ']'

def js(v):
    if isinstance(v, str):
        return 'JStr ' + zs(map(ord, v))
    if isinstance(v, bool):
        return 'JBool ' + ('true' if v else 'false')
    if isinstance(v, int):
        return 'JNum %s' % (v if v >= 0 else '(%d)' % v)
    if isinstance(v, list):
        return 'JList [' + '; '.join(js(x) for x in v) + ']'
    return 'JObj ' + obj(v)

def obj(v):
    return '[' + ';\n  '.join('(%s, %s)' % (zs(map(ord, k)), js(x)) for k, x in v.items()) + ']'

out = ['(** The files of tests/resources that the unit tests of the repository work with.', '    Written by tools/testfiles.py. *)',
       'From Coq Require Import List ZArith.', 'From Verif Require Import Base M_Front.', 'Import ListNotations.', 'Open Scope Z_scope.', '']
for name, f in [('test_char_def', 'char.def'), ('test_unk_def', 'unk.def'), ('test_rewrite_def', 'rewrite.def'), ('numeric_char_def', 'joinnumeric/char.def'),
                ('test_lex_csv', 'dict/lex.csv'), ('test_matrix_def', 'dict/matrix.def'), ('test_user_csv', 'dict/user.csv'), ('test_user2_csv', 'dict/user2.csv')]:
    b = open(os.path.join(R, f), 'rb').read()
    out.append('(** tests/resources/%s *)' % f)
    out.append('Definition %s : bytes :=' % name)
    lines = ['  ' + '; '.join(str(x) for x in b[i:i + 60]) for i in range(0, len(b), 60)]
    out.append('  [' + ';\n'.join(lines).lstrip() + '].')
for name, f in [('test_settings', 'sudachi.json'), ('numeric_settings', 'numeric_sudachi.json')]:
    v = json.load(open(os.path.join(R, f), encoding='utf-8'))
    out.append('(** tests/resources/%s *)' % f)
    out.append('Definition %s : conf :=\n  %s.' % (name, obj(v)))
open(OUT, 'w', encoding='utf-8').write('\n'.join(out) + '\n')
