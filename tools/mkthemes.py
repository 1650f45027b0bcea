"""Generate rocq/theories/Themes.v from /repo/gopher_render/code_themes/*.py,
read as text (ast), not imported."""
import ast, glob, os
from html2ops import cstr
out = ['(** Generated by tools/mkthemes.py from gopher_render/code_themes/*.py.',
       '    One table per theme: every [renderers] entry, as a dict literal builds it. *)',
       'From Verif Require Export Parser.', 'Open Scope Z_scope.', '']
def val(n):
    v = env[n.id] if isinstance(n, ast.Name) else ast.literal_eval(n)
    if isinstance(v, bool): return 'VBool %s' % str(v).lower()
    if isinstance(v, int): return 'VInt %d' % v
    if isinstance(v, str): return 'VStr %s' % cstr(v)
    raise Exception(v)
def sel(k):
    def simple(w):
        assert w[0] == '.' and w[1:].isalnum(), w
        return '(SClass (SElement None) %s)' % cstr(w[1:])
    res = []
    for part in k.split(','):
        ws = part.split()
        s = simple(ws[0])
        for w in ws[1:]:
            s = '(SCombined %s (lit " ") %s)' % (s, simple(w))
        res.append('sl %s' % s)
    return '[%s]' % '; '.join(res)
names = []
for f in sorted(glob.glob('/repo/gopher_render/code_themes/*.py')):
    b = os.path.basename(f)[:-3]
    if b == '__init__': continue
    tree = ast.parse(open(f).read())
    env = {}
    for st in tree.body:
        if isinstance(st, ast.Assign) and isinstance(st.value, ast.Dict):
            nm = st.targets[0].id
            d = {}
            for k, v in zip(st.value.keys, st.value.values):
                assert isinstance(v, ast.Tuple) and v.elts[0].id == 'AnsiEscapeCodeRenderer', ast.dump(v)
                s = {}
                for a, x in zip(v.elts[1].keys, v.elts[1].values): s[a.value] = val(x)
                d[k.value] = s
            dn = 'theme_%s' % b if nm == 'renderers' else 'theme_%s_%s' % (b, nm)
            names.append(dn)
            out.append('(** code_themes/%s.py:%d-%d [%s] *)' % (b, st.lineno, st.end_lineno, nm))
            out.append('Definition %s : table :=' % dn)
            rows = ['  (%s, (%s, RPair (Some AnsiEscapeCodeRenderer) (Some [%s])))' % (
                cstr(k), sel(k), '; '.join('(%s, %s)' % (cstr(a), x) for a, x in s.items())) for k, s in d.items()]
            out.append('[' + ';\n'.join(rows) + '].'); out.append('')
        elif isinstance(st, ast.Assign):
            env[st.targets[0].id] = ast.literal_eval(st.value)
        elif not isinstance(st, (ast.Expr, ast.ImportFrom)):
            print('other statement', b, st.lineno, ast.dump(st)[:200])
out.append('Definition all_themes : list table := [%s].' % '; '.join(names))
out.append('Close Scope Z_scope.')
open('/verif/rocq/theories/Themes.v', 'w').write('\n'.join(out) + '\n')
