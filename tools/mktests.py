"""Generate theories/RepoTests.v: the expectations of /repo/tests, read as text
(Python ast, nothing is imported or run), as Examples about the model."""
import ast, re, sys
sys.path.insert(0, '/verif/tools')
from html2ops import ops, cstr

out = []
w = out.append
w('''(** The expectations of /repo/tests as examples on the model (generated by
    tools/mktests.py; these are tests of the model, not proofs of properties). *)
From Verif Require Import Parser Fixture.
Local Existing Instance U0.
Open Scope Z_scope.
''')

# ---------------------------------------------------------------- selectors
def cs(s): return 'lit "%s"' % s

def parse_simple(s):
    m = re.match(r'[A-Za-z][A-Za-z0-9]*|\*', s)
    if m:
        cur = '(SElement (Some (%s)))' % cs(m.group()) if m.group() != '*' else '(SElement None)'
        s = s[m.end():]
    else:
        cur = '(SElement None)'
    while s:
        m = re.match(r'\.([\w-]+)', s)
        if m: cur = '(SClass %s (%s))' % (cur, cs(m.group(1))); s = s[m.end():]; continue
        m = re.match(r'#([\w-]+)', s)
        if m: cur = '(SHash %s (%s))' % (cur, cs(m.group(1))); s = s[m.end():]; continue
        m = re.match(r':not\(([^()]*)\)', s)
        if m: cur = '(SNegation %s %s)' % (cur, parse_simple(m.group(1))); s = s[m.end():]; continue
        m = re.match(r':([\w-]+)\((\w+)\)', s)
        if m: cur = '(SFunction %s (%s) [%s])' % (cur, cs(m.group(1)), cs(m.group(2))); s = s[m.end():]; continue
        m = re.match(r':([\w-]+)', s)
        if m: cur = '(SPseudo %s (%s))' % (cur, cs(m.group(1))); s = s[m.end():]; continue
        raise Exception('selector ' + s)
    return cur

def parse_one(s):
    toks = re.findall(r'[>+~]|[^\s>+~]+', s)
    cur = parse_simple(toks[0]); i = 1
    while i < len(toks):
        if toks[i] in '>+~': comb = toks[i]; nxt = toks[i+1]; i += 2
        else: comb = ' '; nxt = toks[i]; i += 1
        cur = '(SCombined %s (%s) %s)' % (cur, cs(comb), parse_simple(nxt))
    return cur

def parse_group(s):
    return '[' + '; '.join('Selector %s false' % parse_one(x.strip()) for x in s.split(',')) + ']'

class Doc: pass

def run_test(fn, prefix):
    nodes = []        # dict(tag,parent,children,attrs,data)
    doc = {'root': True, 'children': []}
    env = {'doc': doc}
    checks = []
    def ev(e):
        if isinstance(e, ast.Constant): return e.value
        if isinstance(e, ast.Tuple): return tuple(ev(x) for x in e.elts)
        if isinstance(e, ast.Name): return env[e.id]
        if isinstance(e, ast.Subscript): return ev(e.value)[ev(e.slice)]
        if isinstance(e, ast.Attribute) and e.attr == 'children': return ev(e.value)['children']
        if isinstance(e, ast.Call):
            f = e.func
            if isinstance(f, ast.Name) and f.id == 'DocumentParser': return doc
            if isinstance(f, ast.Name) and f.id == 'MockTagParser':
                t, p, a = [ev(x) for x in e.args]
                n = dict(i=len(nodes), tag=t, parent=p, children=[], attrs=a, data=None); nodes.append(n); return n
            if isinstance(f, ast.Name) and f.id == 'MockDataParser':
                p, x = [ev(x) for x in e.args]
                n = dict(i=len(nodes), tag=None, parent=p, children=[], attrs=(), data=x); nodes.append(n); return n
            if isinstance(f, ast.Name) and f.id == '_perform_checks':
                els, ch = [ev(x) for x in e.args]
                checks.append((list(els), ch)); return None
            if isinstance(f, ast.Attribute) and f.attr == 'append':
                ev(f.value)['children'].append(ev(e.args[0])); return None
            if isinstance(f, ast.Attribute) and f.attr == 'extend':
                ev(f.value).extend(ev(e.args[0])); return None
            if isinstance(f, ast.Attribute) and f.attr == 'parse':
                return ev(e.args[0])
            if isinstance(f, ast.Name) and f.id == 'tag_matches':
                return ('match', ev(e.args[0]), ev(e.args[1]))
        raise Exception(ast.dump(e))
    loop_checks = False
    for st in fn.body:
        if isinstance(st, ast.Expr) and isinstance(st.value, ast.Constant): continue
        if isinstance(st, ast.Assign):
            tg = st.targets[0]; v = ev(st.value)
            if isinstance(tg, ast.Name): env[tg.id] = v
            else: env[tg.elts[0].id] = v
        elif isinstance(st, ast.Expr): ev(st.value)
        elif isinstance(st, ast.For):
            if isinstance(st.iter, ast.Name) and st.iter.id == 'checks':
                checks.append((list(env['elements']), env['checks']))
            else:
                for x in ev(st.iter):
                    env[st.target.id] = x
                    for b in st.body: ev(b.value)
        elif isinstance(st, ast.Assert):
            e = st.test; pol = True
            if isinstance(e, ast.UnaryOp): pol = False; e = e.operand
            _, n, s = ev(e)
            checks.append(([n], ((s, (pol,)),)))
        else: raise Exception(ast.dump(st))
    def pref(p): return 'PRoot' if p is doc else '(PNode %d)' % p['i']
    w('(** /repo/tests/test_selectors.py, %s. *)' % fn.name)
    w('Definition %s_doc : dom := Dom [' % prefix)
    rows = []
    for n in nodes:
        d = dict(n['attrs'])
        cls = d['class'].split() if 'class' in d else []
        at = '; '.join('(%s, %s)' % (cs(k), 'AvList [' + '; '.join(cs(c) for c in cls) + ']' if k == 'class' else 'AvStr (%s)' % cs(v)) for k, v in d.items())
        rows.append('  Node %s %s [%s]%%nat false [%s] [%s] %s %s None []' % (
            'None' if n['tag'] is None else '(Some (%s))' % cs(n['tag']), pref(n['parent']),
            '; '.join(str(c['i']) for c in n['children']), at, '; '.join(cs(c) for c in cls),
            '(Some (%s))' % cs(d['id']) if 'id' in d else 'None',
            'None' if n['data'] is None else '(Some %s)' % cstr(n['data'])))
    w(';\n'.join(rows))
    w('  ] [%s]%%nat.' % '; '.join(str(c['i']) for c in doc['children']))
    w('Example %s : forallb (fun c => holds %s_doc (fst (fst c)) (snd (fst c)) (snd c)) [' % (prefix, prefix))
    rows = []
    for els, ch in checks:
        for s, res in ch:
            assert len(els) == len(res), (fn.name, s)
            rows.append('  (%s, [%s]%%nat, [%s])' % (parse_group(s), '; '.join(str(e['i']) for e in els),
                        '; '.join('true' if r else 'false' for r in res)))
    w(';\n'.join(rows))
    w('  ] = true.\nProof. vm_compute. reflexivity. Qed.\n')

w('''(** The matches of a selector group on a list of nodes. *)
Definition holds (d : dom) (l : list selector) (ids : list nat) (want : list bool) : bool :=
  Nat.eqb (length ids) (length want) &&
  forallb (fun p => match tag_matches d (ONode (fst p)) l with
                    | Ok (b, _) => Bool.eqb b (snd p)
                    | Err _ => false
                    end) (combine ids want).
''')
m = ast.parse(open('/repo/tests/test_selectors.py').read())
for st in m.body:
    if isinstance(st, ast.FunctionDef) and st.name.startswith('test'): run_test(st, st.name)
    if isinstance(st, ast.ClassDef) and st.name.startswith('Test'):
        for f in st.body:
            if isinstance(f, ast.FunctionDef): run_test(f, f.name)

# ---------------------------------------------------------------- html
w('''(** Outputs and lines. *)
Definition render (opt : bool) (h : list op) : str :=
  match render_doc (Options 67 None [] [] (lit "text") (lit "footer") (lit "inline") [] 70 opt) h with
  | Ok s => s | Err _ => lit "error" end.
Definition lines (s : str) : list str := split_on 10%N s.
Definition line (k : nat) (s : str) : str := nth k (lines s) (lit "no such line").
Definition starts (p s : str) : bool := seqb (firstn (length p) s) p.
Definition ends (p s : str) : bool := seqb (skipn (length s - length p) s) p.
Definition wide (k : Z) (s : str) : bool := len s =? k.
Definition in_range (a b : nat) (f : nat -> bool) : bool := forallb f (seq a (b - a)).
Definition nlines (k : nat) (s : str) : bool := Nat.eqb (length (lines s)) k.
''')
def html(name, h, opt, conds):
    w('(** /repo/tests/test_html.py, %s. *)' % name)
    w('Example html_%s :\n  let o := render %s %s in\n  forallb (fun b => b) [%s] = true.\nProof. vm_compute. reflexivity. Qed.\n' % (
        name, 'true' if opt else 'false', ops(h), ';\n    '.join(conds)))
def L(s): return cstr(s)
html('p_short', "<p>Paragraph Text</p>", True,
     ['ends nl o', 'nlines 3 o', 'seqb (strip (line 1 o)) (lit "Paragraph Text")',
      'len (line 1 o) =? len (strip (line 1 o))', 'seqb (line 2 o) []'])
html('p_long', ''.join([
            "<p>Paragraph Text Paragraph Text Paragraph Text Paragraph Text Paragraph ",
            "Paragraph Text Paragraph Text Paragraph Text Paragraph Text Paragraph ",
            "Paragraph Text Paragraph Text Paragraph Text Paragraph Text Paragraph ",
            "Paragraph Text Paragraph Text Paragraph Text Paragraph Text Paragraph ",
            "Paragraph Text Paragraph Text Paragraph Text Paragraph Text Paragraph ",
            "Paragraph Text Paragraph Text Paragraph Text Paragraph Text Paragraph ",
            "Text Paragraph Text Paragraph Text Paragraph Text</p>"]), False,
     ['ends nl o', 'nlines 10 o', 'in_range 1 9 (fun k => wide 67 (line k o))'])
for n, h in (('br', "<p>Paragraph<br>Text</p>"), ('closed_br', "<p>Paragraph<br/>Text</p>")):
    html(n, h, True, ['ends nl o', 'nlines 4 o', 'seqb (line 1 o) (lit "Paragraph")', 'seqb (line 2 o) (lit "Text")'])
for i in range(1, 7):
    html('h%d' % i, "<h%d>Seventh</h%d>" % (i, i), False,
         ['seqb (strip o) (lit "%s Seventh %s")' % ('#' * i, '#' * i), 'starts nl o', 'ends nl o', 'wide 69 o'])
for t, m_, k in (('code', '`', 11), ('em', '_', 11), ('strong', '**', 13), ('u', '_', 11), ('s', '~~', 13), ('ins', '_', 11), ('del', '~~', 13)):
    html(t, "<%s>ClassName</%s>" % (t, t), True,
         ['starts (lit "%s") o' % m_, 'ends (lit "%s") o' % m_, 'wide %d o' % k, 'nlines 1 o'])
html('code_span_in_p', "<p>This paragrah includes a <code>ClassName</code> in a code tag.</p>", True,
     ['seqb (strip o) (lit "This paragrah includes a `ClassName` in a code tag.")'])
code = ["def func():", "    print('Some nonsense')", "    return True"]
html('code_block', "<pre><code>%s</code></pre>" % '\n'.join(code), True,
     ['starts nl o', 'ends nl o', 'nlines 5 o'] + ['seqb (rstrip (line %d o)) (lit "    %s")' % (k, code[k - 1]) for k in (1, 2)])
html('blockquote', "<blockquote><p>One</p><p>Two</p></blockquote>", False,
     ['starts nl o', 'ends nl o', 'nlines 5 o', 'in_range 1 4 (fun k => starts (lit "> ") (line k o) && wide 67 (line k o))',
      'seqb (strip (line 2 o)) (lit ">")'])
html('span', "<span>ClassName</span>", True, ['starts (lit "C") o', 'ends (lit "e") o', 'wide 9 o', 'nlines 1 o'])
html('div', "<div>ClassName</div>", False, ['starts (lit "C") o', 'ends (lit "e") (strip o)', 'wide 67 o', 'nlines 1 o'])
html('ul', "<ul><li>One</li><li>Two</li><li>Three</li></ul>", False,
     ['starts nl o', 'ends nl o', 'nlines 5 o', 'in_range 1 4 (fun k => starts (lit "* ") (line k o) && wide 67 (line k o))'])
html('ol', "<ol><li>One</li><li>Two</li><li>Three</li></ol>", False,
     ['starts nl o', 'ends nl o', 'nlines 5 o', 'in_range 1 4 (fun k => starts (str_of_Z (Z.of_nat k) ++ lit ". ") (line k o) && wide 67 (line k o))'])
html('nested_lists', "<ol><li>One</li><li>Two<ul><li>Two Point One</li><li>Two Point Two</li></ul></li><li>Three</li></ol>", False,
     ['starts nl o', 'ends nl o', 'nlines 7 o', 'in_range 1 3 (fun k => starts (str_of_Z (Z.of_nat k) ++ lit ". ") (line k o) && wide 67 (line k o))',
      'in_range 3 5 (fun k => starts (lit "   * ") (line k o) && wide 67 (line k o))', 'starts (lit "3. ") (line 5 o)', 'wide 67 (line 5 o)'])
html('whitespace', "\n".join(["<p>  This \t\t\tparagraph  ", "     has a \tbunch of", "whitespace   in between    ", "the lines  </p>"]), True,
     ['nlines 3 o', 'seqb (line 1 o) (lit "This paragraph has a bunch of whitespace in between the lines")'])
html('whitespace_around_tags', "\n".join(["<p>A first line,", "an <em>emphasised</em> second.", "<strong>Strong start </strong>to a third.", "</p>"]), True,
     ['nlines 3 o', 'seqb (line 1 o) (lit "A first line, an _emphasised_ second.  **Strong start **to a third.")'])
html('dl', "<dl><dt>One</dt><dd>Definition One</dd><dt>Two</dt><dd>Definition Two One</dd><dd>Definition Two Two</dd></dl>", False,
     ['starts nl o', 'ends nl o', 'nlines 8 o', 'starts (lit ": ") (line 2 o)',
      'in_range 5 7 (fun k => starts (lit ": ") (line k o) && wide 67 (line k o))', 'in_range 1 7 (fun k => wide 67 (line k o))'])
open('/verif/rocq/theories/RepoTests.v', 'w').write('\n'.join(out) + '\n')
