"""Generate theories/Entities.v from html.entities.html5 and the tables of
html/__init__.py (CPython 3.11)."""
import html, html.entities
out = ['''(** Character reference tables of the standard library, CPython 3.11:
    html.entities.html5 and html/__init__.py:29-85 (generated by
    tools/mkentities.py). *)
From Verif Require Export PyStr.
Open Scope N_scope.

(** html.entities.html5. *)
Definition html5 : list (string * list N) := [''']
items = sorted(html.entities.html5.items())
out.append(';\n'.join('("%s"%%string, [%s])' % (k, '; '.join(str(ord(c)) for c in v)) for k, v in items))
out.append('''].

(** html._invalid_charrefs. *)
Definition invalid_charrefs : list (N * N) := [''')
out.append(';\n'.join('(%d, %d)' % (k, ord(v)) for k, v in sorted(html._invalid_charrefs.items())))
out.append('''].

(** html._invalid_codepoints. *)
Definition invalid_codepoints : list N := [''')
out.append('; '.join(str(k) for k in sorted(html._invalid_codepoints)))
out.append('''].
Close Scope N_scope.''')
open('/verif/rocq/theories/Entities.v', 'w').write('\n'.join(out) + '\n')
