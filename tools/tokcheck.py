import random, sys
sys.path.insert(0,'/verif/tools')
from html2ops import cstr
from html.parser import HTMLParser
seed=int(sys.argv[1]); N=int(sys.argv[2]); random.seed(seed)
class P(HTMLParser):
    def __init__(self): 
        super().__init__(convert_charrefs=True); self.ops=[]
    def handle_starttag(self,t,a):
        self.ops.append('OStart %s [%s]'%(cstr(t),';'.join('(%s, %s)' % (cstr(k), 'None' if v is None else 'Some ' + cstr(v)) for k, v in a)))
    def handle_endtag(self,t): self.ops.append('OEnd %s'%cstr(t))
    def handle_data(self,d): self.ops.append('OData %s'%cstr(d))
toks=['<','>','/','a','b','p','=','"',"'",' ','\n','<a','<p','</p','</','</a>','<br/>','<br>','&amp;','&lt','&','&#65;','&#x41','&notit;','&#1;','&#128;','&#xD800;','&#','&#x','&CounterClockwiseContourIntegral;','&lang','<!--','-->','--','-- >','<!','<!doctype','<!DOCTYPE html>','<![','<![CDATA[',']]>','] ]>','<![if','<![foo[',']>','<?','<?x>','<script>','</script>','</SCRIPT >','<style','</style>','</ſcrıpt>',' href="x"'," class='c d'",' x=y',' k','/>',' / >','\x00','\t','\x0b','\xa0','B','C','1','ab','-','--!>','!','href= "x>','x == "u>"','&ampx','&am','p;','zzzzzzzzzzzzzzzzzzzzzzzzzzzzzzzzzzzz',';','abc','ı','\r','\x0c']
def case():
    n=random.randint(1,14)
    return ''.join(random.choice(toks) for _ in range(n))
rows=[]
for i in range(N):
    chunks=[case() for _ in range(random.choice([1,1,1,2,3]))]
    p=P(); err='None'
    res=[]
    try:
        for c in chunks: p.feed(c)
        p.close()
        fin='Some %s'%cstr(p.rawdata)
    except AssertionError: fin='None'
    except ValueError: fin='None'
    rows.append('([%s], [%s], %s, %s)'%('; '.join(map(cstr,chunks)),'; '.join(p.ops),'None' if fin=='None' else '('+fin+')', 'None' if p.cdata_elem is None else '(Some %s)'%cstr(p.cdata_elem)))
print('''From Verif Require Import Tokenizer Fixture.
Local Existing Instance U0.
Definition oeqb {A} (f : A -> A -> bool) (a b : option A) := match a, b with Some x, Some y => f x y | None, None => true | _, _ => false end.
Fixpoint leqb {A} (f : A -> A -> bool) (a b : list A) := match a, b with [], [] => true | x::a, y::b => f x y && leqb f a b | _,_ => false end.
Definition opeqb (a b : op) := match a, b with
 | OStart t l, OStart t' l' => seqb t t' && leqb (fun p q => seqb (fst p) (fst q) && oeqb seqb (snd p) (snd q)) l l'
 | OEnd t, OEnd t' => seqb t t' | OData t, OData t' => seqb t t' | _, _ => false end.
Fixpoint split_tr (t : trace) : list op * option (option str * str) := match t with
 | TStop cd r => ([], Some (cd, r)) | TErr _ => ([], None) | TEv o k => let '(l, x) := split_tr k in (o :: l, x) end.
Fixpoint go (cd : option str) (raw : str) (l : list str) : list op * option (option str * str) :=
 match l with
 | [] => split_tr (tokens true cd raw)
 | c :: r => let '(e, x) := split_tr (tokens false cd (raw ++ c)) in
   match x with None => (e, None) | Some (cd', raw') => let '(e', y) := go cd' raw' r in (e ++ e', y) end
 end.
Definition chk (x : list str * list op * option str * option str) : bool :=
 let '(l, e, fin, cd) := x in let '(e', y) := go None [] l in
 leqb opeqb e e' && match fin, y with None, None => true | Some r, Some (cd', r') => seqb r r' && oeqb seqb cd cd' | _, _ => false end.
Definition cases := [''')
print(';\n'.join(rows))
print('].\nFixpoint bad (n : nat) (l : list _) := match l with [] => [] | x :: r => if chk x then bad (S n) r else n :: bad (S n) r end.\nEval vm_compute in bad 0 cases.\nOpen Scope nat_scope.')
open('/tmp/tok/rows.txt','w').write('\n'.join(rows))
