"""Prints rocq/theories/UnicodeRef.v from the unicodedata module of Python (3.11: Unicode 14.0.0)."""
import unicodedata as ud, sys
from fractions import Fraction
N=0x110000
def rng(pred):
    out=[];s=None
    for u in range(N+1):
        p = u<N and pred(chr(u))
        if p and s is None: s=u
        if not p and s is not None: out.append((s,u-1)); s=None
    return out
def wrap(items,w=118,ind='   '):
    lines=[];cur=''
    for it in items:
        if len(cur)+len(it)+2>w: lines.append(cur); cur=''
        cur+=it+'; '
    if cur: lines.append(cur)
    s=('\n'+ind).join(l.rstrip() for l in lines)
    return s.rstrip().rstrip(';')
out=[]
out.append('''(** Reference data of the Unicode Character Database, version 14.0.0. Not taken from /repo: printed by a
    program from the [unicodedata] module and the [str] methods of another implementation (CPython 3.11):
    [unicodedata.category], [mirrored] and [numeric], [str.islower], [isupper] and [isidentifier].
    [isidentifier] also allows a leading low line, which is taken out of [ref_xid_start]. *)
From Coq Require Import ZArith List Bool.
From Verif Require Import Unicode.
Import ListNotations.
Open Scope Z_scope.

Definition in_ranges (l : list (Z * Z)) (u : Z) : bool := existsb (fun p => (fst p <=? u) && (u <=? snd p)) l.
''')
gcs={}
items=[];cur=None
for u in range(N):
    c=ud.category(chr(u))
    if cur and cur[2]==c: cur[1]=u
    else:
        if cur: items.append(cur)
        cur=[u,u,c]
items.append(cur)
items=[i for i in items if i[2]!='Cn']
out.append('(** First and last code point and general category; the others are unassigned. *)\nDefinition ref_categories : list (Z * Z * Z) :=\n  ['+wrap(['(%s, %s, gc_%s)'%(hex(a),hex(b),c.lower()) for a,b,c in items])+'].\n')
out.append('''Definition ref_category (u : Z) : Z :=
  match find (fun p => (fst (fst p) <=? u) && (u <=? snd (fst p))) ref_categories with
  | Some p => snd p
  | None => gc_cn
  end.
''')
def sect(name,cm,pred):
    r=rng(pred)
    out.append('(** %s *)\nDefinition %s : list (Z * Z) :=\n  ['%(cm,name)+wrap(['(%s, %s)'%(hex(a),hex(b)) for a,b in r])+'].\n')
sect('ref_lowercase','Lowercase.',lambda c:c.islower())
sect('ref_uppercase','Uppercase.',lambda c:c.isupper())
sect('ref_xid_start','XID_Start.',lambda c:c.isidentifier() and c!='_')
sect('ref_xid_continue','XID_Continue.',lambda c:('a'+c).isidentifier())
sect('ref_bidi_mirrored','Bidi_Mirrored.',lambda c:ud.mirrored(c)==1)
nums=[]
for u in range(N):
    v=ud.numeric(chr(u),None)
    if v is None: continue
    f=Fraction(v).limit_denominator(1000)
    assert abs(float(f)-v)<1e-9
    nums.append((u,f.numerator,f.denominator))
out.append('(** Numeric_Value: code point, numerator and denominator in lowest terms. *)\nDefinition ref_numeric : list (Z * (Z * Z)) :=\n  ['+wrap(['(%s, (%s, %d))'%(hex(u),('%d'%n if n>=0 else '(%d)'%n),d) for u,n,d in nums])+'].\n')
out.append('''Definition ref_numeric_value (u : Z) : option (Z * Z) :=
  option_map snd (find (fun p => fst p =? u) ref_numeric).
''')
print('\n'.join(out), end='')
