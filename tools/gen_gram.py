#!/usr/bin/env python3
"""Write rocq/theories/GramFile.v from include/ctre/pcre.gram: gen_gram.py /repo > GramFile.v"""
import re,sys
src=open(sys.argv[1]+'/include/ctre/pcre.gram').read().split('\n')
sets={}; prods={}; order=[]; acts=[]; lines={}; mentioned=[]
def note(l):
    for c in l:
        if c not in mentioned: mentioned.append(c)
def split(s,sep):
    """split at unescaped separators outside of quotes"""
    out=[''];i=0;q=False
    while i<len(s):
        if s[i]=='\\': out[-1]+=s[i:i+2]; i+=2; continue
        if s[i]=='"': q=not q
        if s[i]==sep and not q: out.append('')
        else: out[-1]+=s[i]
        i+=1
    return out
def unesc(s): return s[1:] if s[0]=='\\' and len(s)==2 else s
for no,l in enumerate(src,1):
    l=l.strip()
    if not l or l.startswith('#'): continue
    m=re.match(r'^(\w+)=\{(.*)\}$',l)
    if m:
        cs=[]
        body=m.group(2)
        # a set with the single character backslash, or a list separated by commas
        for x in ([body] if body in('\\\\','{','}') else split(body,',')):
            x=unesc(x); assert len(x)==1,(no,x); cs.append(ord(x))
        sets[m.group(1)]=sorted(cs); note(cs); continue
    m=re.match(r'^(\w+)->(.*)$',l); assert m,(no,l)
    n=m.group(1)
    if n not in prods: prods[n]=[]; order.append(n); lines[n]=[]
    lines[n].append(no)
    for alt in split(m.group(2),'|'):
        alt=alt.strip(); out=[]
        for y in split(alt,','):
            y=y.strip()
            if y=='epsilon': continue
            if y.startswith('<'): assert y.endswith('>') and len(y)>2; out.append('GN G_'+y[1:-1])
            elif y.startswith('['): a=y[1:-1]; acts.append(a); out.append('GAct A_'+a)
            elif y.startswith('"'):
                for c in y[1:-1]: out.append('GT [%d]'%ord(c)); note([ord(c)])
            elif y=='other': out.append('GOther')
            elif y in sets: out.append('GT S_'+y)
            else:
                y=unesc(y); assert len(y)==1,(no,y); note([ord(y)]); out.append('GT [%d]'%ord(y))
        prods[n].append(out)
used=set(re.findall(r'G_\w+',' '.join(' '.join(a) for n in order for a in prods[n])))
assert used<=set('G_'+n for n in order),used-set('G_'+n for n in order)
print('(** GENERATED by tools/gen_gram.py from /repo/include/ctre/pcre.gram; do not edit by hand.')
print('    The grammar that the table in pcre.hpp is generated from: sets of characters (lines 1-35) and productions with')
print('    semantic actions (lines 37-187). *)')
print('From Coq Require Import List ZArith Bool.\nFrom Verif Require Import Grammar.\nImport ListNotations.\nLocal Open Scope Z_scope.\n')
print('(** Nonterminals. *)\nInductive gnt :=')
for n in order: print('| G_'+n)
print('.\n\n(** [GT l]: one character of [l]; [GOther]: a character that the grammar does not mention; [GAct]: in brackets. *)')
print('Inductive gsym := GT (l : list Z) | GOther | GAct (a : action) | GN (n : gnt).\n')
for s in sets: print('Definition S_%s : list Z := [%s].'%(s,'; '.join(map(str,sets[s]))))
print('\n(** All characters of the file. *)\nDefinition mentioned : list Z := [%s].\n'%'; '.join(map(str,sorted(mentioned))))
print('Definition prods (n : gnt) : list (list gsym) :=\n  match n with')
def rng(l): return ', '.join(map(str,l))
for n in order:
    print('  | G_%s => (* lines %s *)'%(n,rng(lines[n])))
    for i,a in enumerate(prods[n]): print('    %s [%s]%s'%('[' if i==0 else ';','; '.join(a),' ]' if i==len(prods[n])-1 else ''))
print('  end.')
print('\nDefinition gnts : list gnt := [%s].'%'; '.join('G_'+n for n in order))
