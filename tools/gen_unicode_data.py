"""Prints rocq/theories/UnicodeData.v from the text of /repo/include/unicode-db/unicode-db.hpp."""
import re,sys,json
src=open('/repo/include/unicode-db/unicode-db.hpp').read()
lines=src.split('\n')
def lineno(pos): return src.count('\n',0,pos)+1
T={}
# find table definitions
for m in re.finditer(r'static constexpr (?:const )?(bool_trie<([^>]*)>|flat_array<(\d+)>|range_array|compact_range|compact_list|uni::detail::pair<[^>]*>)\s+(\w+)(\[\])?\s*(=\s*)?\{',src):
    kind=m.group(1).split('<')[0]; name=m.group(4)
    # brace matching
    i=m.end(); d=1
    while d:
        if src[i]=='{': d+=1
        if src[i]=='}': d-=1
        i+=1
    body=src[m.end():i-1]
    params=[int(x) for x in m.group(2).split(',')] if m.group(2) else (int(m.group(3)) if m.group(3) else None)
    l0,l1=lineno(m.start()),lineno(i)
    if name=='scripts_data':
        n=re.findall(r'struct script_data<(\d+)>',src[:m.start()])[-1]; name='scripts_data_'+n
    T[name]=dict(kind=kind,params=params,body=body,l0=l0,l1=l1)
def nums(s): return [int(x,0) for x in re.findall(r'-?0x[0-9a-fA-F]+|-?\d+',s)]
def groups(s):
    # top-level {...} groups
    out=[];d=0;st=None
    for i,ch in enumerate(s):
        if ch=='{':
            if d==0: st=i+1
            d+=1
        elif ch=='}':
            d-=1
            if d==0: out.append(s[st:i])
    return out
for n,t in T.items():
    if t['kind']=='bool_trie':
        t['g']=[nums(x) for x in groups(t['body'])]
        if len(t['g'])==0: t['raw']=t['body']
    elif t['kind']=='uni::detail::pair':
        t['v']=nums(re.sub(r'uni::detail::pair<[^>]*>','',t['body']))
    else:
        t['v']=nums(t['body'])
import textwrap
def fmt(l,hexw=0):
    if not l: return '[]'
    s='; '.join((('0x%0*x'%(hexw,x)) if hexw else str(x)) if x>=0 else '(%d)'%x for x in l)
    return '['+'\n   '.join(textwrap.wrap(s,108))+']'
out=[]
w=out.append
w('''(** Data of include/unicode-db/unicode-db.hpp, copied from the file by a script: every table of the
    header, in the order of the file, with the lines it stands on. Code points and flags of the packed
    tables are kept packed as in the header ([code point << 8 | value]). *)
From Coq Require Import ZArith List String.
Import ListNotations.
Open Scope Z_scope.

(** unicode-db.hpp lines 219-235: [bool_trie] with its template parameters. [t_rNs] are the sizes
    [r1_s .. r6_s], [t_rNf] the offsets [r2_t_f], [r4_t_f], [r5_t_f]; [r2_t_b], [r4_t_b] and [r5_t_b]
    are not read by any function. *)
Record bool_trie := mkTrie {
  t_r1s : Z; t_r2s : Z; t_r2f : Z; t_r3s : Z; t_r4s : Z; t_r4f : Z; t_r5s : Z; t_r5f : Z; t_r6s : Z;
  t_r1 : list Z; t_r2 : list Z; t_r3 : list Z; t_r4 : list Z; t_r5 : list Z; t_r6 : list Z
}.
''')
names={'bool_trie':[], 'flat_array':[], 'range_array':[], 'compact_range':[], 'compact_list':[]}
for n,t in T.items():
    k=t['kind']
    cite='(** unicode-db.hpp lines %d-%d. *)'%(t['l0'],t['l1'])
    if k=='bool_trie':
        p=t['params']; r1s,r2s,r2f,_,r3s,r4s,r4f,_,r5s,r5f,_,r6s=p
        g=t['g']; assert len(g)==6
        w(cite)
        w('Definition %s : bool_trie := mkTrie %d %d %d %d %d %d %d %d %d'%(n,r1s,r2s,r2f,r3s,r4s,r4f,r5s,r5f,r6s))
        for i,x in enumerate(g): w('  '+fmt(x,0 if i in(1,3,4) else 16)+('.' if i==5 else ''))
    elif k=='uni::detail::pair':
        v=t['v']; s='; '.join('(0x%x, %s)'%(a,b if b>=0 else '(%d)'%b) for a,b in zip(v[::2],v[1::2]))
        w(cite); w('Definition %s : list (Z * Z) :=\n  [%s].'%(n,'\n   '.join(textwrap.wrap(s,108))))
    else:
        w(cite); w('Definition %s : list Z :=\n  %s.'%(n,fmt(t['v'],4 if k=='flat_array' else 8)))
    if k in names: names[k].append(n)
w('')
w('(** unicode-db.hpp lines 4033-4456: [script_data<N>], by [N]. *)')
w('Definition script_data : list (list Z) :=\n  ['+'; '.join('scripts_data_%d'%i for i in range(22))+'].')
# names
def nametable(nm,coq):
    m=re.search(r'static constexpr string_with_idx %s\[\] = \{'%nm,src)
    i=src.index('};',m.end())
    ents=re.findall(r'string_with_idx\{"([^"]*)",\s*(\d+)\}',src[m.end():i+2])
    assert src[m.end():i+2].count('string_with_idx')==len(ents)
    s='; '.join('("%s", %s)'%(a,b) for a,b in ents)
    w('(** unicode-db.hpp lines %d-%d. *)'%(lineno(m.start()),lineno(i)))
    w('Definition %s : list (string * Z) :=\n  [%s].'%(coq,'\n   '.join(textwrap.wrap(s,108))))
    return ents
w('Open Scope string_scope.\nOpen Scope Z_scope.')
m=re.search(r'age_strings\[\] = \{(.*?)\};',src,re.S)
ages=re.findall(r'"([^"]*)"',m.group(1))
w('(** unicode-db.hpp lines %d-%d. *)'%(lineno(m.start()),lineno(m.end())))
w('Definition age_strings : list string :=\n  [%s].'%'; '.join('"%s"'%a for a in ages))
for nm in ['categories_names','blocks_names','scripts_names','binary_prop_names']: nametable(nm,nm)
def enum(nm):
    m=re.search(r'enum class %s(?: : \w+)? \{(.*?)\};'%nm,src[src.index('enum class version : uint8_t'):],re.S)
    vals={};cur=-1;order=[]
    for e in re.sub(r'//.*','',m.group(1)).split(','):
        e=e.strip()
        if not e: continue
        if '=' in e:
            k,v=[x.strip() for x in e.split('=')]; vals[k]=vals[v]
        else: cur+=1; vals[e]=cur; order.append(e)
    return vals,order
if __name__=='__main__':
    print('\n'.join(out)+'\n', end='')
