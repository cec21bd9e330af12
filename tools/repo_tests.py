#!/usr/bin/env python3
"""Prints rocq/theories/RepoData.v: the assertions of /repo/tests as rows (RepoTests.v says what they mean)."""
import re,sys
D='/repo/tests/'
ESC={'n':10,'r':13,'t':9,'v':11,'f':12,'0':0,'\\':92,'"':34,"'":39,'a':7,'?':63}
# -- C++ lexing
def lit(t,i):
    """a (possibly concatenated) string literal at t[i]: prefix, code points, raw bytes flag, suffix, next index"""
    m=re.compile(r'\s*(u8|u|U|L)?(R)?"').match(t,i)
    if not m: return None
    pre=m.group(1) or ''; i=m.end(); cps=[]
    if m.group(2):
        j=t.index('(',i); d=t[i:j]; k=t.index(')'+d+'"',j); cps=[ord(c) for c in t[j+1:k]]; i=k+len(d)+2
    else:
        while t[i]!='"':
            if t[i]=='\\':
                c=t[i+1]
                if c=='x':
                    m2=re.compile(r'[0-9a-fA-F]+').match(t,i+2); cps.append(int(m2.group(),16)); i=m2.end()
                elif c=='u': cps.append(int(t[i+2:i+6],16)); i+=6
                elif c=='U': cps.append(int(t[i+2:i+10],16)); i+=10
                else: cps.append(ESC[c]); i+=2
            else: cps.append(ord(t[i])); i+=1
        i+=1
    m=re.compile(r'sv').match(t,i); suf=''
    if m: suf='sv'; i=m.end()
    nxt=lit(t,i)
    if nxt: return (pre,cps+nxt[1],nxt[2],nxt[3])
    return (pre,cps,suf,i)
def units(pre,cps):
    if pre in('','u8'):
        s=b''.join(chr(c).encode() for c in cps); return list(s)
    if pre=='u':
        o=[]
        for c in cps:
            if c<0x10000:o.append(c)
            else: c-=0x10000; o+= [0xD800+(c>>10),0xDC00+(c&0x3ff)]
        return o
    return cps
def coq(l):
    if l and all(32<=c<127 for c in l): return '(codes "%s")'%''.join('""' if c==34 else chr(c) for c in l)
    return '[%s]'%'; '.join(str(c) for c in l)
FROM={'':'Bytes','u8':'Utf8','u':'Utf16','U':'Utf32','L':'Utf32'}
def pattern(p): return '%s %s'%(FROM[p[0]],coq(units(p[0],p[1])))
def subject(p):
    pre,cps,suf,_=p
    u=units(pre,cps)
    if pre=='u8': return 'U8 %s'%coq(u)
    if pre in('','L') and not suf: return 'Pointer %s'%coq(u)
    return 'View %s'%coq(u)
# -- template AST
CL={'word_chars','space_chars','vertical_space_chars','horizontal_space_chars','alphanum_chars','alpha_chars','xdigit_chars','punct_chars','digit_chars','ascii_chars'}
def term(t,i):
    while t[i] in ' \t': i+=1
    m=re.compile(r"U?'((?:\\x[0-9a-fA-F]+|\\.|[^'\\])+)'").match(t,i)
    if m:
        b=m.group(1)
        v=int(b[2:],16) if b.startswith('\\x') else ESC[b[1]] if b[0]=='\\' else ord(b)
        return ('num',v),m.end()
    m=re.compile(r'(?:char32_t|char)\{(0x[0-9A-Fa-f]+|\d+)\}').match(t,i)
    if m: return ('num',int(m.group(1),0)),m.end()
    m=re.compile(r'\d+').match(t,i)
    if m: return ('num',int(m.group())),m.end()
    m=re.compile(r'ctre::(\w+)').match(t,i)
    assert m,t[i:i+40]
    nm=m.group(1); i=m.end(); args=[]
    while t[i] in ' ': i+=1
    if t[i]=='<':
        i+=1
        while True:
            while t[i] in ' ,': i+=1
            if t[i]=='>': i+=1; break
            a,i=term(t,i); args.append(a)
    return (nm,args),i
def cls(x):
    n,a=x
    if n in CL: return n
    if n=='character': return '(CChar %d)'%a[0][1]
    if n=='char_range': return '(CRange %d %d)'%(a[0][1],a[1][1])
    if n=='set': return '(CSet [%s])'%'; '.join(map(cls,a))
    if n=='negative_set': return '(CNeg [%s])'%'; '.join(map(cls,a))
    if n=='negate': return '(CNegate [%s])'%'; '.join(map(cls,a))
    raise KeyError(n)
def nums(a): return '[%s]'%'; '.join(str(x[1]) for x in a)
REP={'repeat':'Greedy','lazy_repeat':'Lazy','possessive_repeat':'Possessive'}
B={'plus':(1,0),'star':(0,0),'optional':(0,1)}
ASS={'assert_subject_begin':'ASubjectBegin','assert_subject_end':'ASubjectEnd','assert_subject_end_line':'ASubjectEndLine','assert_line_begin':'ALineBegin','assert_line_end':'ALineEnd'}
def ast(x):
    n,a=x
    L=lambda a:'[%s]'%'; '.join(map(ast,a))
    if n=='any': return 'RAny'
    if n=='empty': return 'REmpty'
    if n=='reject': return 'RReject'
    if n=='string': return '(RStr %s)'%nums(a)
    if n=='select': return '(RSelect %s)'%L(a)
    if n=='sequence': return '(RSeq %s)'%L(a)
    if n in REP: return '(RRep %s %d %d %s)'%(REP[n],a[0][1],a[1][1],L(a[2:]))
    k='Lazy' if n.startswith('lazy_') else 'Possessive' if n.startswith('possessive_') else 'Greedy'
    b=n.split('_')[-1]
    if b in B: return '(RRep %s %d %d %s)'%(k,*B[b],L(a))
    if n=='capture': return '(RCap %d %s)'%(a[0][1],L(a[1:]))
    if n=='capture_with_name': return '(RNCap %d %s %s)'%(a[0][1],nums(a[1][1]),L(a[2:]))
    if n=='back_reference': return '(RBack %d)'%a[0][1]
    if n=='back_reference_with_name': return '(RNBack %s)'%nums(a[0][1])
    if n in ASS: return '(RAssert %s)'%ASS[n]
    if n.startswith('lookahead_'): return '(RAhead %s %s)'%('true' if 'neg' in n else 'false',L(a))
    if n.startswith('lookbehind_'): return '(RBehind %s %s)'%('true' if 'neg' in n else 'false',L(a))
    if n=='atomic_group': return '(RAtomic %s)'%L(a)
    if n=='boundary': return '(RBound %s)'%cls(a[0])
    if n=='word_boundary': return '(RBound word_chars)'
    if n=='not_word_boundary': return '(RNotBound word_chars)'
    return '(RCls %s)'%cls(x)
# -- assertions
METH={'match':'MMatch','search':'MSearch','starts_with':'MStarts'}
out=[];skipped=[]
def table(name,rows): out.append((name,rows))
def lines(f):
    for k,l in enumerate(open(D+f,encoding='utf-8'),1):
        s=l.strip()
        if s.startswith('//') or s.startswith('#define'): continue
        yield k,s
def after_call(rest):
    """what the test asks of the result"""
    rest=rest.strip()
    m=re.match(r'\.template get<(\d+)>\(\) == ',rest)
    if m:
        p=lit(rest,m.end()); return 'GroupIs %s %s'%(m.group(1),coq(units(p[0],p[1]))),rest[p[3]:]
    m=re.match(r'\.size\(\) == (\d+)',rest)
    if m: return 'SizeIs %s'%m.group(1),rest[m.end():]
    m=re.match(r'\} == ',rest)
    if m:
        p=lit(rest,m.end()); return 'GroupIs 0 %s'%coq(units(p[0],p[1])),rest[p[3]:]
    return None,rest
def create(s,i):
    """CTRE_CREATE("...") at s[i], possibly two combined"""
    if s[i]=='(':
        a,i=create(s,i+1); op=re.compile(r'\s*(>>|\|)\s*').match(s,i); b,i=create(s,op.end()); assert s[i]==')'
        return ('%s (%s) (%s)'%('Then' if op.group(1)=='>>' else 'Or',a,b)),i+1
    m=re.compile(r'CTRE_CREATE\(').match(s,i); assert m,s
    p=lit(s,m.end()); assert s[p[3]]==')'
    return 'Text (%s)'%pattern(p),p[3]+1
def create_line(k,s):
    m=re.match(r'static_assert\(\s*(!?)(?:std::string_view\{)?',s)
    pat,i=create(s,m.end())
    m2=re.compile(r'\.(match|search|starts_with)\(').match(s,i)
    p=lit(s,m2.end()); assert s[p[3]]==')'
    chk,rest=after_call(s[p[3]+1:])
    assert rest.startswith(');'),(k,s,rest)
    if chk is None: chk='Matches %s'%('false' if m.group(1) else 'true')
    else: assert not m.group(1)
    return 'Run %d %s false (%s) (%s) (%s)'%(k,METH[m2.group(1)],pat,subject(p),chk)
def syntax_line(k,s,kind,macro):
    m=re.match(r'static_assert\((!|not )?'+macro+r'\(',s)
    p=lit(s,m.end()); assert s[p[3]:].startswith('));'),s
    return '%s %d (%s) %s'%(kind,k,pattern(p),'false' if m.group(1) else 'true')
def asts(f):
    rows=[]
    for k,s in lines(f):
        if not s.startswith('static_assert'): continue
        m=re.match(r'static_assert\((!?)(multiline_)?(match|search|starts_with)\(',s)
        p=lit(s,m.end()); i=p[3]; assert s[i]==','
        t,i=term(s,i+1); m2=re.compile(r'\(\)\s*\)').match(s,i); assert m2,s
        chk,rest=after_call(s[m2.end():]); assert rest.startswith(')'),s
        if chk is None: chk='Matches %s'%('false' if m.group(1) else 'true')
        rows.append('Run %d %s %s (Tree %s) (%s) (%s)'%(k,METH[m.group(3)],'true' if m.group(2) else 'false',ast(t),subject(p),chk))
    return rows
def texts(f):
    rows=[]
    for k,s in lines(f):
        if not s.startswith('static_assert'): continue
        if 'CTRE_SYNTAX' in s: rows.append(syntax_line(k,s,'Syntax','CTRE_SYNTAX'))
        elif 'CTRE_CREATE' in s: rows.append(create_line(k,s))
        elif 'static_assert(tmp()' in s: pass
        else: skipped.append((f,k,s))
    return rows
def tests(f,macro='CTRE_TEST',kind='Parses'):
    rows=[]
    for k,s in lines(f):
        if s.startswith('static_assert(') and macro in s: rows.append(syntax_line(k,s,kind,macro))
    return rows
def test3(f):
    rows=[]
    for k,s in lines(f):
        m=re.match(r'TEST_(NOT_)?(MATCH|SEARCH)\(\w+,\s*',s)
        if not m: continue
        p=lit(s,m.end()); q=lit(s,s.index(',',p[3])+1); assert s[q[3]:].startswith(');')
        rows.append('Run %d %s false (Text (%s)) (%s) (Matches %s)'%(k,METH[m.group(2).lower()],pattern(p),subject(q),'false' if m.group(1) else 'true'))
    return rows
def ci(f):
    rows=[]
    for k,s in lines(f):
        m=re.match(r'TEST_(CI_)?MATCH\(',s)
        if not m: continue
        p=lit(s,m.end()); q=lit(s,s.index(',',p[3])+1); r=re.match(r',\s*(true|false)\);',s[q[3]:])
        rows.append('RunCase %d %s (Text (%s)) (%s) (Matches %s)'%(k,'true' if m.group(1) else 'false',pattern(p),subject(q),r.group(1)))
    return rows
def gens(f):
    rows=[]
    for k,s in lines(f):
        if not s.startswith('static_assert('): continue
        m=re.match(r'static_assert\(same_f\(CTRE_GEN\(',s)
        if m:
            p=lit(s,m.end()); assert s[p[3]:p[3]+2]=='),',s
            t,i=term(s,p[3]+2); assert s[i:].startswith('()));'),s[i:]
            rows.append('Builds %d (%s) %s'%(k,pattern(p),ast(t))); continue
        m=re.match(r'static_assert\(ctll::size\(CTRE_GEN\(',s)
        if m:
            p=lit(s,m.end()); r=re.match(r'\)\) == (\d+)\);',s[p[3]:]); rows.append('Stack %d (%s) %s'%(k,pattern(p),r.group(1))); continue
        m=re.match(r'static_assert\(same\(CTRE_GEN\(',s)
        if m:
            p=lit(s,m.end()); m2=re.compile(r'\), CTRE_GEN\(').match(s,p[3]); q=lit(s,m2.end()); rows.append('Same %d (%s) (%s)'%(k,pattern(p),pattern(q))); continue
        if 'static_assert(tmp()' not in s: skipped.append((f,k,s))
    return rows
def fixed(f):
    rows=[];vars={}; utf8=False
    for k,s in lines(f):
        if s.startswith('#ifdef CTRE_STRING_IS_UTF8'): utf8=True
        if s.startswith(('#else','#endif')): utf8=False
        m=re.match(r'(?:static )?constexpr auto (\w+) = ctll::fixed_string\{\s*',s)
        if m: vars[m.group(1)]=lit(s,m.end()); continue
        if not s.startswith('static_assert('): continue
        m=re.match(r'static_assert\((\w+)\.size\(\) == (\d+)u?\);',s)
        if m: rows.append('Size %d (%s) %s'%(k,pattern(vars[m.group(1)]),m.group(2))); continue
        m=re.match(r'static_assert\((\w+)\.correct\(\)\);',s)
        if m: rows.append('Correct %d (%s)'%(k,pattern(vars[m.group(1)]))); continue
        m=re.match(r'static_assert\(ctll::fixed_string\(',s)
        p=lit(s,m.end()); rest=s[p[3]+1:]
        if utf8: p=('u8',)+p[1:]
        m=re.match(r'\.size\(\) == (\d+)\);',rest)
        if m: rows.append('Size %d (%s) %s'%(k,pattern(p),m.group(1))); continue
        m=re.match(r"\[0\] == [UL]'(.)'\);",rest)
        if m: rows.append('First %d (%s) %d'%(k,pattern(p),ord(m.group(1)))); continue
        m=re.match(r"\.is_same_as\(ctll::fixed_string\(",rest)
        q=lit(rest,m.end()); rows.append('SameText %d (%s) (%s)'%(k,pattern(p),pattern(q)))
    return rows
table('matching',asts('matching.cpp'))
table('z_matching',asts('z_matching.cpp'))
def bad():
    # the message of this static_assert is dropped
    k,s=[(k,s) for k,s in lines('_bad_cycle.cpp') if s.startswith('static_assert')][0]
    p=lit(s,s.index('match(')+6); t,_=term(s,p[3]+1)
    return ['Run %d MMatch false (Tree %s) (%s) (Matches true)'%(k,ast(t),subject(p))]
table('bad_cycle',bad())
table('matching2',texts('matching2.cpp'))
table('matching2_msvc',texts('matching2-msvc-greedy.cpp'))
table('matching3',test3('matching3.cpp'))
table('case_insensitive',ci('ci.cpp'))
table('generating',gens('generating.cpp'))
table('parsing',tests('parsing.cpp'))
table('mode',tests('mode.cpp',kind='Syntax'))
table('fixed_string',[r for r in fixed('_fixed-string.cpp')])
table('string_literals',fixed('string.cpp'))
def primes():
    rows=[]
    for k,s in lines('is_prime.cpp'):
        m=re.match(r'static_assert\(\s*(!?)\s*is_prime\(',s)
        if m: p=lit(s,m.end()); rows.append('Run %d MMatch false (Text (Bytes (codes ".?|(..+?)\\g{1}+"))) (View %s) (Matches %s)'%(k,coq(units(p[0],p[1])),'true' if m.group(1) else 'false'))
    return rows
table('is_prime',primes())
def msvc(): return ['Run 13 MMatch false (Text (Bytes (codes "^[\\x30-\\x39]+?$"))) (View (codes "123456789")) (Matches true)','Run 14 MMatch false (Text (Bytes [])) (View []) (Matches true)','Syntax 25 (Bytes []) true','Syntax 38 (Bytes (codes "hello")) true','Run 40 MMatch false (Text (Bytes (codes "hello"))) (View (codes "hello")) (Matches true)','Run 42 MMatch false (Text (Bytes (codes "hello"))) (View (codes "hello")) (Matches true)']
table('msvc',msvc())
def uni():
    rows=[]
    vars={}
    for k,s in lines('_unicode.cpp'):
        m=re.match(r'constexpr auto (m\d) = (CTRE_CREATE.*);$',s)
        if m: vars[m.group(1)]=m.group(2); continue
        if not s.startswith('static_assert'): continue
        m=re.match(r'static_assert\((m\d)\.to_view\(\)\.length\(\) == (\d+)\);',s)
        if m: rows.append(create_line(k,'static_assert(%s.size() == %s);'%(vars[m.group(1)],m.group(2)))); continue
        if 'CTRE_SYNTAX' in s: rows.append(syntax_line(k,s,'Syntax','CTRE_SYNTAX'))
        elif 'CTRE_CREATE' in s: rows.append(create_line(k,s))
        elif 'static_assert(tmp()' in s: pass
        else: skipped.append(('_unicode',k,s))
    return rows
U=uni()
def utf8():
    rows=[]
    for k,s in lines('__utf8.cpp'):
        m=re.match(r'UNICODE_TEST\(',s)
        if m: p=lit(s,m.end()); rows.append('Decodes %d %s %s'%(k,coq(units('u8',p[1])),coq(units('U',p[1]))))
    return rows
table('utf8',utf8())
many=set(); n=0
for k,s in lines('many-of-same-proto.cpp'):
    m=re.match(r'CTRE_TEST\(',s)
    if m: p=lit(s,m.end()); many.add(pattern(p)); n+=1
assert len(many)==1
table('many_of_same_proto',['Parses 19 (%s) true'%many.pop()])
FILES={'z_matching':'z_matching.cpp','bad_cycle':'_bad_cycle.cpp','matching2_msvc':'matching2-msvc-greedy.cpp','case_insensitive':'ci.cpp','fixed_string':'_fixed-string.cpp','string_literals':'string.cpp','utf8':'__utf8.cpp','many_of_same_proto':'many-of-same-proto.cpp'}
print('''(** The assertions of /repo/tests as data, printed from the text of the tests by tools/repo_tests.py; every row begins with the line.
    RepoTests.v says what a row means and checks it. *)
From Coq Require Import List ZArith NArith String.
From Verif Require Import Chars Syntax Parser Views RepoTests.
Import ListNotations.
Local Open Scope string_scope.
Local Open Scope Z_scope.
''')
tot=0
for name,rows in out+[('unicode',U)]:
    print('(** tests/%s *)'%(FILES.get(name) or ('_unicode.cpp' if name=='unicode' else name+'.cpp')))
    print('Definition t_%s : list test := [\n  %s].'%(name,';\n  '.join(rows))); tot+=len(rows)
sys.stderr.write('%d rows; skipped %s\n'%(tot,skipped))
for name,rows in out+[('unicode',U)]: sys.stderr.write('%s %d\n'%(name,len(rows)))
