#!/usr/bin/env python3
"""Generate rocq/theories/Grammar.v from /repo/include/ctre/pcre.hpp (read as text).

Every rule of the table becomes one list entry, in source order, with its line number.
Usage: gen_grammar.py /repo/include/ctre/pcre.hpp > rocq/theories/Grammar.v
"""
import re, sys

src = open(sys.argv[1]).read().split("\n")

def unescape(tok):
    assert tok[0] == "'" and tok[-1] == "'", tok
    b = tok[1:-1]
    if b.startswith("\\x"):
        return int(b[2:], 16)
    if b.startswith("\\"):
        return {"\\": 92, '"': 34, "'": 39}[b[1:]]
    assert len(b) == 1, tok
    return ord(b)

def chars(body):
    toks = re.findall(r"'(?:\\x[0-9A-Fa-f]+|\\.|[^\\])'", body)
    assert ",".join(toks) == body.replace(" ", ""), (body, toks)
    return [unescape(t) for t in toks]

def split_top(s):
    out, depth, cur, i = [], 0, "", 0
    while i < len(s):
        c = s[i]
        if c == "'":
            m = re.match(r"'(?:\\x[0-9A-Fa-f]+|\\.|[^\\])'", s[i:])
            cur += m.group(0); i += len(m.group(0)); continue
        if c == "<": depth += 1
        if c == ">": depth -= 1
        if c == "," and depth == 0:
            out.append(cur.strip()); cur = ""
        else:
            cur += c
        i += 1
    if cur.strip(): out.append(cur.strip())
    return out

nts, acts, rules = [], [], []
others = None
sets = {}       # tuple -> name
def set_name(cs):
    t = tuple(cs)
    if t not in sets: sets[t] = "set%d" % len(sets)
    return sets[t]

def matcher(m):
    if m == "_others": return ("MOthers", None)
    if m == "ctll::epsilon": return ("MEps", None)
    k = re.fullmatch(r"ctll::term<(.*)>", m)
    if k: return ("MTerm %d" % unescape(k.group(1)), [unescape(k.group(1))])
    k = re.fullmatch(r"ctll::set<(.*)>", m)
    if k:
        cs = chars(k.group(1)); return ("MSet " + set_name(cs), cs)
    raise Exception(m)

def symbol(s):
    if s == "ctll::anything": return "TAny"
    k = re.fullmatch(r"ctll::term<(.*)>", s)
    if k: return "TTerm %d" % unescape(k.group(1))
    k = re.fullmatch(r"ctll::set<(.*)>", s)
    if k: return "TSet " + set_name(chars(k.group(1)))
    if s in nts: return "NT N_" + s
    if s in acts: return "Act A_" + s
    raise Exception(s)

for ln, line in enumerate(src, 1):
    line = line.strip()
    m = re.match(r"struct (\w+) \{\};", line)
    if m: nts.append(m.group(1)); continue
    m = re.match(r"struct (\w+): ctll::action \{\};", line)
    if m: acts.append(m.group(1)); continue
    m = re.match(r"using _others = ctll::neg_set<(.*)>;", line)
    if m: others = (chars(m.group(1)), ln); continue
    if not line.startswith("static constexpr auto rule("): continue
    m = re.match(r"static constexpr auto rule\((\w+), (.*)\) -> (.*);$", line)
    nt, mt, rhs = m.groups()
    mm, cs = matcher(mt)
    if rhs == "ctll::reject": r = "Rej"
    elif rhs == "ctll::epsilon": r = "Push []"
    else:
        k = re.fullmatch(r"ctll::push<(.*)>", rhs)
        r = "Push [" + "; ".join(symbol(x) for x in split_top(k.group(1))) + "]"
    rules.append((nt, mm, cs, r, ln))

# LL(1) consistency: a character matches at most one term, and at most one of the sets / _others
for nt in nts:
    for c in list(range(0, 256)):
        terms = [r for r in rules if r[0] == nt and r[1].startswith("MTerm") and c in r[2]]
        ss = [r for r in rules if r[0] == nt and r[1].startswith("MSet") and c in r[2]]
        oo = [r for r in rules if r[0] == nt and r[1] == "MOthers" and c not in others[0]]
        assert len(terms) <= 1 and len(ss) + len(oo) <= 1, (nt, c)
    assert len([r for r in rules if r[0] == nt and r[1] == "MEps"]) <= 1

p = print
p("(** GENERATED by tools/gen_grammar.py from /repo/include/ctre/pcre.hpp; do not edit by hand.")
p("    The LL(1) table of the pattern language: nonterminals (lines 13-53), semantic actions")
p("    (lines 56-141), the set [_others] (line %d) and the rules (lines %d-%d). *)" % (others[1], rules[0][4], rules[-1][4]))
p("From Coq Require Import List ZArith Bool.")
p("Import ListNotations.")
p("Local Open Scope Z_scope.")
p("")
p("(** pcre.hpp lines 13-53. *)")
p("Inductive nt :=")
for n in nts: p("| N_" + n)
p(".")
p("")
p("(** pcre.hpp lines 56-141. *)")
p("Inductive action :=")
for n in acts: p("| A_" + n)
p(".")
p("")
p("(** ctll/grammars.hpp: symbols that may be on the parser stack. *)")
p("Inductive sym :=")
p("| NT (n : nt)")
p("| Act (a : action)")
p("| TTerm (c : Z)          (* ctll::term<c> *)")
p("| TAny                   (* ctll::anything *)")
p("| TSet (l : list Z).     (* ctll::set<...> *)")
p("")
p("(** Second argument of [rule]: exact term, set, [_others] or end of input. *)")
p("Inductive tmatch := MTerm (c : Z) | MSet (l : list Z) | MOthers | MEps.")
p("")
p("(** Result of [rule]: push a string of symbols (ctll::epsilon is the empty one) or reject. *)")
p("Inductive rhs := Push (l : list sym) | Rej.")
p("")
p("(** pcre.hpp line %d: characters excluded by [_others]. *)" % others[1])
p("Definition not_others : list Z := [%s]." % "; ".join(map(str, others[0])))
p("")
for t, n in sets.items():
    p("Definition %s : list Z := [%s]." % (n, "; ".join(map(str, t))))
p("")
p("(** pcre.hpp lines %d-%d: the rules of each nonterminal, in source order. *)" % (rules[0][4], rules[-1][4]))
p("Definition rules (n : nt) : list (tmatch * rhs) :=")
p("  match n with")
for nt in nts:
    rs = [r for r in rules if r[0] == nt]
    p("  | N_%s => (* lines %d-%d *)" % (nt, rs[0][4], rs[-1][4]))
    p("    [ " + "\n    ; ".join("(%s, %s)" % (r[1], r[3]) for r in rs) + " ]")
p("  end.")
p("")
p("Definition all_nt : list nt := [%s]." % "; ".join("N_" + n for n in nts))
