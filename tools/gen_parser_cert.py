#!/usr/bin/env python3
"""Generates ParserSubset.v (the subset of the grammar on which the tables have no conflict) and ParserCert.v (certificates for the
checks in ParserValid.v and ParserComplete.v) from ParserGrammar.v and ParserTable.v."""
import re, collections, os, sys
TH = os.path.join(os.path.dirname(os.path.abspath(__file__)), '..', 'rocq', 'theories') + '/'
tab = open(TH + 'ParserTable.v').read(); gra = open(TH + 'ParserGrammar.v').read()
def lst(n):
    m = re.search(r'Definition %s : list Z := \[(.*?)\]\.' % n, tab, re.S); return [int(x) for x in m.group(1).replace('\n', ' ').split(';')]
P, DEF, PG, DG, TB, CK, STOS, R1, R2 = [lst(n) for n in ['yypact', 'yydefact', 'yypgoto', 'yydefgoto', 'yytable', 'yycheck', 'yystos', 'yyr1', 'yyr2']]
names = re.findall(r'"([^"]*)"', re.search(r'symbol_names : list string := \[(.*?)\]\.', gra, re.S).group(1))
num = {n: i for i, n in enumerate(names)}
gl = re.findall(r'\("([^"]*)", \[(.*?)\]\)[; ]', gra[gra.index('Definition grammar'):])
NT = 153; NS = len(P); PNINF = -663; TNINF = -502; LAST = 5042
RULES = {i + 1: (num[l], [num[x] for x in re.findall(r'"([^"]*)"', r)]) for i, (l, r) in enumerate(gl)}
assert len(RULES) == 578 and all(R1[k] == l and R2[k] == len(r) for k, (l, r) in RULES.items())
def action(s, a):
    n = P[s]
    if n != PNINF:
        n += a
        if 0 <= n <= LAST and CK[n] == a:
            v = TB[n]
            if v > 0: return ('s', v)
            return ('e',) if v == TNINF else ('r', -v)
    return ('e',) if DEF[s] == 0 else ('r', DEF[s])
def goto(s, x):
    n = PG[x - NT] + s
    return TB[n] if 0 <= n <= LAST and CK[n] == s else DG[x - NT]

# ---- the subset
dropped = {
 'objects in the syntax of their class, and objects as governed parameters': [48, 71, 72, 73, 74, 75, 76, 77, 78, 79, 80, 81, 82, 123, 124, 126],
 'values that are meant for objects (keywords, fields, lists with commas or bars, values with a type)': [256, 262, 263, 266, 267, 269, 271, 276, 277, 278, 279, 280],
 'parameters: lists of several, and those that are values or classes': [203, 205, 206],
 'types as constraints without INCLUDES, value sets': [211, 445, 471],
 'references to classes as such': [7, 501],
 'object identifiers with references to values': [362, 370],
 'patterns, and exceptions with a type': [490, 496],
}
drop = {k for v in dropped.values() for k in v}
extra = [("Type'", 'Type'), ("BuiltinType'", 'BuiltinType'), ("SingleValue'", 'SingleValue'), ("DefinedValue'", 'DefinedValue'),
         ("Reference'", 'Reference'), ("valuereference'", 'valuereference'), ("Type''", 'Type'), ("DefinedType''", 'DefinedType'), ("ConstrainedType''", 'ConstrainedType')]
changed = [(204, ["Type'"]), (440, ["SingleValue'"]), (466, ["SingleValue'"]), (468, ["SingleValue'"]), (495, ["DefinedValue'"]), (107, ["Reference'"]), (110, ["Type''"])]
added = []
for k, (l, r) in RULES.items():
    n = names[l]; rn = [names[x] for x in r]
    if n == 'Type': added.append((k, "Type'", ["BuiltinType'" if x == 'BuiltinType' else x for x in rn]))
for k, (l, r) in RULES.items():
    n = names[l]; rn = [names[x] for x in r]
    if n == 'BuiltinType' and rn != ['NullType']: added.append((k, "BuiltinType'", rn))
for k, (l, r) in RULES.items():
    n = names[l]; rn = [names[x] for x in r]
    if n == 'SingleValue' and rn != ['ASN_NULL']: added.append((k, "SingleValue'", ["DefinedValue'" if x == 'DefinedValue' else x for x in rn]))
added += [(198, "DefinedValue'", ["valuereference'"]), (199, "DefinedValue'", ["ParameterizedValue"]), (499, "valuereference'", ["GENERIC_IDENTIFIER_LOWERCASE"])]
added += [(184, "Reference'", ["typereference"]), (185, "Reference'", ["typereference", "OPEN_BRACE", "CLOSE_BRACE"]), (186, "Reference'", ["valuereference'"])]
added += [(212, "Type''", ["BuiltinType"]), (213, "Type''", ["ConstrainedType''"]), (214, "Type''", ["DefinedType''"]), (215, "Type''", ["SelectionType"]), (216, "Type''", ["TypeFromObject"]),
          (195, "DefinedType''", ["ExternalTypeReference"]), (196, "DefinedType''", ["typereference"]), (405, "ConstrainedType''", ["Type''", "Constraint"]), (406, "ConstrainedType''", ["TypeWithConstraint"])]
snum = dict(num); sname = list(names)
for i, (n, b) in enumerate(extra): snum[n] = 400 + i
nm = {v: k for k, v in snum.items()}
proj = {i: i for i in range(len(names))}
for n, b in extra: proj[snum[n]] = num[b]
ch = dict(changed)
SUB = {}  # j -> (k, lhs, rhs)
for k, (l, r) in RULES.items():
    if k in drop: continue
    SUB[k] = (k, l, [snum[x] for x in ch[k]] if k in ch else r)
for i, (k, l, r) in enumerate(added): SUB[600 + i] = (k, snum[l], [snum[x] for x in r])
for j, (k, l, r) in SUB.items(): assert RULES[k] == (proj[l], [proj[x] for x in r]), (j, k, l, r)
BY = collections.defaultdict(list)
for j, (k, l, r) in SUB.items(): BY[l].append(j)
def rs(j, d=None):
    k, l, r = SUB[j]; n = [nm[x] for x in r]
    if d is not None: n.insert(d, '.')
    return nm[l] + ' -> ' + ' '.join(n)
nullable = set(); c = True
while c:
    c = False
    for j, (k, l, r) in SUB.items():
        if l not in nullable and all(x in nullable for x in r): nullable.add(l); c = True
first = collections.defaultdict(set)
for a in range(NT): first[a].add(a)
c = True
while c:
    c = False
    for j, (k, l, r) in SUB.items():
        for x in r:
            if not first[x] <= first[l]: first[l] |= first[x]; c = True
            if x not in nullable: break
def firsts(beta, la):
    out = set()
    for x in beta:
        out |= first[x]
        if x not in nullable: return out
    return out | la
def closure(rules, by, frs, isnt, pr, base, forbid, start):
    items = [collections.defaultdict(set) for _ in range(NS)]; trans = [{} for _ in range(NS)]
    items[0][(start, 0)] |= {0}; work = collections.deque([(0, (start, 0))]); inq = set(work)
    def add(s, it, la):
        new = it not in items[s]; old = items[s][it]
        if new or not la <= old:
            old |= la
            if (s, it) not in inq: inq.add((s, it)); work.append((s, it))
    while work:
        s, it = work.popleft(); inq.discard((s, it)); j, d = it; k, l, r = rules[j]; la = items[s][it]
        if d < len(r):
            x = r[d]
            if x >= NT:
                f = frs(r[d + 1:], la)
                for j2 in by[x]:
                    g2 = f - forbid.get(j2, set())
                    if g2: add(s, (j2, 0), g2)
                g = goto(s, pr(x))
            else:
                a = action(s, x); assert a[0] == 's', (s, it, x, a); g = a[1]
            trans[s][pr(x)] = g; add(g, (j, d + 1), la)
    return items, trans
def conflicts(items):
    return [(s, j, a, action(s, a)) for s in range(NS) for (j, d), la in items[s].items() if d == len(SUB[j][2]) and j != 1 for a in la if action(s, a) != ('r', SUB[j][0])]
forbid = {}
while True:
    items, trans = closure(SUB, BY, firsts, None, lambda x: proj[x], None, forbid, 1)
    cs = conflicts(items)
    if not cs: break
    for s, j, a, act in cs: forbid.setdefault(j, set()).add(a)
used = {j for i in items for (j, d) in i}
if '-v' in sys.argv:
    print('items', sum(len(i) for i in items), 'sets', len({frozenset(l) for i in items for l in i.values()}))
    print('unreached'); [print('  ', j, rs(j)) for j in SUB if j not in used]
    for j in sorted(forbid): print(j, rs(j), 'NOT BEFORE', ' '.join(nm[a] for a in sorted(forbid[j])))
if '-n' in sys.argv: sys.exit()
# ---- the whole grammar: edges and potentials
FULL = {k: (k, l, r) for k, (l, r) in RULES.items()}
FBY = collections.defaultdict(list)
for k, (l, r) in RULES.items(): FBY[l].append(k)
ftrans = closure(FULL, FBY, lambda b, la: {0}, None, lambda x: x, None, {}, 1)[1]
preds = [[] for _ in range(NS)]
for s in range(NS):
    for x, g in ftrans[s].items():
        assert STOS[g] == x
        if s not in preds[g]: preds[g].append(s)
A = 10; NEG = -10**9
R = {a: -A for a in range(NT)}
for l in FBY: R[l] = NEG
c = True
while c:
    c = False
    for k, (l, r) in RULES.items():
        v = 1 + sum(R[x] for x in r)
        if v > NEG // 2 and v > R[l]: R[l] = v; c = True
Q = {0: 0}; c = True
while c:
    c = False
    for s in list(Q):
        for x, g in ftrans[s].items():
            if Q[s] + R[x] > Q.get(g, NEG): Q[g] = Q[s] + R[x]; c = True
assert max(Q.values()) <= 0
# ---- output
def wrap(xs, width=150):
    out = []; line = '  '
    for i, x in enumerate(xs):
        x += '; ' if i < len(xs) - 1 else ''
        if len(line) + len(x) > width: out.append(line.rstrip()); line = '  '
        line += x
    return '\n'.join(out + [line.rstrip()])
q = lambda s: '"%s"' % s
HEAD = '(** Generated by tools/gen_parser_cert.py. %s *)\n'
with open(TH + 'ParserSubset.v', 'w') as f:
    w = f.write
    w(HEAD % 'A part of the grammar (ParserGrammar.v) on which the tables have no conflicts')
    w('From Coq Require Import List String ZArith.\nImport ListNotations.\nLocal Open Scope string_scope.\nLocal Open Scope Z_scope.\n')
    w('(** Rules that are left out. *)\nDefinition dropped : list Z := [\n')
    ds = list(dropped.items())
    for i, (c, ks) in enumerate(ds): w('  (* %s *) %s%s\n' % (c, '; '.join(map(str, ks)), ';' if i < len(ds) - 1 else ''))
    w('].\n(** Symbols that are more restricted versions of others: Type\' and BuiltinType\' are not NULL, SingleValue\' neither, Reference\' does not\n    end in a value reference, Type\'\' is no parameterized type. *)\nDefinition restricted : list (string * string) := [\n')
    w(wrap(['(%s, %s)' % (q(a), q(b)) for a, b in extra]) + '\n].\n')
    w('(** Rules with a restricted version on the right side. *)\nDefinition changed : list (Z * list string) := [\n' + wrap(['(%d, [%s])' % (k, '; '.join(map(q, r))) for k, r in changed]) + '\n].\n')
    w('(** Rules for the restricted versions: the rule that they are a version of, and their sides.  They have the numbers 600, 601, ... *)\nDefinition added : list (Z * (string * list string)) := [\n')
    w(wrap(['(%d, (%s, [%s]))' % (k, q(l), '; '.join(map(q, r))) for k, l, r in added]) + '\n].\n')
    w('(** Rules that are not used before certain tokens. *)\nDefinition not_before : list (Z * list string) := [\n')
    w(';\n'.join('  (* %s *)\n' % rs(j) + '  (%d, [\n%s])' % (j, wrap([q(nm[a]) for a in sorted(forbid[j])])) for j in sorted(forbid)) + '\n].\n')
with open(TH + 'ParserCert.v', 'w') as f:
    w = f.write
    w(HEAD % 'Certificates: nothing is claimed here; ParserValid.v and ParserComplete.v check them')
    w('From Coq Require Import List ZArith.\nImport ListNotations.\nLocal Open Scope Z_scope.\n')
    w('(** The states before each state; the potential of each symbol and state (ParserValid.v). *)\n')
    w('Definition cert_preds : list (list Z) := [\n' + wrap(['[' + '; '.join(map(str, p)) + ']' for p in preds]) + '\n].\n')
    w('Definition cert_R : list Z := [\n' + wrap([str(max(R.get(x, -99), -99)) for x in range(len(names))]) + '\n].\n')
    w('Definition cert_Q : list Z := [\n' + wrap([str(Q[s]) for s in range(NS)]) + '\n].\n')
    mask = lambda st: sum(1 << a for a in st)
    sets = []; idx = {}
    for i in items:
        for l in i.values():
            m = mask(l)
            if m not in idx: idx[m] = len(sets); sets.append(m)
    w('(** Sets of tokens, as bits; the items of each state: rule, position, number of the set. *)\n')
    w('Definition cert_sets : list N := [\n' + wrap(['%d%%N' % m for m in sets]) + '\n].\n')
    w('Definition cert_items : list (list (Z * Z * Z)) := [\n' + ';\n'.join(wrap(['[' + '; '.join('(%d, %d, %d)' % (j, d, idx[mask(l)]) for (j, d), l in sorted(i.items())) + ']']) for i in items) + '\n].\n')
    w('(** The first tokens of the nonterminals; those that can be empty. *)\n')
    nts = sorted(x for x in BY)
    w('Definition cert_first : list (Z * N) := [\n' + wrap(['(%d, %d%%N)' % (x, mask(first[x])) for x in nts]) + '\n].\n')
    w('Definition cert_nullable : list Z := [\n' + wrap([str(x) for x in sorted(nullable)]) + '\n].\n')
