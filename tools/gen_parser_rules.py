#!/usr/bin/env python3
"""Generates ParserRules.v: one lemma for each rule of the subset (ParserSubset.v) that ParserSourceProofs.v uses."""
import re, os, sys
TH = os.path.join(os.path.dirname(os.path.abspath(__file__)), '..', 'rocq', 'theories') + '/'
gra = open(TH + 'ParserGrammar.v').read(); act = open(TH + 'ParserActions.v').read(); sub = open(TH + 'ParserSubset.v').read()
names = re.findall(r'"([^"]*)"', re.search(r'symbol_names : list string := \[(.*?)\]\.', gra, re.S).group(1))
num = {n: i for i, n in enumerate(names)}
gl = re.findall(r'\("([^"]*)", \[(.*?)\]\)[; ]', gra[gra.index('Definition grammar'):])
RULES = {i + 1: (l, re.findall(r'"([^"]*)"', r)) for i, (l, r) in enumerate(gl)}
NT = 153
kinds = [k.strip() for k in re.search(r'symbol_kinds : list kind := \[(.*?)\]\.', act, re.S).group(1).replace('\n', ' ').split(';')]
acts = re.findall(r'^  Action \[(.*?)\] \((.*?)\) \(fun (.*?) s => (.*)\);?  \(\* (\d+):', act, re.M)
ACT = {int(a[4]): a for a in acts}
assert len(ACT) == 578
dropped = [int(x) for x in re.findall(r'\d+', re.sub(r'\(\*.*?\*\)', '', re.search(r'dropped : list Z := \[(.*?)\]\.', sub, re.S).group(1), flags=re.S))]
restricted = re.findall(r'\("([^"]*)", "([^"]*)"\)', re.search(r'restricted : .*? := \[(.*?)\]\.', sub, re.S).group(1))
for i, (n, b) in enumerate(restricted): num[n] = 400 + i
basename = dict(restricted)
changed = {int(k): re.findall(r'"([^"]*)"', r) for k, r in re.findall(r'\((\d+), \[(.*?)\]\)', re.search(r'changed : .*? := \[(.*?)\n\]\.', sub, re.S).group(1))}
added = [(int(k), X, re.findall(r'"([^"]*)"', r)) for k, X, r in re.findall(r'\((\d+), \("([^"]*)", \[(.*?)\]\)\)', re.search(r'added : .*? := \[(.*?)\n\]\.', sub, re.S).group(1), re.S)]
nb = re.sub(r'\(\*.*?\*\)', '', re.search(r'not_before : .*? := \[(.*)\]\.', sub, re.S).group(1), flags=re.S)
not_before = {int(k): re.findall(r'"([^"]*)"', r) for k, r in re.findall(r'\((\d+), \[(.*?)\]\)', nb, re.S)}
SUB = {k: (k, l, changed.get(k, r)) for k, (l, r) in RULES.items() if k not in dropped}
for i, (k, X, r) in enumerate(added): SUB[600 + i] = (k, X, r)
used = []
for x in open(TH + 'ParserSourceProofs.v').read().split('(* rules used: ')[1].split('*)')[0].split():
    a = x.split('-'); used += list(range(int(a[0]), int(a[-1]) + 1))
used = sorted(set(j for j in used if j in SUB))
def ident(s): return 'n_' + s.replace("''", '_2').replace("'", '_1').replace('-', '_').replace('$', '')
def kind(s):
    s = basename.get(s, s); return kinds[num[s]]
def denote(k): return 'denote ' + (f'({k})' if ' ' in k else k)
def split(body):
    body = body.strip(); assert body[0] == '(' and body[-1] == ')', body
    body = body[1:-1]; d = 0; last = None
    for i, c in enumerate(body):
        if c in '([': d += 1
        elif c in ')]': d -= 1
        elif c == ',' and d == 0: last = i
    return body[:last].strip(), body[last + 1:].strip()
o = ['(** Generated by tools/gen_parser_rules.py: the rules of the subset of the grammar, one by one, as lemmas. *)',
     'From Coq Require Import List String ZArith NArith Bool.', 'From Verif Require Import Base Lexer ParserTree ParserActions ParserFile ParserComplete ParserPhrases ParserSource.',
     'Import ListNotations.', 'Local Open Scope string_scope.', 'Local Open Scope list_scope.', 'Notation sem := (existT denote).']
syms = []
for j in used:
    k, X, r = SUB[j]
    for y in [X] + r:
        if num[y] >= NT and y not in syms: syms.append(y)
for y in syms: o.append(f'Definition {ident(y)} : Z := {num[y]}%Z.')
for j in used:
    k, X, r = SUB[j]
    ks, kd, pat, body, _ = ACT[k]
    pats = pat.split()
    vs, hyps, words, children, args = [], [], [], [], {}
    # words
    for i, y in enumerate(r):
        if num[y] < NT:
            K = kind(y)
            if K == 'KNone': words.append(('tok', f'kw "{y}"', y))
            elif K == 'KInt64': words.append(('tok', f'Lexer.Token "{y}" (PInteger a{i+1})', y)); vs.append((f'a{i+1}', 'Z')); args[i + 1] = f'a{i+1}'
            elif y in ('GENERIC_IDENTIFIER_UPPERCASE', 'GENERIC_IDENTIFIER_LOWERCASE', 'typefieldreference', 'valuefieldreference'):
                words.append(('tok', f'Lexer.Token "{y}" (PName a{i+1})', y)); vs.append((f'a{i+1}', 'string')); args[i + 1] = f'a{i+1}'
            else: words.append(('tok', f'Lexer.Token "{y}" (PText a{i+1})', y)); vs.append((f'a{i+1}', 'list Z')); args[i + 1] = f'(string_of a{i+1})'
        else:
            words.append(('sym', f't{i+1}', y)); vs.append((f't{i+1}', 'list Lexer.token')); 
            if kind(y) == 'KNone': args[i + 1] = 'tt'
            else: vs.append((f'x{i+1}', denote(kind(y)))); args[i + 1] = f'x{i+1}'
    def rest(i):
        if i >= len(words): return None
        return words[i]
    def cat(i):
        # list expression for words from i on
        out = '[]'
        for w in reversed(words[i:]):
            out = f'{w[1]} :: {out}' if w[0] == 'tok' else (w[1] if out == '[]' else f'{w[1]} ++ {out}')
        return out
    state = 's'; n = 0
    for i, w in enumerate(words):
        if w[0] == 'sym':
            ns = f's{i+1}'; vs.append((ns, 'state'))
            nx = 'next' if i + 1 == len(words) else (f'"{words[i+1][2]}"' if words[i + 1][0] == 'tok' else f'(nxt ({cat(i+1)}) next)')
            K = kind(w[2]); Kp = f'({K})' if ' ' in K else K
            hyps.append(f'ph {ident(w[2])} {w[1]} {nx} {state} (sem {Kp} {args[i+1]}) {ns}'); state = ns
    if j in not_before:
        assert len(not_before[j]) < 4, j
        for x in not_before[j]: hyps.append(f'next <> "{x}"')
    v, st = split(body)
    v = re.sub(r'\bx(\d+)\b', lambda m: args[int(m.group(1))], v); st = re.sub(r'\bx(\d+)\b', lambda m: args[int(m.group(1))], st)
    st = re.sub(r'\bs\b', state, st); v = re.sub(r'\bs\b', state, v)
    v = re.sub(r'default_value \((KNone|KEmpty [A-Za-z]*|KExports)\)', 'tt', v)
    kdp = f'({kd})' if ' ' in kd else kd
    binders = ' '.join(f'({a} : {b})' for a, b in vs)
    hyp = ' -> '.join(hyps + [f'ts = {cat(0)}'])
    o.append(f'Lemma r_{j} {binders} (ts : list Lexer.token) (next : string) (s : state) : {hyp} ->\n  ph {ident(X)} ts next s (sem {kdp} ({v})) ({st}).')
    steps = ''
    for i, w in enumerate(words):
        if w[0] == 'tok': steps += ' apply phs_token; [vm_compute; reflexivity|].'
        else: steps += ' eapply phs_cons; [eassumption|].'
    if any(w[0] == 'sym' for w in words) and words[-1][0] == 'sym': pre = f' rewrite <- (app_nil_r t{len(words)}) in *.' if False else ''
    alw = 'apply allowed_always; vm_compute; reflexivity' if j not in not_before else \
          f'apply allowed_before with (names := [{"; ".join(chr(34)+x+chr(34) for x in not_before[j])}]); [vm_compute; reflexivity|vm_compute; reflexivity|cbn; intuition congruence]'
    # the last symbol: t = t ++ []
    if words and words[-1][0] == 'sym':
        steps = steps[:steps.rindex(' eapply phs_cons')] + f' rewrite <- (app_nil_r t{len(words)}); eapply phs_cons; [eassumption|].'
    o.append(f'Proof.\n  intros; subst. eapply ph_rule with (j := {j}%Z); [vm_compute; reflexivity|{alw}| |]; [{(steps + " apply phs_nil.").strip().rstrip(".").replace(". ", "; ")}|reflexivity].\nQed.')
open(TH + 'ParserRules.v', 'w').write('\n'.join(o) + '\n')
print(len(used), 'rules')
