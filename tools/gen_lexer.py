#!/usr/bin/env python3
"""Writes rocq/theories/LexerTable.v: the automaton of yylex in /repo/src/compiler/autogen_copy/asn_compiler.hpp (the lexer
that re2c generated from asn_compiler.yacc 1819-1975 and that the build uses), label by label."""
import re,sys
src=open('/repo/src/compiler/autogen_copy/asn_compiler.hpp').read().split('\n')
i0=next(i for i,l in enumerate(src) if 'char yych;' in l)
end=next(i for i in range(i0,len(src)) if src[i]=='}')
# rule number of an action: position of its line in asn_compiler.re
lines={}
def char(t):
    t=t.strip()
    if t.startswith('0x'): return int(t,16)
    assert t[0]=="'" and t[-1]=="'",t
    t=t[1:-1]
    return {'\\t':9,'\\v':11,'\\f':12,'\\n':10,'\\r':13,'\\\\':92,"\\'":39,'\\b':8,'\\a':7,'"':34}.get(t) or ord(t)
labels={}   # label -> list of statements
cur=1; labels[1]=[]; order=[1]; first={1:i0+1}; reline=None
for i in range(i0,end):
    l=src[i]
    m=re.match(r'^yy(\d+):$',l)
    if m: 
        nxt=int(m.group(1)); labels[cur].append(('fall',nxt)); cur=nxt; labels[cur]=[]; order.append(cur); first[cur]=i+1; continue
    s=l.strip()
    if not s or s in ('{','}','char yych;','unsigned int yyaccept = 0;'): continue
    m=re.match(r'#line (\d+) "(.*)"',s)
    if m:
        reline=int(m.group(1)) if m.group(2).endswith('.re') else None
        continue
    if s=='yych = *context_.cursor;': labels[cur].append(('read',)); continue
    if s=='yych = *++context_.cursor;': labels[cur].append(('adv',)); continue
    m=re.match(r'yyaccept = (\d+);',s)
    if m: labels[cur].append(('accept',int(m.group(1)))); continue
    if s=='yych = *(YYMARKER = ++context_.cursor);': labels[cur].append(('mark',)); continue
    if s=='++context_.cursor;': labels[cur].append(('inc',)); continue
    if s=='context_.cursor = YYMARKER;': labels[cur].append(('restore',)); continue
    if s in('switch (yych) {','switch (yyaccept) {'): labels[cur].append(('switch',s[8:-3])); pend=[]; continue
    m=re.match(r"^case (.*?):(?:\s*goto yy(\d+);)?$",s)
    if m:
        pend.append(m.group(1))
        if m.group(2): labels[cur].append(('case',pend,int(m.group(2)))); pend=[]
        continue
    m=re.match(r'^default:(?:\s*goto yy(\d+);)?$',s)
    if m:
        if m.group(1): labels[cur].append(('default',int(m.group(1))))
        else: pend.append('default')
        continue
    m=re.match(r'^goto yy(\d+);$',s)
    if m:
        if pend==['default']: labels[cur].append(('default',int(m.group(1))))
        elif pend: labels[cur].append(('case',pend,int(m.group(1))))
        else: labels[cur].append(('goto',int(m.group(1))))
        pend=[]; continue
    if s.startswith('{ '):
        assert reline; lines.setdefault(reline,s); labels[cur].append(('act',reline)); continue
    raise Exception((i+1,s))
rule={ln:k for k,ln in enumerate(sorted(lines))}
def ranges(cs):
    cs=sorted(cs); out=[]
    for c in cs:
        if out and out[-1][1]==c-1: out[-1][1]=c
        else: out.append([c,c])
    return out
def lst(f,xs): return '['+'; '.join(f(x) for x in xs)+']'
def coq(st):
    # drop the fall-through when control cannot reach it
    st=list(st)
    for k,x in enumerate(st):
        if x[0] in('act','default','goto'): 
            st=st[:k+1]; break
    kinds=[x[0] for x in st]
    mode='MNone'
    if kinds[0]=='read': mode='MRead'; st=st[1:]
    elif kinds[0]=='adv': mode='MAdv'; st=st[1:]
    elif kinds[0]=='inc': mode='MInc'; st=st[1:]
    elif kinds[:2]==['accept','mark']: mode=f"(MMark {st[0][1]})"; st=st[2:]
    kinds=[x[0] for x in st]
    if kinds in(['fall'],['goto']): return f"Code {mode} (TGoto {st[0][1]})"
    if kinds==['act']: return f"Code {mode} (TAct {rule[st[0][1]]})"
    d=[x[1] for x in st if x[0]=='default'][0]
    if kinds[0]=='restore':
        cs=[(int(c),x[2]) for x in st if x[0]=='case' for c in x[1]]
        assert set(kinds[2:])=={'case','default'} and st[1]==('switch','yyaccept')
        return f"Code {mode} (TRestore "+lst(lambda p:f"({p[0]}, {p[1]}%positive)",cs)+f" {d})"
    assert st[0]==('switch','yych') and set(kinds[1:])<={'case','default'},st
    cs=[(ranges(char(c) for c in x[1]),x[2]) for x in st if x[0]=='case']
    return f"Code {mode} (TSwitch "+lst(lambda p:"("+lst(lambda r:f"({r[0]}, {r[1]})%Z",p[0])+f", {p[1]}%positive)",cs)+f" {d})"
out=["(** Generated by tools/gen_lexer.py from /repo/src/compiler/autogen_copy/asn_compiler.hpp %d-%d: the automaton of yylex."%(i0+1,end),
"    Entry k is the code at label yyk; label 1 stands for the start.  Rules are numbered in the order of asn_compiler.yacc. *)",
"From Coq Require Import String FSets.FMapPositive.","From Verif Require Import Base Lexer.","Local Open Scope nat_scope.","","Definition yy_code : list (positive * label_code) := ["]
ents=[f"  ({k}%positive, {coq(labels[k])})" for k in order]
out.append(';\n'.join(ents)+"].")
def action(t):
    t=re.sub(r'\s+',' ',t)
    C='{ context_.location.columns(context_.cursor - start); '
    T='std::string(start, context_.cursor)'
    m=re.fullmatch(re.escape(C)+r'return asn1_parser::make_(\w+) ?\(context_\.location\); \}',t)
    if m: return f'AToken "{m.group(1)}"'
    m=re.fullmatch(re.escape(C)+r'return asn1_parser::make_(\w+)\((.*), context_\.location\); \}',t)
    if m:
        n,a=m.groups()
        if a==f'std::stod({T})': assert n=='realnumber'; return 'AReal'
        if a==f'std::stoll({T})': return f'AInteger "{n}"'
        if a==T: return f'AText "{n}"'
        if a=='std::string(start + 1, context_.cursor - 2)': return f'AQuoted "{n}"'
        if a==f'santize_name({T})': return f'AName "{n}"'
    if t==C+'return yylex(context_); }': return 'ASkip'
    if t==C+'context_.location.lines(); return yylex(context_); }': return 'ANewline'
    if t==C+'context_.location.columns(); return yylex(context_); }': return 'ASpace'
    if t=="{ for (char c: "+T+") { context_.location.columns(); if (c == '\\n') context_.location.lines(); } return yylex(context_); }": return 'ABlock'
    if t.startswith('{ std::cerr << "Ignoring unknown symbol: "') and t.endswith('return yylex(context_); }'): return 'AUnknown'
    raise Exception(t)
out.append("Definition yy_map : PositiveMap.t label_code := Eval vm_compute in code_map yy_code.")
out.append("(** The actions of the rules. *)\nLocal Open Scope string_scope.\nDefinition yy_actions : list action := [\n  "+';\n  '.join(action(lines[ln]) for ln in sorted(lines))+"].")
open('/verif/rocq/theories/LexerTable.v','w').write('\n'.join(out)+'\n')
print(len(order),len(rule),max(order))
for ln in sorted(lines): 
    if '-v' in sys.argv: print(rule[ln],lines[ln][:150])
