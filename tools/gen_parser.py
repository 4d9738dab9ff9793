#!/usr/bin/env python3
"""Writes rocq/theories/ParserTable.v (the tables of the generated parser), ParserGrammar.v (the rules of asn_compiler.yacc)
and ParserActions.v (their actions) from /repo/src/compiler.  Checks that the rules are those of the generated tables, and that
the actions in asn_compiler.yacc and in the generated code are the same text (but for rule 502, where the generated code is
followed)."""
import re, os
HPP = '/repo/src/compiler/autogen_copy/asn_compiler.hpp'
YACC = '/repo/src/compiler/asn_compiler.yacc'
OUT = os.path.join(os.path.dirname(os.path.abspath(__file__)), '..', 'rocq', 'theories')
hpp = open(HPP).read()

def table(n):
    m = re.search(r'asn1_parser::' + n + r'\[\] =\s*\{(.*?)\};', hpp, re.S)
    return [int(x) for x in m.group(1).replace('\n', ' ').split(',') if x.strip()], hpp[:m.start()].count('\n') + 1
NAMES = ['yypact_', 'yydefact_', 'yypgoto_', 'yydefgoto_', 'yytable_', 'yycheck_', 'yystos_', 'yyr1_', 'yyr2_']
T = {n: table(n) for n in NAMES}
m = re.search(r'yytname_\[\] =\s*\{(.*?)\};', hpp, re.S)
raw = re.findall(r'"((?:[^"\\]|\\.)*)"', m.group(1))
NT = 153

# the rules of the yacc file
src = open(YACC).read()
parts = src.split('\n%%\n')
decl, body, line = parts[0], parts[1], parts[0].count('\n') + 3
alias = {}
for m in re.finditer(r'%token\s+(\S+)\s+"((?:[^"\\]|\\.)*)"', decl): alias[m.group(2)] = m.group(1)
types = {}
for m in re.finditer(r'%type<(.*?)>\s+(\S+?);?\s*$', decl, re.M): types[m.group(2)] = m.group(1)
names = []
for n in raw:
    if n.startswith('\\"'):
        n = n[2:-2].replace('\\\\\\"', '\\"')
        n = alias[n] if n in alias else alias['\\' + n]
    names.append(n)
num = {n: i for i, n in enumerate(names)}
toks, pos = [], 0
def adv(n):
    global pos, line
    line += body[pos:pos+n].count('\n'); pos += n
while pos < len(body):
    s = body[pos:]
    m = re.match(r'\s+', s)
    if m: adv(m.end()); continue
    if s.startswith('//'): adv(s.find('\n')); continue
    if s.startswith('/*'): adv(s.find('*/') + 2); continue
    if s[0] == '{':
        d = i = 0; ins = False
        while True:
            c = s[i]
            if ins:
                if c == '\\': i += 1
                elif c == '"': ins = False
            elif c == '"': ins = True
            elif c == '{': d += 1
            elif c == '}':
                d -= 1
                if d == 0: break
            i += 1
        toks.append(('act', s[:i+1], line)); adv(i + 1); continue
    m = re.match(r'"((?:[^"\\]|\\.)*)"', s)
    if m: toks.append(('id', alias[m.group(1)], line)); adv(m.end()); continue
    if s.startswith('%empty'): adv(6); continue
    m = re.match(r'[A-Za-z_][A-Za-z0-9_\-]*', s)
    if m: toks.append(('id', m.group(0), line)); adv(m.end()); continue
    assert s[0] in ':|;', s[:50]
    toks.append((s[0], s[0], line)); adv(1)
rules, cur, i = [], None, 0
def flush():
    global cur
    if cur is not None: rules.append(cur)
    cur = None
while i < len(toks):
    k, v, l = toks[i]
    if k == 'id' and i + 1 < len(toks) and toks[i+1][0] == ':':
        flush(); lhs = v; cur = [lhs, [], None, l]; i += 2; continue
    if k == '|': flush(); cur = [lhs, [], None, l]
    elif k == ';': flush()
    elif k == 'act': cur[2] = v
    elif k == 'id': cur[1].append(v)
    i += 1
flush()
# bison drops the rules that cannot be reached
lhss = {r[0] for r in rules}
reach = {'ModuleDefinitionList'}
ch = True
while ch:
    ch = False
    for l, r, a, ln in rules:
        if l in reach:
            for x in r:
                if x in lhss and x not in reach: reach.add(x); ch = True
G = [('$accept', ['ModuleDefinitionList', 'END_OF_FILE'], None, 327)] + [tuple(r) for r in rules if r[0] in reach]
assert len(G) + 1 == len(T['yyr1_'][0])
for i, g in enumerate(G):
    assert num[g[0]] == T['yyr1_'][0][i+1] and len(g[1]) == T['yyr2_'][0][i+1] and all(x in num for x in g[1])
# the actions in the generated code
cases = re.findall(r'  case (\d+):\n#line (\d+) [^\n]*\n(.*?)\n#line', hpp[hpp.index('yylhs.state = yy_lr_goto'):], re.S)
hp = {int(k): b for k, l, b in cases}
def norm(s): return re.sub(r'\s+', '', s)
def expanded(g):
    a, n = g[2], len(g[1])
    a = a.replace('$$', 'yylhs.value.as < %s > ()' % types.get(g[0]))
    return re.sub(r'\$(\d+)', lambda m: 'yystack_[%d].value.as < %s > ()' % (n - int(m.group(1)), types.get(g[1][int(m.group(1))-1])), a)
for i, g in enumerate(G):
    if i + 1 == 502: continue
    assert (g[2] is not None) == ((i + 1) in hp), i + 1
    if g[2]: assert norm(expanded(g)) == norm(hp[i+1]), i + 1
assert norm(hp[502]) == norm('{ yylhs.value.as < std::string > () = yystack_[0].value.as < std::string > (); }')
G[501] = (G[501][0], G[501][1], '{ $$ = $1; }', G[501][3])

HEAD = '(** Generated by tools/gen_parser.py from /repo/src/compiler/%s. *)\n'
def wrap(items, sep='; ', width=140, ind='  '):
    out, cur = [], ind
    for k, x in enumerate(items):
        x = x + (sep.strip() if k + 1 < len(items) else '')
        if len(cur) + len(x) + 1 > width: out.append(cur.rstrip()); cur = ind
        cur += x + ' '
    out.append(cur.rstrip())
    return '\n'.join(out)
with open(os.path.join(OUT, 'ParserTable.v'), 'w') as f:
    f.write(HEAD % 'autogen_copy/asn_compiler.hpp: the tables of asn1_parser')
    f.write('From Coq Require Import List ZArith FSets.FMapPositive.\nFrom Verif Require Import Base Parser.\nLocal Open Scope Z_scope.\n')
    for n in NAMES:
        t, ln = T[n]
        f.write('(** line %d *)\nDefinition %s : list Z := [\n%s].\n' % (ln, n.rstrip('_'), wrap([str(x) for x in t])))
    f.write('''(** lines 5015-5020, 9895-9897 *)
Definition yy_tables : tables := Tables (array yypact) (array yydefact) (array yypgoto) (array yydefgoto) (array yytable) (array yycheck)
  (array yyr1) (array yyr2) (-663) (-502) 5042 6 153.
''')
def q(s): return '"%s"' % s
with open(os.path.join(OUT, 'ParserGrammar.v'), 'w') as f:
    f.write(HEAD % 'asn_compiler.yacc 326-1813 (rules) and autogen_copy/asn_compiler.hpp 11385-11480 (yytname_)')
    f.write('From Coq Require Import List String.\nImport ListNotations.\nLocal Open Scope string_scope.\n')
    f.write('(** The symbols in the order of their numbers; the first 153 are tokens. *)\nDefinition symbol_names : list string := [\n%s].\n' % wrap([q(n) for n in names]))
    f.write('(** The rules in the order of their numbers, from 1 on: left side and right side. *)\nDefinition grammar : list (string * list string) := [\n')
    for i, g in enumerate(G):
        f.write('  (%s, [%s])%s  (* %d: line %d *)\n' % (q(g[0]), '; '.join(q(x) for x in g[1]), ';' if i + 1 < len(G) else '', i + 1, g[3]))
    f.write('].\n')

# kinds of values
SIMPLE = {'BitStringType': 'BitString', 'BooleanType': 'Boolean', 'DateType': 'Date', 'DateTimeType': 'DateTime', 'DurationType': 'Duration',
          'EmbeddedPDVType': 'EmbeddedPDV', 'ExternalType': 'External', 'InstanceOfType': 'InstanceOf', 'IRIType': 'IRI', 'NullType': 'Null',
          'ObjectIdentifierType': 'ObjectIdentifier', 'OctetStringType': 'OctetString', 'RealType': 'Real', 'RelativeIRIType': 'RelativeIRI',
          'RelativeOIDType': 'RelativeOID', 'TimeType': 'Time', 'TimeOfDayType': 'TimeOfDay'}
KIND = {None: 'KNone', 'std::string': 'KString', 'double': 'KDouble', 'int64_t': 'KInt64', 'int': 'KInt', 'DefinedValue': 'KDefinedValue',
        'BuiltinType': 'KBuiltin', 'DefinedType': 'KDefined', 'EnumeratedType': 'KEnumerated', 'EnumerationValue': 'KEnumValue',
        'std::vector<Export>': 'KExports', 'std::vector<ClassField>': 'KFields', 'std::vector<std::string>': 'KStrings',
        'ObjectClassAssignment': 'KClassDef', 'Module': 'KModule', 'std::vector<NamedType>': 'KNamedTypes', 'std::vector<Assignment>': 'KAssigns',
        'Assignment': 'KAssign', 'Type': 'KType', 'CharacterStringType': 'KChar', 'ChoiceType': 'KChoice', 'IntegerType': 'KInteger',
        'ObjectClassFieldType': 'KField', 'SequenceType': 'KSequence', 'SetType': 'KSet', 'SequenceOfType': 'KSequenceOf', 'SetOfType': 'KSetOf',
        'PrefixedType': 'KPrefixed', 'std::vector<Type>': 'KTypes', 'Class': 'KClass', 'NamedType': 'KNamedType', 'NamedNumber': 'KNamedNumber',
        'std::vector<NamedNumber>': 'KNamedNumbers', 'ComponentType': 'KComp', 'ComponentTypeList': 'KComps', 'Collection': 'KCollection',
        'Value': 'KValue', 'BooleanValue': 'KBool', 'TimeValue': 'KTime', 'std::vector<Value>': 'KValues', 'std::vector<Import>': 'KImports',
        'Import': 'KImport', 'TaggingMode': 'KMode', 'Tag': 'KTag', 'TaggedType': 'KTagged', 'ObjectIdComponentValue': 'KOidComp',
        'std::vector<ObjectIdComponentValue>': 'KOidComps', 'std::vector<Parameter>': 'KParams', 'Parameter': 'KParam'}
for k, v in SIMPLE.items(): KIND[k] = 'KEmpty ' + v
# "$$ = $n" between different types
def coerce(frm, to, x):
    if frm == to: return x
    if to == 'BuiltinType':
        if frm in SIMPLE: return 'TSimple ' + SIMPLE[frm]
        return {'CharacterStringType': 'TSimple (CharString %s)', 'ChoiceType': 'TChoice %s', 'EnumeratedType': 'TEnumerated (fst %s) (snd %s)',
                'IntegerType': 'TInteger %s', 'ObjectClassFieldType': 'TField (fst %s) (snd %s)', 'SequenceType': 'TRecord false (fst %s) (snd %s)',
                'SetType': 'TRecord true (fst %s) (snd %s)', 'SequenceOfType': 'TListOf false (fst %s) (snd %s)',
                'SetOfType': 'TListOf true (fst %s) (snd %s)', 'PrefixedType': 'TTagged (fst (fst %s)) (snd (fst %s)) (snd %s)'}[frm].replace('%s', x)
    if to == 'Type': return {'BuiltinType': '%s', 'DefinedType': 'TRef %s'}[frm] % x
    if (frm, to) == ('int64_t', 'int'): return 'to_int %s' % x
    if to == 'Type' and frm in ('SetOfType', 'SequenceOfType'): assert False
    raise Exception((frm, to))
SELECT = {'std::string': 'VString', 'int64_t': 'VInt', 'DefinedValue': 'VDefined', 'BooleanValue': 'VBoolean', 'TimeValue': 'VTime',
          'double': 'VReal', 'std::vector<Value>': 'VList'}
CHARS = ['bmp_string', 'general_string', 'graphic_string', 'ia5_string', 'iso646_string', 'numeric_string', 'printable_string', 'teletex_string',
         't61_string', 'universal_string', 'utf8_string', 'videotex_string', 'visible_string', 'character_string']
ACT = {
 '{ $$ = "TYPE-IDENTIFIER"; }': '"TYPE-IDENTIFIER"',
 '{ $$ = Assignment{ $1, ValueAssignment{} }; }': 'Assign x1 (AValue any_type no_value) []',
 '{ $$ = Assignment{$1, $3}; }': 'Assign x1 (AClass x3) []',
 '{ $$ = {$3}; }': 'x3',
 '{ $$ = $1; $$.insert($$.end(), $3.begin(), $3.end()); }': 'x1 ++ x3',
 '{ for (const std::string& name : $1) $$.push_back(ClassField{name, TypeField{}}); }': 'map (fun name => ClassField name None) x1',
 '{ $$.push_back(ClassField{$1, FixedTypeValueField{$2}}); }': '[ClassField x1 (Some x2)]',
 '{ $$ = Assignment{$1, ObjectSetAssignment{}}; }': 'Assign x1 AObjectSet []',
 '{ $$ = {DefinedType{{}, }, $3}; }': '(Defined None "" [], x3)',
 '{ $$ = {DefinedType{{}, $1}, $3}; }': '(Defined None x1 [], x3)',
 '{ $$ = Assignment{ $1, TypeAssignment{$4}, {}, $2 }; }': 'Assign x1 (AType x4) x2',
 '{ $$ = Assignment{ $1, ObjectClassAssignment{} }; }': 'Assign x1 (AClass []) []',
 '{ $$ = Parameter{$1, $3}; }': 'Param (Some x1) x3',
 '{ $$ = Parameter{{}, $1}; }': 'Param None x1',
 '{ $$ = DefinedType{{}, $1}; }': 'TRef (Defined None x1 [])',
 '{ $$ = TaggingMode::explicit_; }': 'Explicit', '{ $$ = TaggingMode::implicit; }': 'Implicit', '{ $$ = TaggingMode::automatic; }': 'Automatic',
 '{ $$ = Module{ {}, TaggingMode(), $1, $2, $3}; }': 'Module "" Explicit x2 x3',
 '{ $$ = Import{ $3, {}, {} }; for (const std::string& ref: $1) { if (std::isupper(ref[0])) { $$.imported_types.push_back(ref); } else { $$.imported_values.push_back(ref); } } }':
   'Import x3 (filter isupper_first x1) (filter (fun ref => negb (isupper_first ref)) x1)',
 '{ $$ = DefinedType{absl::nullopt, $1, {}}; }': 'Defined None x1 []',
 '{ $$ = DefinedValue{$1}; }': 'x1',
 '{ $$ = DefinedType{ absl::nullopt, $1, $3}; }': 'Defined None x1 x3',
 '{ $$ = DefinedType{$1, $3, {}}; }': 'Defined (Some x1) x3 []',
 '{ $$ = Assignment{ $1, TypeAssignment{$3}, {} }; }': 'Assign x1 (AType x3) []',
 '{ $$ = Assignment{ $1, ValueAssignment{$2, $4}, {} }; }': 'Assign x1 (AValue x2 x4) []',
 '{ $$ = Assignment{ $1, TypeAssignment{$2}, {} }; }': 'Assign x1 (AType x2) []',
 '{ $$ = AnyType(); }': 'TSimple Any', '{ $$ = GeneralizedTimeType(); }': 'TSimple GeneralizedTime',
 '{ $$ = ObjectDescriptorType(); }': 'TSimple ObjectDescriptor', '{ $$ = UTCTimeType(); }': 'TSimple UTCTime',
 '{ $$ = NamedType{ $1, $2 }; }': '(x1, x2)',
 '{ $$.value_selection = BitStringValue{$1}; }': 'VBits x1', '{ $$.value_selection = HexStringValue{$1}; }': 'VHex x1',
 '{ $$.value_selection = CharStringValue{$1}; }': 'VChars x1', '{ $$.value_selection = NamedNumber{$1, $3}; }': 'VNamed x1 x3',
 '{ $$.value_selection = NullValue{}; }': 'VNull',
 '{ $$ = {true}; }': 'true', '{ $$ = {false}; }': 'false',
 '{ $$ = IntegerType{{}}; }': '[]', '{ $$ = IntegerType{$3}; }': 'x3', '{ $$ = {$1}; }': '[x1]',
 '{ $$ = NamedNumber{ $1, $3 }; }': '(x1, x3)', '{ $$ = NamedNumber{ $1, 0 }; }': '(x1, 0%Z)',
 '{ $$ = $1; $$.accept_anything = false; }': '(fst x1, false)', '{ $$ = $1; $$.accept_anything = true; }': '(fst x1, true)',
 '{ $$ = $1; $$.accept_anything = true; $$.enum_values.insert($$.enum_values.end(), $6.enum_values.begin(), $6.enum_values.end()); }':
   '(fst x1 ++ fst x6, true)',
 '{ $$.enum_values.push_back($1); }': '([x1], false)', '{ $$ = $1; $$.enum_values.push_back($3); }': '(fst x1 ++ [x3], snd x1)',
 '{ $$.name = $1.name; $$.value = $1.number; }': '(fst x1, Some (snd x1))',
 '{ $$ = BitStringType{}; }': 'tt',
 '{ $$ = SequenceType(); }': '([], false)', '{ $$ = SequenceType{$3}; }': 'x3', '{ $$ = SetType{}; }': '([], false)', '{ $$ = SetType{$3}; }': 'x3',
 '{ $$.components = $1; }': '(x1, false)', '{ $$.components = $1; $$.allow_extensions = true; }': '(x1, true)',
 '{ $$.components = $1; $$.components.insert($$.components.end(), $6.begin(), $6.end()); $$.allow_extensions = true; }': '(x1 ++ x6, true)',
 '{ $$.components = $1; $$.components.insert($$.components.end(), $6.begin(), $6.end()); $$.components.insert($$.components.end(), $10.begin(), $10.end()); $$.allow_extensions = true; }':
   '(x1 ++ x6 ++ x10, true)',
 '{ $$.components = $4; $$.allow_extensions = true; }': '(x4, true)', '{ $$.components = {}; $$.allow_extensions = true; }': '([], true)',
 '{ $$ = ComponentTypeList{$1}; }': '[x1]', '{ $1.push_back($3); $$ = $1; }': 'x1 ++ [x3]', '{ $1.push_back( $3 ); $$ = $1; }': 'x1 ++ [x3]',
 '{ $$ = ComponentType{$1, false, absl::nullopt, absl::nullopt, StorageMode::static_ }; }': 'Comp (fst x1) (snd x1) false None None',
 '{ $$ = ComponentType{$1, true, absl::nullopt, absl::nullopt, StorageMode::static_ }; }': 'Comp (fst x1) (snd x1) true None None',
 '{ $$ = ComponentType{$1, false, $3, absl::nullopt, StorageMode::static_ }; }': 'Comp (fst x1) (snd x1) false (Some x3) None',
 '{ $$ = ComponentType{{}, false, absl::nullopt, $3, StorageMode::static_}; }': 'Comp "" any_type false None (Some x3)',
 '{ $$ = ChoiceType{ $3, StorageMode::static_ }; }': 'x3',
 '{ $$ = $1; $$.insert($$.begin(), $5.begin(), $5.end()); }': 'x5 ++ x1', '{ $$ = std::vector<NamedType> { $1 }; }': '[x1]',
 '{ $$ = PrefixedType($1); }': 'x1',
 '{ $$ = TaggedType{ $1, TaggingMode::automatic, $2 }; }': '(x1, Automatic, x2)',
 '{ $$ = TaggedType{ $1, TaggingMode::implicit, $3 }; }': '(x1, Implicit, x3)',
 '{ $$ = TaggedType{ $1, TaggingMode::explicit_, $3 }; }': '(x1, Explicit, x3)',
 '{ $$ = Tag{ $3, $4 }; }': '(x3, x4)',
 '{ $$ = Class::universal; }': 'universal', '{ $$ = Class::application; }': 'application', '{ $$ = Class::private_; }': 'private_',
 '{ $$ = Class::context_specific; }': 'context_specific',
 '{ $$ = $2; std::reverse($$.begin(), $$.end()); }': 'rev x2', '{ $$ = $3; std::reverse($$.begin(), $$.end()); }': 'rev x3',
 '{ $$.value = $1; }': '(None, Some x1)', '{ $$ = $3; $$.name = $1; }': '(Some x1, snd x3)',
 '{ $$ = $1; $$.push_back($3); }': 'x1 ++ [x3]', '{ $$ = $1; $$.push_back($2); }': 'x1 ++ [x2]', '{ $$ = $2; $$.push_back($1); }': 'x2 ++ [x1]',
 '{ $$ = $3; $$.push_back($1); }': 'x3 ++ [x1]', '{ $$.push_back($1); }': '[x1]',
}
for c in CHARS: ACT['{ $$ = CharacterStringType::%s; }' % c] = c
for n in ('3', '4'):
    for s in ('Set', 'Sequence'):
        # rules with four symbols: TypeWithConstraint, whose value is a Type
        w = '%s' if n == '3' else 'TListOf ' + {'Set': 'true', 'Sequence': 'false'}[s] + ' %s'
        a, b = ('(None, x%s)', '(Some (fst x%s), snd x%s)') if n == '3' else ('None x%s', '(Some (fst x%s)) (snd x%s)')
        ACT['{ $$ = %sOfType{ false, nullptr, std::unique_ptr<Type>(new Type($%s)) }; }' % (s, n)] = w % (a % n)
        ACT['{ $$ = %sOfType{ true, std::unique_ptr<NamedType>(new NamedType($%s)), nullptr }; }' % (s, n)] = w % (b % (n, n))
ANON = {
 '{ $$ = ComponentType{{gen_anon_member_name(), $1}, false, absl::nullopt, absl::nullopt, StorageMode::static_ }; }': 'Comp (anon_name (st_anon s)) x1 false None None',
 '{ $$ = ComponentType{{gen_anon_member_name(), $1}, true, absl::nullopt, absl::nullopt, StorageMode::static_ }; }': 'Comp (anon_name (st_anon s)) x1 true None None',
 '{ $$ = ComponentType{{gen_anon_member_name(), $1}, false, $3, absl::nullopt, StorageMode::static_ }; }': 'Comp (anon_name (st_anon s)) x1 false (Some x3) None',
}
def translate(g):
    """the value and the state, as Gallina"""
    to = types.get(g[0])
    a = g[2]
    if a is None: return 'default_value (%s)' % KIND[to], 's'
    a = re.sub(r'\s+', ' ', a)
    # output to cerr is not modelled
    a = re.sub(r'feature_not_implemented\((?:[^()"]|"[^"]*")*\); ?', '', a)
    a = re.sub(r'std::cerr << (?:[^;"]|"(?:[^"\\]|\\.)*")*; ?', '', a)
    if a.strip() in ('{ }', '{}'): return 'default_value (%s)' % KIND[to], 's'
    if a == '{ $8.module_reference = $1; $8.tagging_default = $4; context_.asn1_tree.modules.push_back($8); }':
        return 'tt', 'State (st_modules s ++ [Module x1 x4 (m_imports x8) (m_assigns x8)]) (st_anon s)'
    if a in ANON: return ANON[a], 'State (st_modules s) (st_anon s + 1)%Z'
    m = re.fullmatch(r'\{ \$\$ = \$(\d+); \}', a)
    if m:
        n = int(m.group(1)); return coerce(types.get(g[1][n-1]), to, 'x%d' % n), 's'
    m = re.fullmatch(r'\{ \$\$\.value_selection = \$(\d+); \}', a)
    if m:
        n = int(m.group(1)); return '%s x%d' % (SELECT[types[g[1][n-1]]], n), 's'
    if a == '{ $$.name = $1; }': return {'EnumerationValue': '(x1, None)', 'ObjectIdComponentValue': '(Some x1, None)'}[to], 's'
    if a == '{ $$ = $1; }' : assert False
    return ACT[a], 's'
with open(os.path.join(OUT, 'ParserActions.v'), 'w') as f:
    f.write(HEAD % 'asn_compiler.yacc 326-1813, the actions (in autogen_copy/asn_compiler.hpp 7635-9623)')
    f.write('From Coq Require Import List String ZArith.\nFrom Verif Require Import Base ParserTree.\nImport ListNotations.\nLocal Open Scope string_scope.\nLocal Open Scope list_scope.\n')
    f.write('(** The declared types of the symbols (185-323), in the order of their numbers. *)\nDefinition symbol_kinds : list kind := [\n%s].\n' %
            wrap([KIND[types.get(n)] for n in names]))
    f.write('(** The actions in the order of their numbers, from 1 on. *)\nDefinition actions : list action := [\n')
    for i, g in enumerate(G):
        v, s = translate(g)
        used = lambda x: re.search(r'\b%s\b' % x, v + ' ' + s)
        args = ' '.join('x%d' % (j + 1) if used('x%d' % (j + 1)) else '_' for j in range(len(g[1])))
        f.write('  Action [%s] (%s) (fun %s s => (%s, %s))%s  (* %d: line %d *)\n' %
                ('; '.join(KIND[types.get(x)] for x in g[1]), KIND[types.get(g[0])], args, v, s, ';' if i + 1 < len(G) else '', i + 1, g[3]))
    f.write('].\n')
print(len(G), 'rules')
