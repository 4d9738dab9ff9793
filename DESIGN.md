# Formal model of fast_ber in Rocq (Coq 8.16.1)

Build: `cd rocq && coq_makefile -f _CoqProject -o Makefile && make -j4` (about a minute). Everything is in
`rocq/theories`, logical name `Verif`.

## Layout

Model files (definitions only; each definition cites the lines of /repo it models), specification files (what the
properties are stated with, written from X.680/X.690 or from the English property, no model functions unless said so),
proof files, and property files (`Properties*.v`: the theorems `Cnn_...`, and next to each an `Example` that meets its
hypotheses).

| area | model | specification | proofs | properties |
|---|---|---|---|---|
| identifiers, lengths, headers | `Ident.v` | `Spec.v` | `IdentProofs.v`, `HeaderProofs.v` | `PropertiesHeader.v` C01-C06 |
| views, iterators | `View.v` | `Spec.v` | `ViewProofs.v` | `PropertiesView.v` C07-C13, C67 |
| containers, Integer, Boolean, Null, Enumerated, strings | `Prims.v` | `Spec.v` | `PrimProofs.v`, `IntProofs.v`, `ContProofs.v` | `PropertiesInt.v` C14-C18, C21; `PropertiesCont.v` C19, C20, C22-C30, C68 |
| object identifiers | `Oid.v` | `Spec.v` | `OidProofs.v` | `PropertiesOid.v` C31-C35, C69 |
| reals | `RealModel.v` | `Spec.v` | `RealProofs.v`, `RealExponents.v` | `PropertiesReal.v` C36-C39, C70 |
| comparing reals | `RealEq.v` | `PropertiesRealEq.v` (`in_units`, `apart`, `greater`) | `RealEqProofs.v` | `PropertiesRealEq.v` C132 |
| decimal reals | `RealDecimal.v` | `DecimalSpec.v` | `RealDecimalProofs.v` | `PropertiesRealDecimal.v` C133 |
| printing reals | `RealPrint.v` | `RealPrintSpec.v` (`PrintSpec.v` for JSON) | `RealPrintProofs.v` | `PropertiesRealPrint.v` C135 |
| SEQUENCE, SET, CHOICE, SEQUENCE OF, Optional, Default (library and generated code) | `Schema.v` | `SchemaSpec.v` | `SchemaProofs.v`, `SchemaDecode.v`, `SchemaRound.v`, `SchemaSet.v`, `SchemaMore.v`; `DecodeSpec.v` and `DecodeExact.v` (which inputs are accepted) | `PropertiesDecode.v` C124, `PropertiesSchema.v` C40-C52 |
| GeneralizedTime | `Time.v` (and `Schema.v`) | in `PropertiesTime.v` | there | `PropertiesTime.v` C66 |
| compiler: tags, checks, generated types | `Compiler.v` | `CompilerSpec.v` | `CompilerProofs.v` | `PropertiesCompiler.v` C53-C56 |
| compiler: names and values as C++ text | `CompilerNames.v` | `NamesSpec.v` | in `PropertiesNames.v` | `PropertiesNames.v` C59-C61, C71-C73 |
| compiler: references, ordering, COMPONENTS OF | `CompilerTree.v` | `TreeSpec.v` | `ModuleProofs.v`, `ComponentsProofs.v`, `ReorderProofs.v` | `PropertiesTree.v` C57, C58, C62, C63, `PropertiesResolve.v` C62 with circles |
| the same library parts, exactly (what the code does where a property above fails) | as above; `RealExact.v` for reading REALs | in the property files | there | `PropertiesViewExact.v` C75-C77, `PropertiesContExact.v` C78-C81, `PropertiesOidExact.v` C82-C84, `PropertiesRealExact.v` C85-C87 |
| compiler: enumerations | `CompilerEnum.v` | `EnumSpec.v` | in `PropertiesEnum.v` | `PropertiesEnum.v` C88-C90 |
| compiler: parameters, imports, nested structures, object classes | `CompilerPasses.v` | `PassesSpec.v` | `PassesProofs.v`, `PassParams.v`, `PassNest.v`, `PassClass.v`, `PassClassNames.v` | `PropertiesPasses.v` C91-C93, `PropertiesClasses.v` C94, C95 |
| heap storage of recursive types | `Dynamic.v` | `DynamicSpec.v` | `DynamicProofs.v`, `DynamicSteps.v` | `PropertiesDynamic.v` C64, C65, C74 |
| alternatives by type | `VariantTypes.v` | `VariantTypesSpec.v` | `VariantTypesProofs.v` | `PropertiesVariantTypes.v` C134 |
| recursive types | `RecTypes.v` | `RecSpec.v` | `RecProofs.v` | `PropertiesRec.v` C96-C98 |
| ANY | `AnyType.v` | in `PropertiesAny.v` | `PropertiesAny.v` | `PropertiesAny.v` C130 |
| compiler: the lexer | `LexerTable.v` (generated by `tools/gen_lexer.py` from the labels of the generated code), `Lexer.v` | `LexerSpec.v` (the rules as regular expressions, what lexemes and tokens are) | `LexerProofs.v`, `LexerFacts.v`, `LexerFile.v`, `LexerLexemes.v` | `PropertiesLexer.v` C99-C105 |
| compiler: the parser | `ParserTable.v`, `ParserGrammar.v`, `ParserActions.v` (generated by `tools/gen_parser.py` from `autogen_copy/asn_compiler.hpp` and `asn_compiler.yacc`), `Parser.v` (the engine), `ParserTree.v`, `ParserFile.v` | `LRSpec.v` (phrases of a grammar and their values), `ParserSource.v` (the notation, its tokens, its tree), `ParserText.v` (spelling and layout) | `LRProofs.v`, `LRComplete.v` (any tables with certificates), `ParserCert.v` (certificates, generated), `ParserSubset.v`, `ParserValid.v`, `ParserComplete.v`, `ParserFileProofs.v`, `ParserPhrases.v`, `ParserRules.v` (generated), `ParserSourceProofs.v`, `ParserTextProofs.v`, `ParserFirst.v`, `ParserFrame.v`, `ParserInject.v`, `ParserNames.v`, `ParserAnon.v` | `PropertiesParser.v` C106-C112 |
| text to code | `Elab.v` (parsed modules to the types of `Compiler.v`: references, imports, universal tags, library classes) | `ElabSpec.v` (what a written type is, X.680 Table 1) | `ElabProofs.v`, `ParserWrite.v` (checks that a text spells tokens, for examples) | `PropertiesText.v` C113-C115 |
| all passes | `Frontend.v` (CompilerMain.cpp 261-278 on the parsed tree: parameters, module order, imports, nested structures, COMPONENTS OF, classes, assignment order) | `ElabSpec.v`, `AcceptSpec.v`, `WriteOutSpec.v`, `IncludeSpec.v`, `ClassSpec.v` | `FrontOrder.v`, `FrontNest.v`, `FrontPasses.v`, `FrontAccept.v`, `FrontText.v`, `WriteOut.v`, `Include.v`, `Declass.v` | `PropertiesFront.v` C121, `PropertiesWriteOut.v` C125, `PropertiesInclude.v` C126, `PropertiesField.v` C127 |
| generated C++ | `RealText.v` (real numbers in headers), `Header.v` (CompilerMain.cpp 38-192, TypeAsString.cpp, GenerateChoice.cpp, ValueType.cpp, EncodeDecode.cpp: the declarations and functions written, with all names) | `CppSpec.v` (the part of C++ that occurs in headers: scopes, lookup, declarations), `HeaderSpec.v` (names that keep apart), `ExpressSpec.v` (modules whose headers are C++), `CppValues.v` (values of constants and defaults in a header), `ConstSpec.v` (values written in a module), `MentionSpec.v` (references and definitions) | `HeaderIds.v`, `HeaderSound.v`, `HeaderCreate.v`, `HeaderRun.v`, `HeaderCheck.v`, `ExpressNames.v`, `ExpressCreate.v`, `ExpressRun.v`, `ExpressCheck.v`, `FrontStays.v`, `ConstProofs.v`, `RealTextProofs.v`, `MentionProofs.v` | `PropertiesCpp.v` C122, C123, `PropertiesSafety.v` C131, `PropertiesConst.v` C128, `PropertiesMention.v` C129 |
| text output | `Print.v` (every operator<<, the ber_view tool, printing and comparing generated objects) | `PrintSpec.v` (a JSON reader, packet trees, what a text should say), `ValueSpec.v` (the value an object stands for) | `PrintJson.v`, `PrintProofs.v`, `RealValueProofs.v`, `EqualProofs.v`, `ValuePrintProofs.v` | `PropertiesPrint.v` C116-C117, `PropertiesValue.v` C118-C120 |

`Base.v` has byte lists indexed by `Z`, machine integers, and the outcome type. `tools/gen_manifest.py` writes
`MANIFEST.json` from the theorem names; `seeded/LOG.jsonl` records the wrong programs tried.

## Conventions

* A byte is a `Z`; `bytes l` says all elements are in `[0,256)`. A span is a list; writing through a span is a function
  returning the new list.
* `size_t`/`uint64_t` results are taken modulo 2^64 (`u64`) wherever the code can wrap. Signed overflow, out-of-bounds
  access, null dereference, use of freed memory: the distinct outcome `UB` (`Undef` in `CompilerTree.v`). Exceptions of the
  compiler are `Throw` or `None`. Loops take fuel; running out is the distinct outcome `NoFuel`/`Loop`, and theorems
  either show that it does not occur or that it occurs for every amount of fuel (non-termination).
* Sizes of buffers are below 2^63 or 2^62 (no C++ object is larger), as a hypothesis where used.
* `assert` is a no-op (NDEBUG).
* Where the code contradicts a property, a theorem with suffix `_refuted` gives the witness (or, where possible, shows the
  failure for every value concerned), and a theorem with suffix `_partial` proves the property under the condition that
  excludes exactly or nearly the failing inputs. The claim is then `partial`. Where a sibling property states precisely
  what the code does instead, it is proved in full (see the table).

## Properties: what is modelled and how it is proved

| id | model and statement | method | result |
|---|---|---|---|
| C01, C02 | `encode_length`/`extract_length`, `encode_identifier`/`extract_*` on buffers, any following bytes | big-endian and base-128 digit lists, induction on digits | proved |
| C03, C04 | predicted lengths and the encoders, single and double identifiers, any buffer | case analysis on size classes | proved |
| C05, C06 | against *all* octet strings the extractors read (not only encoder output) | inversion of the extractors to `x690_length`, `x690_ident` | proved |
| C07 | `v_make` on any input; content must be inside | inversion to packets | refuted by size_t wrap-around; holds for length fields below 2^63; the only way out is the wrap |
| C08-C10 | views of encoder output, of every proper prefix, of every input | same | proved |
| C11 | the iterator loop with fuel | partition into packets by strong induction | refuted (a child whose length wraps to 0 is visited forever); holds for `tame` content (`ViewProofs.tame`: at every position where a header is read -- the start, behind a packet, inside a constructed packet -- tag and length fit an int64, and so does a tag the identifier check reads at the start of a content) |
| C12, C13 | iteration over concatenations, `BerView::encode` | induction on the packets | proved |
| C14-C16, C18 | Integer as state machine: assignment, copy, decode, encode | `twos_value` arithmetic; invariant over histories | proved |
| C21 | Enumerated over an underlying type of any width | the same, with the cast to the underlying type | proved for assigned values; refuted for received numbers outside the underlying type (`C21_received_number_refuted`) |
| C17 | Integer::decode | exact acceptance condition | refuted (empty content accepted); exact condition proved |
| C19, C20, C22, C24, C25, C28 | containers as byte lists plus lengths | refinement of the memmove code to packets | proved |
| C23, C26, C27, C29, C30 | histories of containers | invariants over histories | refuted in a corner each, otherwise proved (notes in MANIFEST.json) |
| C31, C32 | ObjectIdentifier assign/value/encode/decode | base-128 lists | proved |
| C33-C35, C69 | decode for every X.690 content; `component_number`; rejected and accepted `assign` | same | refuted, with the exact range where they hold |
| C36, C38, C39, C70 | Real::assign / value on IEEE bit patterns | arithmetic on mantissa/exponent; fuel for the loop | refuted outside a range that is characterised exactly; exactly which binary encodings are accepted (`C39_accepted_exactly_partial`); which octets are taken for the exponent, and when that is right (`C70_exponents_partial`); and every result in and out of the range of the normal doubles (`C70_results_partial`), the special values (`C70_special_values`) |
| C37 | content octets of every finite double denote it | same | proved |
| C40, C41, C43, C45, C48, C50 | all types of `Schema.ty`, all values | mutual induction on types | proved |
| C42 | round trip for every well-labelled schema | mutual induction; decoder run on any BER encoding | refuted for CHOICEs that rely on the class; otherwise proved |
| C44 | memory safety of decode on any bytes | mutual induction with `UB` outcome | refuted for untagged CHOICE on missing input; otherwise proved |
| C46, C47, C49, C51, C52 | Optional/Default, SET and CHOICE decoding | case analysis over all inputs | refuted in a corner each, otherwise proved |
| C53-C56 | `cpp` maps an ASN.1 type to a `Schema.ty`; X.680 tags and 25.6 as specification | mutual induction on ASN.1 types | refuted (listed witnesses), positive parts proved |
| C57, C58 | dependency resolution with state and fuel | invariants of depth-first search; cycles as infinite descent | order proved; refuted in the corners listed |
| C59-C61, C71-C73 | string functions; C++ literal syntax as specification | induction on strings | C60 proved; others refuted with exact conditions |
| C62, C63 | alias chains, COMPONENTS OF expansion over a tree of modules | induction on acyclicity | refuted for cycles, modules and order; otherwise proved; with circles among the definitions, what resolving gives is right if it ends (`C62_right_partial`), and it ends if there is a type to find (`C62_found_partial`) |
| C64, C65, C74 | heap with freed cells, histories of operations on variables and nested members | ownership invariant, preservation by each operation | C64 proved; C65, C74 refuted for self-assignment etc., otherwise proved |
| C66 | calendar fields, digit strings | arithmetic | refuted for sub-seconds, zones, rejected decode; otherwise proved |
| C68 | reads of resize_content inside size() | arithmetic | refuted (header shrinks), otherwise proved |
| C67, C75-C77 | view construction, validity, iteration | inversion to the exact condition, in both directions | proved |
| C78-C81 | Integer::decode, histories of strings, resize, BerContainer copies | iff statements over all inputs and histories | proved |
| C82-C84 | ObjectIdentifier value, component_number, assign | same, with `UB` cases | proved |
| C85-C87 | reading REALs: accepted forms, value, non-termination; which doubles survive | arithmetic on mantissa/exponent, loop analysed for every fuel | proved |
| C88 | boolean and enumerated values as C++ text | case analysis | proved |
| C89, C90 | numbering of enumerators against X.680 19; to_string | induction on the items | C90 proved; C89 refuted for some lists, the code's own numbering exactly, X.680's under the condition stated |
| C91 | resolve_parameters over sets of modules; meaning = possibly infinite expansion with closures for dummies (`den`), equality of all finite expansions up to depth | simulation relation between the trees, induction on the depth, both directions | refuted (nested actuals, COMPONENTS OF, other modules, imported templates, templates in templates); holds for `parameters_ok`; acceptance exact |
| C92 | split_imports on all modules | same | proved |
| C93 | find_nested_structs with its counter | simulation; fresh names | proved for names the user does not use himself; refuted otherwise |
| C94 | resolve_object_classes | simulation; invariant of the set of names | refuted (aliases, imports, other modules, fields of fields, types removed); holds for `classes_ok`; acceptance exact |
| C95 | the fixpoint loop of get_object_class_names | termination by counting names; closure at the end | proved under the stated conditions; refuted across modules without import |
| C96 | definitions that refer to each other by name; the generated functions are those of every deep enough unfolding (`eventually`) | the outcome does not depend on what stands below a depth given by the input (packets get shorter) or by the object (it is finite) | proved for definitions that are not endless |
| C97, C98 | the same | unfoldings of good definitions are good schemas; C41-C44 transferred | as C44 and C42: proved for definitions with distinct tags and no untagged CHOICE as a mandatory member; a bound on the nesting depth is refuted |
| C99 | the generated automaton (labels, peeks, gotos, accepts) | simulation between labels and derivatives of the rules, checked once by computation over all pairs of states; then induction on the text | proved |
| C100 | the same, memory ends behind the NUL | which residual languages never end | refuted (unfinished comment or string at the end of the file); exact characterisation proved |
| C101 | yylex and the parser's loop over it | induction on the text | tokens exact; refuted that no text is dropped (NUL, unknown octets) |
| C102 | the same | membership of words in the rules | words proved; three reserved words refuted |
| C103 | the same | matches of the comment rules | white space and closed comments proved; VT, FF and nesting refuted |
| C104 | stoll and the payloads | matches of the literal rules | integers proved; strings and reals refuted in part |
| C105 | the location updates | induction on the text | lines proved for texts without new lines in strings; refuted otherwise; columns refuted |
| C106 | the parser's engine on its tables; actions as typed functions on the declared types | invariant: the stack is a sequence of phrases whose symbols the states stand for; checked for all 876 states by computation | proved |
| C107 | the same | a potential of symbols and states that each reduction lowers; action types checked rule by rule | proved |
| C108 | the same | no state shifts the error token; the run depends on the tokens read only | proved |
| C109 | the same | LR items with lookaheads as certificate for a grammar without the losing alternatives; then induction on the notation | refuted (sentences of the grammar, notation of X.680); proved for the notation of `ParserSource.v` |
| C110 | the same | the actions along the derivation; injectivity by induction | refuted; tree exact for the notation of `ParserSource.v`, injective on a part of it |
| C111 | the loop over files | every action commutes with modules in front | non-interference proved; several files partial as C109 |
| C112 | gen_anon_member_name | counting names, induction on the notation | refuted (a name of the text); proved among themselves |
| C113 | files, parser, references and imports, code generation, generated encode/decode in one function `code_of` | C111 for the parser, induction on what a type means for the resolution, then C53-C56 | partial: no COMPONENTS OF, parameters, classes, recursion, ANY; refuted for additions under AUTOMATIC TAGS, tag numbers of 2^32 and more, EXTENSIBILITY IMPLIED |
| C114 | Identifier.cpp, CompilerTypes.hpp tables | as C113, table by cases | partial; refuted for TIME, DATE, TIME-OF-DAY, DATE-TIME, DURATION (tag 0) |
| C115 | default constructors of the classes | as C114, contents by cases | partial; refuted for BIT STRING, OBJECT IDENTIFIER, UTCTime, ENUMERATED without 0 |
| C116 | `ber_view`: main of src/view/view.cpp, operator<< of a view, recursively; what the platform decides (isprint of negative chars, absl's printing of a time) is a parameter | induction on packet trees; every ordinary file is a tree or has no packet in front | partial (exact on ordinary files); refuted: empty time, isprint, a wrapping length field that is never passed |
| C117 | the same | a JSON reader as specification; reading the printed text back, by induction on packet trees | partial; refuted: ENUMERATED, REAL, times, quotation marks, first arcs |
| C118 | operator<< of the generated types over `Schema.v`'s objects, with names and defaults | the value of an object as specification; reading back, mutual induction on types | partial; refuted: quotation marks, times, undeclared enumerators, CHOICE alternatives |
| C119 | operator== of the generated types | mutual induction: the operator answers whether the values are equal | partial (all values the types without REAL define); refuted: unparsable times, zones, empty INTEGER, REALs |
| C120 | encode, decode and operator== together | C42 and C119; objects with the same contents are equal, with REALs (not NaN) | partial, as these |
| C121 | all passes of CompilerMain.cpp 261-278 between parser and writer, in order (`Frontend.passes`) | each pass keeps the types that need nothing of it; taking structures out of a type is what `Compiler.split` says, by induction; the rest is C113 | partial: as C113, no classes, no names like the made up ones (refuted for both); files in which every name is defined, imports exist and make no circle and the total length is below 2^31 are accepted (`C121_accepted_partial`), so `C121_works_partial` needs no hypothesis on what the compiler does |
| C122 | the header as C++ declarations with names (`Header.v`), run by the scope rules of C++ (`CppSpec.v`) | invariant of the scopes: a name that a header mentions is bound, if at all, to the code for the type intended; by induction over types, assignments and modules | partial: as C121, and for names that keep apart (`HeaderSpec.separate`); refuted: a component foo of list type beside a list type Foo (silently another code), OPTIONAL DATE |
| C123 | as C122; the header has no error (every name declared before its use and once, functions distinct and of classes that exist) | invariant of the scopes while the declarations run, by induction over types, assignments and modules; witnesses | partial: for modules that keep to `ExpressSpec.expressible` and `HeaderSpec.separate` (C123_compiles_partial; C123_round_trip_partial is C122 without asking a C++ compiler); refuted for others: tagged, renamed and imported lists, imported ENUMERATED used twice, components named as their type, inline ENUMERATED with DEFAULT, renamed ENUMERATED |
| C124 | as C40-C52 (`Schema.v`), with all inputs, also malformed ones | `DecodeSpec.v` says which packets are read as which values; equivalence with the decoders by induction over the type, decoding loops against the packets of the content | partial: for types whose decoders are never called on nothing (`safe`) and `tame` input; every encoding is read as its value unless a primitive content begins like an overlong tag (C124_wild_content) |
| C125 | the first pass (`Frontend.resolve_parameters`) on the tree of the parsed files, then all of C121-C123 | `WriteOutSpec.v` writes templates out on the source notation; by induction over the types, the pass turns the tree of the modules into the tree of the modules written out and leaves that one alone, so all later passes agree; C121 and C123 then apply | partial: one-parameter templates of the same module whose bodies and arguments use no templates, COMPONENTS OF or nameless components; the rest refuted (two arguments come in reverse, imported templates and nested arguments are refused) |
| C126 | the pass for COMPONENTS OF (`Frontend.resolve_components_of`) between the others, on the tree of the parsed files, then all of C121-C123 | `IncludeSpec.v` writes the components out on the source notation; on trees, `Include.v` shows that ordering the modules and taking out nested structures commute with writing in the components, that the pass then writes in the same components, and that it leaves alone a tree without COMPONENTS OF; the tree of the modules written out is the tree with the components written in |
| C127 | the pass for object classes (`Frontend.resolve_object_classes`) among the others, on the tree of the parsed files, then all of C121-C123 | `ClassSpec.v` writes the types of fields in the source notation and drops the classes; on trees, `Declass.v` shows that ordering the modules and taking out nested structures commute with it, that the names of classes found are exactly those defined, that the pass puts in the same types and removes exactly the classes, and that the modules without classes come out the same; then C121-C123 carry over; partial: conditions in the theorem, with refutations for each that fails |
| C128 | the values of constants and of DEFAULT members, from the parsed files through all passes (`Frontend.v`) to the text of the initializers in the header (`Header.v`: create_assignment, default_decl, value_text) | `ConstSpec.v` says which value is written, on the source notation; `CppValues.v` which value the declarations of a header give a constant or a default value, with hiding of names in a struct; `FrontStays.v`: the passes leave settled modules' assignments alone but for their order, constants before their uses; `ConstProofs.v` by induction over the values; REAL: `RealText.v` models std::stod and std::to_string, `RealTextProofs.v` shows from the spacing of doubles that a number with at most six places, of any size, comes back as the same double, and one with more places as that double rounded to a whole number of millionths (`C128_places`) | partial: kinds and conditions in the theorems (REAL with more than six places, BOOLEAN constants, second names, imported types, names of numbers and items, BIT STRING, nested object identifiers and hidden names are refuted) |
| C129 | all passes and the writing of the header (`Frontend.v`, `Header.v`): what happens to a reference to a type that is not defined | `MentionSpec.v`: which references stand in a definition, which types are defined, along imports; `MentionProofs.v`: every reference of the sources is still made in the final tree or its type is there, and every type of the final tree is defined in the sources, imported or made up (one lemma per pass); a header is written only if the lookup of each reference ends at a type, which unrolls the imports | partial: modules without object classes, bodies and arguments of templates not covered; values in constraints and imports, enumeration items, unused templates and made-up names are refuted |
| C130 | `fast_ber::Any` (`AnyType.v`: the library's Choice of `Schema.v` at the sixteen types of Any.hpp) | specification: the table `any_holds` in `PropertiesAny.v`; the first alternative with the packet's identifier is found by computation on the table, primitive types by their lemmas on single packets | proved as stated; that ANY takes any value and keeps the alternative are refuted |
| C131 | the whole chain of C122: text, passes, header, generated class, run-time library | specification in `PropertiesSafety.v`: `tagged_members`, `few_members`, `input_for`, `decode_each` (inputs decoded one after the other into one object); that the code is `safe` by induction on the type (`cpp_safe`), then `decode_total`, C41, C124 | partial: what C121/C122 leave out, the limits of `tame`; an untagged CHOICE as a mandatory component, also under AUTOMATIC TAGS if it is referred to (refuted, null pointer) |
| C132 | `RealEq.v`: operator== of Real, statement by statement; IEEE 754 subtraction, multiplication and comparison are those of Coq's SpecFloat (computable, no axioms) | specification in `PropertiesRealEq.v`: the value of a double as a whole number of 2^-1074 (`in_units`), no rounding in it; proved from a bound on SpecFloat's rounding (`round_bound`), that it is monotone (`round_near`), that a difference of close values is exact (`minus_exactly`) and that the tolerance is (`times_units`) | proved for all pairs of doubles: symmetric, reflexive but for NaN, the tolerance (exactly, if a magnitude is at least one); refuted: an infinity equals every finite value, so a DEFAULT component drops it; not transitive |
| C133 | `RealDecimal.v`: decode_real_decimal (Real.cpp): the three regular expressions as such, matched by derivatives; absl::SimpleAtod by what absl documents (reads a number, returns the nearest double) | specification in `DecimalSpec.v`: the three forms of ISO 6093 as an inductive relation between texts and N * 10^E; `nearest_double` compares whole numbers only. `regex_iso` (derivatives, languages), `read_iso`, `round_decimal_nearest` (sticky bit, `round_half`) | proved for all texts; refuted: the form number in the first octet is ignored |
| C134 | `VariantTypes.v`: the type-level functions of DynamicVariantHelpers.hpp as functions on lists of types; overload resolution by a ranking of conversions that is a parameter; get, get_if, visit on the heap of `Dynamic.v`; operations by type become those of `Dynamic.v` by index | induction on the list of types; `C134_after_history` from C65's invariant | refuted for a type that is an alternative twice, a variant moved from, and text given to a variant with bool; otherwise proved |
| C135 | `RealPrint.v`: os << double by what C++ and C11 say of %g with precision 6 (the exact value, in whole numbers) | the text is a number of RFC 8259 standing for N * 10^E, and N * 10^E is the nearest multiple of the unit of the sixth digit: loop invariant for the exponent, digits by induction | refuted for infinities and NaN (not JSON) and for values with more than six digits (printed alike); otherwise proved |

## Trusted base

* Coq 8.16.1's kernel (and `vm_compute`, used in examples and refutations).
* `Print Assumptions` of every theorem `Cnn_*`: "Closed under the global context" (checked for all of them, see
  `tools/assumptions.sh`). No axioms of our own, none of the standard library's are used. (Files load parts of the standard
  library; vcheck lists `Coq.ssr.ssrunder.Under_rel.*`, opaque constants of that library loaded with it, on which no
  theorem depends.)
* The transcription from C++ to Gallina: by reading, no code is executed or extracted. Each definition cites its lines.
* The specifications: `Spec.v`, `SchemaSpec.v`, `CompilerSpec.v`, `NamesSpec.v`, `TreeSpec.v`, `DynamicSpec.v`, `EnumSpec.v`,
  `PassesSpec.v`, `RecSpec.v`, `LexerSpec.v`, `LRSpec.v`, `ParserSource.v`, `ParserText.v`, `ElabSpec.v`, `PrintSpec.v`, `ValueSpec.v`.

## What is modelled and what is not

Modelled (library): Class, Construction, Tag, Identifier (Id, DoubleId, ChoiceId), Extract, EncodeIdentifiers,
EncodeHelpers, DecodeHelpers, BerView, BerViewIterator, BerContainer, FixedIdBerContainer, SmallFixedIdBerContainer, Integer,
Enumerated, Boolean, Null, StringImpl, ObjectIdentifier, Real, GeneralizedTime, Optional, Default, SequenceOf/SetOf, Choice,
DynamicOptional, DynamicVariant, DynamicVariantHelpers.

Modelled (compiler): the generated encode, encoded_length and decode functions (EncodeDecode.cpp), Identifier.cpp,
check_valid of TypeAsString.cpp, the mapping of types to C++ types, GenerateChoice.cpp, santize_name, ValueAsString.cpp,
Dependencies.cpp, ResolveType.cpp, ReorderAssignments.cpp (duplicates, COMPONENTS OF, ordering of assignments and modules,
nested structures, imports), Parameters.cpp, ObjectClass.cpp, the generated enum classes and their to_string
(TypeAsString.cpp, GenerateHelpers.cpp).

Modelled (compiler, front): the lexer, from the generated `autogen_copy/asn_compiler.hpp`: its automaton, its actions, `std::stoll`, the
locations (`int` arithmetic taken as exact); not `std::stod` there (a real number token carries its text; what becomes of it in a header is `RealText.v`).

Modelled (compiler, front): the parser: `asn1_parser::parse` with all its tables, and the actions of all 578 rules, both transcribed by
`tools/gen_parser.py` (trusted: tables are copied number by number, actions are translated one by one in a table of that script);
the loop over the files in CompilerMain.cpp. `tools/gen_parser_cert.py` and `tools/gen_parser_rules.py` are not trusted: what they
write is checked by Coq. Not modelled of it: error messages, debug output, opening files, the exception that `std::stod` throws in the lexer for a number that is too great or too small (in `RealText.v` it is thrown when the header is written).

Modelled (text output): operator<< of views, containers and the primitive types (src/util/BerView.cpp, the headers), the
ber_view tool (src/view/view.cpp), operator<< and operator== of the generated types (GenerateHelpers.cpp, the generated
members). Parameters of it: isprint of a negative char, absl's text of a time. Not: ANY and EXTERNAL members.
Reals: IEEE 754 arithmetic in C132 and C133 is Coq's `SpecFloat` (definitions only, no axioms); of absl::SimpleAtod only the documented
contract is modelled (the nearest double), of std::regex_match that it decides the language of the expression.
Of std::stod and std::to_string(double) (C128) too the documented behaviour is modelled: the nearest double, and printf %f. `CppValues.v` takes a floating-point literal to be the nearest double (as IEEE 754 compilers do).
Of the stream insertion of a double (C135) the documented behaviour is modelled: printf %g with precision 6, correctly rounded; locales and stream flags other than the initial ones are not.

Modelled (generated C++): the declarations of the header and the encode, encoded_length and decode functions, with their names; `CppSpec.v`
says what they mean in C++ (trusted as a reading of the C++ standard: scopes, order, redeclaration, `using`, alias classes). Its check of a
header (`cpp_ok`) looks at names of types and enumerations, not at the types of initializers; their values are the subject of `CppValues.v`
(C128), where `static const` and `constexpr` are not told apart.

Not modelled: the C++ text
generated beyond that (formatting, includes, the "forward" headers); template instantiation; benchmarks and samples; absl's time formatting
beyond calendar fields; exceptions from memory exhaustion; threads (the library has no shared state).

Simplifications, each also noted at its definition: types of `Schema.ty` and `Compiler.aty` are finite trees; recursive ASN.1
types are sets of definitions, whose functions are described by the functions of all deep enough unfoldings (`RecTypes.v`); the C++ call stack is not modelled; left shifts of negative exponents in Real are arithmetic;
`Dynamic.v` has at most one nested member per object, and addresses are not reused; hash maps are lists.

## Wrong programs

`seeded/LOG.jsonl` has one line per edit of a model definition tried in a scratch copy: the definition, the edit, the claim it
breaks, what failed to prove (the first failing lemma or theorem per file; everything depending on it fails too), and what was
tightened when nothing failed.
