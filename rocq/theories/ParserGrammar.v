(** Generated by tools/gen_parser.py from /repo/src/compiler/asn_compiler.yacc 326-1813 (rules) and autogen_copy/asn_compiler.hpp 11385-11480 (yytname_). *)
From Coq Require Import List String.
Import ListNotations.
Local Open Scope string_scope.
(** The symbols in the order of their numbers; the first 153 are tokens. *)
Definition symbol_names : list string := [
  "END_OF_FILE"; "error"; "$undefined"; "comment"; "number"; "negativenumber"; "realnumber"; "bstring"; "xmlbstring"; "hstring";
  "xmlhstring"; "cstring"; "xmlcstring"; "simplestring"; "xmltstring"; "psname"; "encodingreference"; "integerUnicodeLabel";
  "non-integerUnicodeLabel"; "extended-true"; "tstring"; "extended-false"; "objectreference"; "objectsetreference"; "typefieldreference";
  "valuefieldreference"; "valuesetfieldreference"; "objectfieldreference"; "objectsetfieldreference"; "ABSENT"; "ABSTRACT_SYNTAX"; "ALL";
  "ANY"; "APPLICATION"; "ASN_NULL"; "AUTOMATIC"; "BEGIN"; "BIT"; "BMPString"; "BOOLEAN"; "BY"; "CHARACTER"; "CHOICE"; "CLASS"; "COMPONENT";
  "COMPONENTS"; "CONSTRAINED"; "CONTAINING"; "DATE"; "DATE_TIME"; "DEFAULT"; "DEFINITIONS"; "DURATION"; "EMBEDDED"; "ENCODED";
  "ENCODING_CONTROL"; "END"; "ENUMERATED"; "EXCEPT"; "EXPLICIT"; "EXPORTS"; "EXTENSIBILITY"; "EXTERNAL"; "FALSE"; "FROM";
  "GeneralizedTime"; "GeneralString"; "GraphicString"; "IA5String"; "IDENTIFIER"; "IMPLICIT"; "IMPLIED"; "IMPORTS"; "INCLUDES"; "INSTANCE";
  "INSTRUCTIONS"; "INTEGER"; "INTERSECTION"; "ISO646String"; "MAX"; "MIN"; "MINUS_INFINITY"; "NOT_A_NUMBER"; "NumericString"; "OBJECT";
  "ObjectDescriptor"; "OCTET"; "OF"; "OID_IRI"; "OPTIONAL"; "PATTERN"; "PDV"; "PLUS_INFINITY"; "PRESENT"; "PrintableString"; "PRIVATE";
  "REAL"; "RELATIVE_OID"; "RELATIVE_OID_IRI"; "SEQUENCE"; "SET"; "SETTINGS"; "SIZE"; "STRING"; "SYNTAX"; "T61String"; "TAGS";
  "TeletexString"; "TIME"; "TIME_OF_DAY"; "TRUE"; "TYPE_IDENTIFIER"; "UNION"; "UNIQUE"; "UNIVERSAL"; "UniversalString"; "UTCTime";
  "UTF8String"; "VideotexString"; "VisibleString"; "WITH"; "DEFINED_AS"; "ELIPSIS"; "RANGE"; "OPEN_BRACE"; "CLOSE_BRACE";
  "OPEN_PARENTHESIS"; "CLOSE_PARENTHESIS"; "OPEN_SQUARE_BRACKET"; "CLOSE_SQUARE_BRACKET"; "LESS_THAN"; "GREATER_THAN"; "EXCLAMATION_MARK";
  "QUOTATION_MARK"; "AMPERSAND"; "APOSTROPHE"; "ASTERISK"; "COMMA"; "FULL_STOP"; "HYPHEN_MINUS"; "SOLIDUS"; "COLON"; "SEMICOLON";
  "EQUALS_SIGN"; "AT"; "VERTICAL_LINE"; "ACCENT"; "PLUS"; "STAR"; "GENERIC_IDENTIFIER_UPPERCASE"; "GENERIC_IDENTIFIER_LOWERCASE";
  "GENERIC_INTEGER"; "xmlasn1typename"; "$accept"; "ModuleDefinitionList"; "ModuleDefinition"; "SyntaxList"; "DefinedObjectClass";
  "ExternalObjectClassReference"; "UsefulObjectClassReference"; "ObjectClassAssignment"; "ObjectClass"; "ObjectClassDefn"; "FieldSpecList";
  "FieldSpec"; "FieldName"; "FieldNameList"; "TypeFieldSpec"; "OneOrManyTypeFieldReference"; "TypeOptionalitySpec"; "OptionalUnique";
  "FixedTypeValueFieldSpec"; "ValueOptionalitySpec"; "VariableTypeValueFieldSpec"; "FixedTypeValueSetFieldSpec"; "ValueSetDefaultSpec";
  "ObjectFieldSpec"; "ObjectOptionalitySpec"; "ObjectSetFieldSpec"; "ObjectSetOptionalitySpec"; "WithSyntaxSpec"; "TokenOrGroupSpecList";
  "TokenOrGroupSpec"; "OptionalGroup"; "RequiredToken"; "LiteralList"; "Literal"; "DefinedObject"; "ExternalObjectReference"; "Object";
  "ObjectDefn"; "DefaultSyntax"; "FieldSetting"; "DefinedSyntax"; "DefinedSyntaxList"; "DefinedSyntaxToken"; "Setting"; "DefinedObjectSet";
  "ExternalObjectSetReference"; "ObjectSetAssignment"; "ObjectSet"; "ObjectSetSpec"; "ObjectClassFieldType"; "ParameterizedAssignment";
  "ParameterizedTypeAssignment"; "ParameterizedValueAssignment"; "ParameterizedValueSetTypeAssignment";
  "ParameterizedObjectClassAssignment"; "ParameterList"; "ParameterSeries"; "Parameter"; "ParamGovernor"; "Governor"; "ReferencedObjects";
  "TypeFromObject"; "InstanceOfType"; "SimpleDefinedType"; "SimpleDefinedValue"; "GeneralConstraint"; "UserDefinedConstraint";
  "UserDefinedConstraintParameter"; "TableConstraint"; "AtNotationList"; "AtNotation"; "Level"; "ComponentIdList"; "ContentsConstraint";
  "EncodingControlSections"; "ModuleIdentifier"; "DefinitiveIdentification"; "DefinitiveOID"; "DefinitiveOIDandIRI";
  "DefinitiveObjIdComponentList"; "DefinitiveObjIdComponent"; "DefinitiveNumberForm"; "DefinitiveNameAndNumberForm";
  "EncodingReferenceDefault"; "TagDefault"; "ExtensionDefault"; "ModuleBody"; "Exports"; "SymbolsExported"; "Imports"; "SymbolsImported";
  "SymbolsFromModuleList"; "SymbolsFromModule"; "GlobalModuleReference"; "SymbolList"; "Symbol"; "Reference"; "AssignmentList";
  "Assignment"; "DefinedType"; "DefinedValue"; "ParameterizedType"; "ParameterizedValue"; "ActualParameterList"; "ActualParameter";
  "ExternalTypeReference"; "ExternalValueReference"; "TypeAssignment"; "ValueAssignment"; "ValueSetTypeAssignment"; "Type"; "BuiltinType";
  "NamedType"; "ValueWithoutTypeIdentifier"; "Value"; "ValueCommaListChoice"; "ValueChoice"; "ValueSet"; "SequenceOfValues"; "BooleanType";
  "BooleanValue"; "IntegerType"; "NamedNumberList"; "NamedNumber"; "SignedNumber"; "EnumeratedType"; "Enumerations"; "Enumeration";
  "EnumerationItem"; "RealType"; "BitStringType"; "NamedBitList"; "NamedBit"; "OctetStringType"; "NullType"; "SequenceType";
  "ComponentTypeLists"; "ComponentTypeList"; "ComponentType"; "SequenceOfType"; "SetType"; "SetOfType"; "ChoiceType";
  "AlternativeTypeLists"; "RootAlternativeTypeList"; "AlternativeTypeList"; "SelectionType"; "PrefixedType"; "TaggedType"; "Tag";
  "EncodingReference"; "ClassNumber"; "Class"; "ObjectIdentifierType"; "ObjectIdentifierValue"; "ObjIdComponentsList"; "ObjIdComponents";
  "NameForm"; "NumberForm"; "NameAndNumberForm"; "RelativeOIDType"; "IRIType"; "IRIValue"; "FirstArcIdentifier"; "SubsequentArcIdentifier";
  "ArcIdentifier"; "RelativeIRIType"; "EmbeddedPDVType"; "ExternalType"; "TimeType"; "TimeValue"; "DateType"; "TimeOfDayType";
  "DateTimeType"; "DurationType"; "CharacterStringType"; "RestrictedCharacterStringType"; "UnrestrictedCharacterStringType";
  "ConstrainedType"; "TypeWithConstraint"; "Constraint"; "ConstraintSpec"; "SubtypeConstraint"; "ElementSetSpecs"; "ElementSetSpec";
  "Unions"; "UElems"; "Intersections"; "IElems"; "IntersectionElements"; "Elems"; "Exclusions"; "UnionMark"; "IntersectionMark";
  "Elements"; "SubtypeElements"; "SingleValue"; "ContainedSubtype"; "Includes"; "ValueRange"; "LowerEndpoint"; "UpperEndpoint";
  "LowerEndValue"; "UpperEndValue"; "SizeConstraint"; "TypeConstraint"; "PermittedAlphabet"; "InnerTypeConstraints";
  "SingleTypeConstraint"; "MultipleTypeConstraints"; "TypeConstraints"; "NamedConstraint"; "ComponentConstraint"; "ValueConstraint";
  "PresenceConstraint"; "PatternConstraint"; "PropertySettings"; "ExceptionSpec"; "ExceptionIdentification"; "typereference"; "identifier";
  "valuereference"; "modulereference"; "objectclassreference"; "word"].
(** The rules in the order of their numbers, from 1 on: left side and right side. *)
Definition grammar : list (string * list string) := [
  ("$accept", ["ModuleDefinitionList"; "END_OF_FILE"]);  (* 1: line 327 *)
  ("ModuleDefinitionList", ["ModuleDefinition"]);  (* 2: line 326 *)
  ("ModuleDefinitionList", ["ModuleDefinition"; "ModuleDefinitionList"]);  (* 3: line 328 *)
  ("ModuleDefinition", ["ModuleIdentifier"; "DEFINITIONS"; "EncodingReferenceDefault"; "TagDefault"; "ExtensionDefault"; "DEFINED_AS"; "BEGIN"; "ModuleBody"; "EncodingControlSections"; "END"]);  (* 4: line 330 *)
  ("SyntaxList", ["OPEN_BRACE"; "TokenOrGroupSpecList"; "CLOSE_BRACE"]);  (* 5: line 345 *)
  ("DefinedObjectClass", ["ExternalObjectClassReference"]);  (* 6: line 348 *)
  ("DefinedObjectClass", ["objectclassreference"]);  (* 7: line 350 *)
  ("DefinedObjectClass", ["UsefulObjectClassReference"]);  (* 8: line 351 *)
  ("ExternalObjectClassReference", ["modulereference"; "FULL_STOP"; "objectclassreference"]);  (* 9: line 353 *)
  ("UsefulObjectClassReference", ["TYPE_IDENTIFIER"]);  (* 10: line 356 *)
  ("UsefulObjectClassReference", ["ABSTRACT_SYNTAX"]);  (* 11: line 359 *)
  ("ObjectClassAssignment", ["typereference"; "DEFINED_AS"; "ObjectClass"]);  (* 12: line 362 *)
  ("ObjectClass", ["DefinedObjectClass"]);  (* 13: line 366 *)
  ("ObjectClass", ["ObjectClassDefn"]);  (* 14: line 369 *)
  ("ObjectClassDefn", ["CLASS"; "OPEN_BRACE"; "FieldSpecList"; "CLOSE_BRACE"; "WithSyntaxSpec"]);  (* 15: line 373 *)
  ("FieldSpecList", ["FieldSpec"]);  (* 16: line 377 *)
  ("FieldSpecList", ["FieldSpecList"; "COMMA"; "FieldSpec"]);  (* 17: line 380 *)
  ("FieldSpec", ["TypeFieldSpec"]);  (* 18: line 383 *)
  ("FieldSpec", ["FixedTypeValueFieldSpec"]);  (* 19: line 386 *)
  ("FieldSpec", ["VariableTypeValueFieldSpec"]);  (* 20: line 388 *)
  ("FieldSpec", ["FixedTypeValueSetFieldSpec"]);  (* 21: line 389 *)
  ("FieldSpec", ["ObjectFieldSpec"]);  (* 22: line 390 *)
  ("FieldSpec", ["ObjectSetFieldSpec"]);  (* 23: line 391 *)
  ("FieldName", ["typefieldreference"]);  (* 24: line 393 *)
  ("FieldName", ["valuefieldreference"]);  (* 25: line 396 *)
  ("FieldNameList", ["FieldName"]);  (* 26: line 403 *)
  ("FieldNameList", ["FieldNameList"; "FULL_STOP"; "FieldName"]);  (* 27: line 406 *)
  ("TypeFieldSpec", ["OneOrManyTypeFieldReference"; "TypeOptionalitySpec"]);  (* 28: line 409 *)
  ("OneOrManyTypeFieldReference", ["typefieldreference"]);  (* 29: line 413 *)
  ("OneOrManyTypeFieldReference", ["OneOrManyTypeFieldReference"; "typefieldreference"]);  (* 30: line 416 *)
  ("TypeOptionalitySpec", ["OPTIONAL"]);  (* 31: line 419 *)
  ("TypeOptionalitySpec", ["DEFAULT"; "Type"]);  (* 32: line 421 *)
  ("TypeOptionalitySpec", []);  (* 33: line 422 *)
  ("OptionalUnique", ["OPTIONAL"]);  (* 34: line 424 *)
  ("OptionalUnique", ["UNIQUE"]);  (* 35: line 426 *)
  ("OptionalUnique", []);  (* 36: line 427 *)
  ("FixedTypeValueFieldSpec", ["valuefieldreference"; "Type"; "OptionalUnique"; "ValueOptionalitySpec"]);  (* 37: line 429 *)
  ("ValueOptionalitySpec", ["OPTIONAL"]);  (* 38: line 433 *)
  ("ValueOptionalitySpec", ["DEFAULT"; "SingleValue"]);  (* 39: line 435 *)
  ("ValueOptionalitySpec", []);  (* 40: line 436 *)
  ("VariableTypeValueFieldSpec", ["valuefieldreference"; "FieldName"; "OptionalUnique"; "ValueOptionalitySpec"]);  (* 41: line 438 *)
  ("FixedTypeValueSetFieldSpec", ["typefieldreference"; "Type"; "OptionalUnique"; "ValueSetDefaultSpec"]);  (* 42: line 441 *)
  ("ValueSetDefaultSpec", ["OPTIONAL"]);  (* 43: line 444 *)
  ("ValueSetDefaultSpec", ["DEFAULT"; "ValueSet"]);  (* 44: line 446 *)
  ("ValueSetDefaultSpec", []);  (* 45: line 447 *)
  ("ObjectFieldSpec", ["typefieldreference"; "DefinedObjectClass"; "ObjectOptionalitySpec"]);  (* 46: line 449 *)
  ("ObjectOptionalitySpec", ["OPTIONAL"]);  (* 47: line 452 *)
  ("ObjectOptionalitySpec", ["DEFAULT"; "Object"]);  (* 48: line 454 *)
  ("ObjectOptionalitySpec", []);  (* 49: line 455 *)
  ("ObjectSetFieldSpec", ["objectsetfieldreference"; "DefinedObjectClass"; "ObjectSetOptionalitySpec"]);  (* 50: line 457 *)
  ("ObjectSetOptionalitySpec", ["OPTIONAL"]);  (* 51: line 460 *)
  ("ObjectSetOptionalitySpec", ["DEFAULT"]);  (* 52: line 462 *)
  ("ObjectSetOptionalitySpec", []);  (* 53: line 463 *)
  ("WithSyntaxSpec", ["WITH"; "SYNTAX"; "SyntaxList"]);  (* 54: line 468 *)
  ("WithSyntaxSpec", []);  (* 55: line 470 *)
  ("TokenOrGroupSpecList", ["TokenOrGroupSpec"]);  (* 56: line 472 *)
  ("TokenOrGroupSpecList", ["TokenOrGroupSpecList"; "TokenOrGroupSpec"]);  (* 57: line 474 *)
  ("TokenOrGroupSpec", ["RequiredToken"]);  (* 58: line 476 *)
  ("TokenOrGroupSpec", ["OptionalGroup"]);  (* 59: line 478 *)
  ("OptionalGroup", ["OPEN_SQUARE_BRACKET"; "TokenOrGroupSpecList"; "CLOSE_SQUARE_BRACKET"]);  (* 60: line 480 *)
  ("RequiredToken", ["LiteralList"; "FieldName"]);  (* 61: line 483 *)
  ("LiteralList", ["Literal"]);  (* 62: line 486 *)
  ("LiteralList", ["LiteralList"; "Literal"]);  (* 63: line 488 *)
  ("LiteralList", []);  (* 64: line 489 *)
  ("Literal", ["word"]);  (* 65: line 491 *)
  ("Literal", ["COMMA"]);  (* 66: line 493 *)
  ("DefinedObject", ["ExternalObjectReference"]);  (* 67: line 495 *)
  ("DefinedObject", ["objectreference"]);  (* 68: line 497 *)
  ("ExternalObjectReference", ["modulereference"; "FULL_STOP"; "objectreference"]);  (* 69: line 499 *)
  ("Object", ["DefinedObject"]);  (* 70: line 505 *)
  ("Object", ["ObjectDefn"]);  (* 71: line 507 *)
  ("ObjectDefn", ["DefaultSyntax"]);  (* 72: line 511 *)
  ("ObjectDefn", ["DefinedSyntax"]);  (* 73: line 513 *)
  ("DefaultSyntax", ["OPEN_BRACE"; "FieldSetting"; "COMMA"; "STAR"; "CLOSE_BRACE"]);  (* 74: line 515 *)
  ("FieldSetting", ["FieldName"; "Setting"]);  (* 75: line 518 *)
  ("DefinedSyntax", ["OPEN_BRACE"; "DefinedSyntaxList"; "CLOSE_BRACE"]);  (* 76: line 521 *)
  ("DefinedSyntaxList", ["DefinedSyntaxToken"]);  (* 77: line 524 *)
  ("DefinedSyntaxList", ["DefinedSyntaxList"; "DefinedSyntaxToken"]);  (* 78: line 526 *)
  ("DefinedSyntaxToken", ["Literal"]);  (* 79: line 528 *)
  ("DefinedSyntaxToken", ["Setting"]);  (* 80: line 530 *)
  ("Setting", ["Type"]);  (* 81: line 532 *)
  ("Setting", ["Value"]);  (* 82: line 534 *)
  ("DefinedObjectSet", ["ExternalObjectSetReference"]);  (* 83: line 537 *)
  ("DefinedObjectSet", ["typereference"]);  (* 84: line 539 *)
  ("ExternalObjectSetReference", ["modulereference"; "FULL_STOP"; "typereference"]);  (* 85: line 541 *)
  ("ObjectSetAssignment", ["typereference"; "DefinedObjectSet"; "DEFINED_AS"; "ObjectSet"]);  (* 86: line 544 *)
  ("ObjectSet", ["OPEN_BRACE"; "ObjectSetSpec"; "CLOSE_BRACE"]);  (* 87: line 548 *)
  ("ObjectSetSpec", ["ElementSetSpec"]);  (* 88: line 551 *)
  ("ObjectSetSpec", ["ElementSetSpec"; "COMMA"; "ELIPSIS"]);  (* 89: line 553 *)
  ("ObjectSetSpec", ["ELIPSIS"]);  (* 90: line 554 *)
  ("ObjectSetSpec", ["ELIPSIS"; "COMMA"; "ElementSetSpec"]);  (* 91: line 555 *)
  ("ObjectSetSpec", ["ElementSetSpec"; "COMMA"; "ELIPSIS"; "COMMA"; "ElementSetSpec"]);  (* 92: line 556 *)
  ("ObjectClassFieldType", ["UsefulObjectClassReference"; "FULL_STOP"; "FieldNameList"]);  (* 93: line 564 *)
  ("ObjectClassFieldType", ["typereference"; "FULL_STOP"; "FieldNameList"]);  (* 94: line 567 *)
  ("ParameterizedAssignment", ["ParameterizedTypeAssignment"]);  (* 95: line 573 *)
  ("ParameterizedAssignment", ["ParameterizedValueAssignment"]);  (* 96: line 576 *)
  ("ParameterizedAssignment", ["ParameterizedValueSetTypeAssignment"]);  (* 97: line 578 *)
  ("ParameterizedAssignment", ["ParameterizedObjectClassAssignment"]);  (* 98: line 580 *)
  ("ParameterizedTypeAssignment", ["typereference"; "ParameterList"; "DEFINED_AS"; "Type"]);  (* 99: line 586 *)
  ("ParameterizedValueAssignment", ["valuereference"; "ParameterList"; "Type"; "DEFINED_AS"; "Value"]);  (* 100: line 590 *)
  ("ParameterizedValueSetTypeAssignment", ["typereference"; "ParameterList"; "Type"; "DEFINED_AS"; "Value"]);  (* 101: line 594 *)
  ("ParameterizedObjectClassAssignment", ["typereference"; "ParameterList"; "DEFINED_AS"; "ObjectClass"]);  (* 102: line 598 *)
  ("ParameterList", ["OPEN_BRACE"; "ParameterSeries"; "CLOSE_BRACE"]);  (* 103: line 610 *)
  ("ParameterSeries", ["Parameter"]);  (* 104: line 614 *)
  ("ParameterSeries", ["ParameterSeries"; "COMMA"; "Parameter"]);  (* 105: line 617 *)
  ("Parameter", ["ParamGovernor"; "COLON"; "Reference"]);  (* 106: line 620 *)
  ("Parameter", ["Reference"]);  (* 107: line 623 *)
  ("ParamGovernor", ["Governor"]);  (* 108: line 626 *)
  ("ParamGovernor", ["Reference"]);  (* 109: line 629 *)
  ("Governor", ["Type"]);  (* 110: line 632 *)
  ("Governor", ["DefinedObjectClass"]);  (* 111: line 635 *)
  ("ReferencedObjects", ["DefinedObject"]);  (* 112: line 650 *)
  ("TypeFromObject", ["ReferencedObjects"; "FULL_STOP"; "FieldNameList"]);  (* 113: line 662 *)
  ("InstanceOfType", ["INSTANCE"; "OF"; "DefinedObjectClass"]);  (* 114: line 671 *)
  ("SimpleDefinedType", ["ExternalTypeReference"]);  (* 115: line 679 *)
  ("SimpleDefinedType", ["typereference"]);  (* 116: line 681 *)
  ("SimpleDefinedValue", ["ExternalValueReference"]);  (* 117: line 684 *)
  ("SimpleDefinedValue", ["valuereference"]);  (* 118: line 686 *)
  ("GeneralConstraint", ["UserDefinedConstraint"]);  (* 119: line 688 *)
  ("GeneralConstraint", ["TableConstraint"]);  (* 120: line 690 *)
  ("GeneralConstraint", ["ContentsConstraint"]);  (* 121: line 691 *)
  ("UserDefinedConstraint", ["CONSTRAINED"; "BY"; "OPEN_BRACE"; "UserDefinedConstraintParameter"; "CLOSE_BRACE"]);  (* 122: line 693 *)
  ("UserDefinedConstraintParameter", ["Governor"; "COLON"; "Value"]);  (* 123: line 698 *)
  ("UserDefinedConstraintParameter", ["Governor"; "COLON"; "Object"]);  (* 124: line 700 *)
  ("UserDefinedConstraintParameter", ["DefinedObjectSet"]);  (* 125: line 701 *)
  ("UserDefinedConstraintParameter", ["Type"]);  (* 126: line 702 *)
  ("UserDefinedConstraintParameter", ["DefinedObjectClass"]);  (* 127: line 703 *)
  ("UserDefinedConstraintParameter", ["ELIPSIS"]);  (* 128: line 704 *)
  ("UserDefinedConstraintParameter", []);  (* 129: line 705 *)
  ("TableConstraint", ["ObjectSet"]);  (* 130: line 707 *)
  ("TableConstraint", ["ObjectSet"; "OPEN_BRACE"; "AtNotationList"; "CLOSE_BRACE"]);  (* 131: line 710 *)
  ("AtNotationList", ["AtNotation"]);  (* 132: line 713 *)
  ("AtNotationList", ["AtNotationList"; "COMMA"; "AtNotation"]);  (* 133: line 715 *)
  ("AtNotation", ["AT"; "ComponentIdList"]);  (* 134: line 717 *)
  ("AtNotation", ["AT"; "FULL_STOP"; "Level"; "ComponentIdList"]);  (* 135: line 719 *)
  ("Level", ["FULL_STOP"; "Level"]);  (* 136: line 721 *)
  ("Level", []);  (* 137: line 723 *)
  ("ComponentIdList", ["identifier"]);  (* 138: line 725 *)
  ("ComponentIdList", ["ComponentIdList"; "FULL_STOP"; "identifier"]);  (* 139: line 727 *)
  ("ContentsConstraint", ["CONTAINING"; "Type"]);  (* 140: line 729 *)
  ("ContentsConstraint", ["ENCODED"; "BY"; "Value"]);  (* 141: line 731 *)
  ("ContentsConstraint", ["CONTAINING"; "Type"; "ENCODED"; "BY"; "Value"]);  (* 142: line 732 *)
  ("EncodingControlSections", []);  (* 143: line 740 *)
  ("ModuleIdentifier", ["modulereference"; "DefinitiveIdentification"]);  (* 144: line 750 *)
  ("DefinitiveIdentification", ["DefinitiveOID"]);  (* 145: line 757 *)
  ("DefinitiveIdentification", ["DefinitiveOIDandIRI"]);  (* 146: line 759 *)
  ("DefinitiveIdentification", []);  (* 147: line 760 *)
  ("DefinitiveOID", ["OPEN_BRACE"; "DefinitiveObjIdComponentList"; "CLOSE_BRACE"]);  (* 148: line 762 *)
  ("DefinitiveOIDandIRI", ["DefinitiveOID"; "IRIValue"]);  (* 149: line 765 *)
  ("DefinitiveObjIdComponentList", ["DefinitiveObjIdComponent"]);  (* 150: line 769 *)
  ("DefinitiveObjIdComponentList", ["DefinitiveObjIdComponent"; "DefinitiveObjIdComponentList"]);  (* 151: line 771 *)
  ("DefinitiveObjIdComponent", ["NameForm"]);  (* 152: line 774 *)
  ("DefinitiveObjIdComponent", ["DefinitiveNumberForm"]);  (* 153: line 776 *)
  ("DefinitiveObjIdComponent", ["DefinitiveNameAndNumberForm"]);  (* 154: line 777 *)
  ("DefinitiveNumberForm", ["number"]);  (* 155: line 779 *)
  ("DefinitiveNameAndNumberForm", ["identifier"; "OPEN_PARENTHESIS"; "DefinitiveNumberForm"; "CLOSE_PARENTHESIS"]);  (* 156: line 782 *)
  ("EncodingReferenceDefault", ["encodingreference"; "INSTRUCTIONS"]);  (* 157: line 786 *)
  ("EncodingReferenceDefault", []);  (* 158: line 788 *)
  ("TagDefault", ["EXPLICIT"; "TAGS"]);  (* 159: line 790 *)
  ("TagDefault", ["IMPLICIT"; "TAGS"]);  (* 160: line 793 *)
  ("TagDefault", ["AUTOMATIC"; "TAGS"]);  (* 161: line 795 *)
  ("TagDefault", []);  (* 162: line 797 *)
  ("ExtensionDefault", ["EXTENSIBILITY"; "IMPLIED"]);  (* 163: line 800 *)
  ("ExtensionDefault", []);  (* 164: line 802 *)
  ("ModuleBody", ["Exports"; "Imports"; "AssignmentList"]);  (* 165: line 804 *)
  ("ModuleBody", []);  (* 166: line 807 *)
  ("Exports", ["EXPORTS"; "SymbolsExported"; "SEMICOLON"]);  (* 167: line 810 *)
  ("Exports", ["EXPORTS"; "ALL"; "SEMICOLON"]);  (* 168: line 812 *)
  ("Exports", []);  (* 169: line 813 *)
  ("SymbolsExported", ["SymbolList"]);  (* 170: line 815 *)
  ("SymbolsExported", []);  (* 171: line 817 *)
  ("Imports", ["IMPORTS"; "SymbolsImported"; "SEMICOLON"]);  (* 172: line 819 *)
  ("Imports", []);  (* 173: line 822 *)
  ("SymbolsImported", ["SymbolsFromModuleList"]);  (* 174: line 824 *)
  ("SymbolsImported", []);  (* 175: line 827 *)
  ("SymbolsFromModuleList", ["SymbolsFromModule"]);  (* 176: line 829 *)
  ("SymbolsFromModuleList", ["SymbolsFromModuleList"; "SymbolsFromModule"]);  (* 177: line 832 *)
  ("SymbolsFromModule", ["SymbolList"; "FROM"; "GlobalModuleReference"]);  (* 178: line 835 *)
  ("GlobalModuleReference", ["modulereference"]);  (* 179: line 851 *)
  ("GlobalModuleReference", ["modulereference"; "ObjectIdentifierValue"]);  (* 180: line 854 *)
  ("SymbolList", ["Symbol"]);  (* 181: line 859 *)
  ("SymbolList", ["SymbolList"; "COMMA"; "Symbol"]);  (* 182: line 862 *)
  ("Symbol", ["Reference"]);  (* 183: line 865 *)
  ("Reference", ["typereference"]);  (* 184: line 869 *)
  ("Reference", ["typereference"; "OPEN_BRACE"; "CLOSE_BRACE"]);  (* 185: line 872 *)
  ("Reference", ["valuereference"]);  (* 186: line 874 *)
  ("AssignmentList", ["Assignment"]);  (* 187: line 882 *)
  ("AssignmentList", ["Assignment"; "AssignmentList"]);  (* 188: line 885 *)
  ("Assignment", ["TypeAssignment"]);  (* 189: line 888 *)
  ("Assignment", ["ValueAssignment"]);  (* 190: line 891 *)
  ("Assignment", ["ObjectClassAssignment"]);  (* 191: line 893 *)
  ("Assignment", ["ValueSetTypeAssignment"]);  (* 192: line 895 *)
  ("Assignment", ["ObjectSetAssignment"]);  (* 193: line 898 *)
  ("Assignment", ["ParameterizedAssignment"]);  (* 194: line 900 *)
  ("DefinedType", ["ExternalTypeReference"]);  (* 195: line 903 *)
  ("DefinedType", ["typereference"]);  (* 196: line 906 *)
  ("DefinedType", ["ParameterizedType"]);  (* 197: line 908 *)
  ("DefinedValue", ["valuereference"]);  (* 198: line 912 *)
  ("DefinedValue", ["ParameterizedValue"]);  (* 199: line 916 *)
  ("ParameterizedType", ["SimpleDefinedType"; "OPEN_BRACE"; "ActualParameterList"; "CLOSE_BRACE"]);  (* 200: line 918 *)
  ("ParameterizedValue", ["SimpleDefinedValue"; "OPEN_BRACE"; "ActualParameterList"; "CLOSE_BRACE"]);  (* 201: line 922 *)
  ("ActualParameterList", ["ActualParameter"]);  (* 202: line 925 *)
  ("ActualParameterList", ["ActualParameter"; "COMMA"; "ActualParameterList"]);  (* 203: line 928 *)
  ("ActualParameter", ["Type"]);  (* 204: line 931 *)
  ("ActualParameter", ["ValueWithoutTypeIdentifier"]);  (* 205: line 934 *)
  ("ActualParameter", ["DefinedObjectClass"]);  (* 206: line 937 *)
  ("ExternalTypeReference", ["typereference"; "FULL_STOP"; "typereference"]);  (* 207: line 946 *)
  ("ExternalValueReference", ["modulereference"; "FULL_STOP"; "valuereference"]);  (* 208: line 950 *)
  ("TypeAssignment", ["typereference"; "DEFINED_AS"; "Type"]);  (* 209: line 975 *)
  ("ValueAssignment", ["valuereference"; "Type"; "DEFINED_AS"; "Value"]);  (* 210: line 979 *)
  ("ValueSetTypeAssignment", ["typereference"; "Type"; "DEFINED_AS"; "ValueSet"]);  (* 211: line 983 *)
  ("Type", ["BuiltinType"]);  (* 212: line 987 *)
  ("Type", ["ConstrainedType"]);  (* 213: line 990 *)
  ("Type", ["DefinedType"]);  (* 214: line 992 *)
  ("Type", ["SelectionType"]);  (* 215: line 994 *)
  ("Type", ["TypeFromObject"]);  (* 216: line 996 *)
  ("BuiltinType", ["ANY"]);  (* 217: line 1000 *)
  ("BuiltinType", ["BitStringType"]);  (* 218: line 1002 *)
  ("BuiltinType", ["BooleanType"]);  (* 219: line 1003 *)
  ("BuiltinType", ["CharacterStringType"]);  (* 220: line 1004 *)
  ("BuiltinType", ["ChoiceType"]);  (* 221: line 1005 *)
  ("BuiltinType", ["DateType"]);  (* 222: line 1006 *)
  ("BuiltinType", ["DateTimeType"]);  (* 223: line 1007 *)
  ("BuiltinType", ["DurationType"]);  (* 224: line 1008 *)
  ("BuiltinType", ["EmbeddedPDVType"]);  (* 225: line 1009 *)
  ("BuiltinType", ["EnumeratedType"]);  (* 226: line 1010 *)
  ("BuiltinType", ["ExternalType"]);  (* 227: line 1011 *)
  ("BuiltinType", ["GeneralizedTime"]);  (* 228: line 1012 *)
  ("BuiltinType", ["InstanceOfType"]);  (* 229: line 1013 *)
  ("BuiltinType", ["IntegerType"]);  (* 230: line 1014 *)
  ("BuiltinType", ["IRIType"]);  (* 231: line 1015 *)
  ("BuiltinType", ["NullType"]);  (* 232: line 1016 *)
  ("BuiltinType", ["ObjectClassFieldType"]);  (* 233: line 1017 *)
  ("BuiltinType", ["ObjectDescriptor"]);  (* 234: line 1018 *)
  ("BuiltinType", ["ObjectIdentifierType"]);  (* 235: line 1019 *)
  ("BuiltinType", ["OctetStringType"]);  (* 236: line 1020 *)
  ("BuiltinType", ["RealType"]);  (* 237: line 1021 *)
  ("BuiltinType", ["RelativeIRIType"]);  (* 238: line 1022 *)
  ("BuiltinType", ["RelativeOIDType"]);  (* 239: line 1023 *)
  ("BuiltinType", ["SequenceType"]);  (* 240: line 1024 *)
  ("BuiltinType", ["SequenceOfType"]);  (* 241: line 1025 *)
  ("BuiltinType", ["SetType"]);  (* 242: line 1026 *)
  ("BuiltinType", ["SetOfType"]);  (* 243: line 1027 *)
  ("BuiltinType", ["PrefixedType"]);  (* 244: line 1028 *)
  ("BuiltinType", ["TimeType"]);  (* 245: line 1029 *)
  ("BuiltinType", ["TimeOfDayType"]);  (* 246: line 1030 *)
  ("BuiltinType", ["UTCTime"]);  (* 247: line 1031 *)
  ("NamedType", ["identifier"; "Type"]);  (* 248: line 1033 *)
  ("ValueWithoutTypeIdentifier", ["BooleanValue"]);  (* 249: line 1037 *)
  ("ValueWithoutTypeIdentifier", ["IRIValue"]);  (* 250: line 1040 *)
  ("ValueWithoutTypeIdentifier", ["ASN_NULL"]);  (* 251: line 1042 *)
  ("ValueWithoutTypeIdentifier", ["TimeValue"]);  (* 252: line 1044 *)
  ("ValueWithoutTypeIdentifier", ["bstring"]);  (* 253: line 1046 *)
  ("ValueWithoutTypeIdentifier", ["hstring"]);  (* 254: line 1048 *)
  ("ValueWithoutTypeIdentifier", ["cstring"]);  (* 255: line 1050 *)
  ("ValueWithoutTypeIdentifier", ["CONTAINING"; "Value"]);  (* 256: line 1052 *)
  ("ValueWithoutTypeIdentifier", ["DefinedValue"]);  (* 257: line 1054 *)
  ("ValueWithoutTypeIdentifier", ["GENERIC_IDENTIFIER_LOWERCASE"; "OPEN_PARENTHESIS"; "number"; "CLOSE_PARENTHESIS"]);  (* 258: line 1056 *)
  ("ValueWithoutTypeIdentifier", ["COLON"]);  (* 259: line 1058 *)
  ("ValueWithoutTypeIdentifier", ["SignedNumber"]);  (* 260: line 1059 *)
  ("ValueWithoutTypeIdentifier", ["realnumber"]);  (* 261: line 1061 *)
  ("ValueWithoutTypeIdentifier", ["ObjectClassFieldType"]);  (* 262: line 1063 *)
  ("ValueWithoutTypeIdentifier", ["Value"; "COLON"; "Value"]);  (* 263: line 1065 *)
  ("ValueWithoutTypeIdentifier", ["valuereference"; "FULL_STOP"; "typefieldreference"]);  (* 264: line 1069 *)
  ("ValueWithoutTypeIdentifier", ["valuereference"; "FULL_STOP"; "valuefieldreference"]);  (* 265: line 1070 *)
  ("ValueWithoutTypeIdentifier", ["typefieldreference"]);  (* 266: line 1071 *)
  ("ValueWithoutTypeIdentifier", ["valuefieldreference"]);  (* 267: line 1072 *)
  ("ValueWithoutTypeIdentifier", ["OPEN_BRACE"; "SequenceOfValues"; "CLOSE_BRACE"]);  (* 268: line 1073 *)
  ("ValueWithoutTypeIdentifier", ["ValueChoice"]);  (* 269: line 1075 *)
  ("ValueWithoutTypeIdentifier", ["OPTIONAL"]);  (* 270: line 1077 *)
  ("ValueWithoutTypeIdentifier", ["ValueCommaListChoice"]);  (* 271: line 1079 *)
  ("ValueWithoutTypeIdentifier", ["BY"]);  (* 272: line 1081 *)
  ("ValueWithoutTypeIdentifier", ["WITH"]);  (* 273: line 1083 *)
  ("Value", ["ValueWithoutTypeIdentifier"]);  (* 274: line 1087 *)
  ("Value", ["GENERIC_IDENTIFIER_UPPERCASE"]);  (* 275: line 1090 *)
  ("Value", ["INTEGER"]);  (* 276: line 1092 *)
  ("ValueCommaListChoice", ["Value"; "COMMA"; "Value"]);  (* 277: line 1094 *)
  ("ValueCommaListChoice", ["ValueCommaListChoice"; "COMMA"; "Value"]);  (* 278: line 1096 *)
  ("ValueChoice", ["Value"; "VERTICAL_LINE"; "Value"]);  (* 279: line 1098 *)
  ("ValueChoice", ["ValueChoice"; "VERTICAL_LINE"; "Value"]);  (* 280: line 1100 *)
  ("ValueSet", ["OPEN_BRACE"; "ElementSetSpecs"; "CLOSE_BRACE"]);  (* 281: line 1102 *)
  ("SequenceOfValues", ["Value"]);  (* 282: line 1105 *)
  ("SequenceOfValues", ["SequenceOfValues"; "Value"]);  (* 283: line 1108 *)
  ("BooleanType", ["BOOLEAN"]);  (* 284: line 1115 *)
  ("BooleanValue", ["TRUE"]);  (* 285: line 1118 *)
  ("BooleanValue", ["FALSE"]);  (* 286: line 1121 *)
  ("IntegerType", ["INTEGER"]);  (* 287: line 1124 *)
  ("IntegerType", ["INTEGER"; "OPEN_BRACE"; "NamedNumberList"; "CLOSE_BRACE"]);  (* 288: line 1127 *)
  ("NamedNumberList", ["NamedNumber"]);  (* 289: line 1130 *)
  ("NamedNumberList", ["NamedNumberList"; "COMMA"; "NamedNumber"]);  (* 290: line 1133 *)
  ("NamedNumber", ["identifier"; "OPEN_PARENTHESIS"; "SignedNumber"; "CLOSE_PARENTHESIS"]);  (* 291: line 1136 *)
  ("NamedNumber", ["identifier"; "OPEN_PARENTHESIS"; "DefinedValue"; "CLOSE_PARENTHESIS"]);  (* 292: line 1139 *)
  ("SignedNumber", ["number"]);  (* 293: line 1142 *)
  ("SignedNumber", ["negativenumber"]);  (* 294: line 1145 *)
  ("EnumeratedType", ["ENUMERATED"; "OPEN_BRACE"; "Enumerations"; "CLOSE_BRACE"]);  (* 295: line 1148 *)
  ("Enumerations", ["Enumeration"]);  (* 296: line 1152 *)
  ("Enumerations", ["Enumeration"; "COMMA"; "ELIPSIS"; "ExceptionSpec"]);  (* 297: line 1156 *)
  ("Enumerations", ["Enumeration"; "COMMA"; "ELIPSIS"; "ExceptionSpec"; "COMMA"; "Enumeration"]);  (* 298: line 1159 *)
  ("Enumerations", ["ELIPSIS"; "ExceptionSpec"]);  (* 299: line 1163 *)
  ("Enumeration", ["EnumerationItem"]);  (* 300: line 1165 *)
  ("Enumeration", ["Enumeration"; "COMMA"; "EnumerationItem"]);  (* 301: line 1168 *)
  ("EnumerationItem", ["identifier"]);  (* 302: line 1171 *)
  ("EnumerationItem", ["NamedNumber"]);  (* 303: line 1174 *)
  ("RealType", ["REAL"]);  (* 304: line 1181 *)
  ("BitStringType", ["BIT"; "STRING"]);  (* 305: line 1184 *)
  ("BitStringType", ["BIT"; "STRING"; "OPEN_BRACE"; "NamedBitList"; "CLOSE_BRACE"]);  (* 306: line 1187 *)
  ("NamedBitList", ["NamedBit"]);  (* 307: line 1190 *)
  ("NamedBitList", ["NamedBitList"; "COMMA"; "NamedBit"]);  (* 308: line 1192 *)
  ("NamedBit", ["identifier"; "OPEN_PARENTHESIS"; "number"; "CLOSE_PARENTHESIS"]);  (* 309: line 1194 *)
  ("NamedBit", ["identifier"; "OPEN_PARENTHESIS"; "DefinedValue"; "CLOSE_PARENTHESIS"]);  (* 310: line 1196 *)
  ("OctetStringType", ["OCTET"; "STRING"]);  (* 311: line 1209 *)
  ("NullType", ["ASN_NULL"]);  (* 312: line 1212 *)
  ("SequenceType", ["SEQUENCE"; "OPEN_BRACE"; "CLOSE_BRACE"]);  (* 313: line 1215 *)
  ("SequenceType", ["SEQUENCE"; "OPEN_BRACE"; "ComponentTypeLists"; "CLOSE_BRACE"]);  (* 314: line 1218 *)
  ("ComponentTypeLists", ["ComponentTypeList"]);  (* 315: line 1221 *)
  ("ComponentTypeLists", ["ComponentTypeList"; "COMMA"; "ELIPSIS"; "ExceptionSpec"]);  (* 316: line 1224 *)
  ("ComponentTypeLists", ["ComponentTypeList"; "COMMA"; "ELIPSIS"; "ExceptionSpec"; "COMMA"; "ComponentTypeList"]);  (* 317: line 1227 *)
  ("ComponentTypeLists", ["ComponentTypeList"; "COMMA"; "ELIPSIS"; "ExceptionSpec"; "COMMA"; "ComponentTypeList"; "COMMA"; "ELIPSIS"]);  (* 318: line 1231 *)
  ("ComponentTypeLists", ["ComponentTypeList"; "COMMA"; "ELIPSIS"; "ExceptionSpec"; "COMMA"; "ComponentTypeList"; "COMMA"; "ELIPSIS"; "COMMA"; "ComponentTypeList"]);  (* 319: line 1235 *)
  ("ComponentTypeLists", ["ELIPSIS"; "ExceptionSpec"; "COMMA"; "ComponentTypeList"]);  (* 320: line 1240 *)
  ("ComponentTypeLists", ["ELIPSIS"; "ExceptionSpec"; "COMMA"; "ComponentTypeList"; "COMMA"; "ELIPSIS"]);  (* 321: line 1243 *)
  ("ComponentTypeLists", ["ELIPSIS"; "ExceptionSpec"]);  (* 322: line 1246 *)
  ("ComponentTypeLists", ["ELIPSIS"; "ExceptionSpec"; "COMMA"; "ELIPSIS"]);  (* 323: line 1249 *)
  ("ComponentTypeList", ["ComponentType"]);  (* 324: line 1253 *)
  ("ComponentTypeList", ["ComponentTypeList"; "COMMA"; "ComponentType"]);  (* 325: line 1256 *)
  ("ComponentType", ["Type"]);  (* 326: line 1259 *)
  ("ComponentType", ["Type"; "OPTIONAL"]);  (* 327: line 1263 *)
  ("ComponentType", ["Type"; "DEFAULT"; "SingleValue"]);  (* 328: line 1266 *)
  ("ComponentType", ["NamedType"]);  (* 329: line 1269 *)
  ("ComponentType", ["NamedType"; "OPTIONAL"]);  (* 330: line 1271 *)
  ("ComponentType", ["NamedType"; "DEFAULT"; "SingleValue"]);  (* 331: line 1273 *)
  ("ComponentType", ["COMPONENTS"; "OF"; "Type"]);  (* 332: line 1275 *)
  ("SequenceOfType", ["SEQUENCE"; "OF"; "Type"]);  (* 333: line 1286 *)
  ("SequenceOfType", ["SEQUENCE"; "OF"; "NamedType"]);  (* 334: line 1289 *)
  ("SetType", ["SET"; "OPEN_BRACE"; "CLOSE_BRACE"]);  (* 335: line 1292 *)
  ("SetType", ["SET"; "OPEN_BRACE"; "ComponentTypeLists"; "CLOSE_BRACE"]);  (* 336: line 1295 *)
  ("SetOfType", ["SET"; "OF"; "Type"]);  (* 337: line 1298 *)
  ("SetOfType", ["SET"; "OF"; "NamedType"]);  (* 338: line 1301 *)
  ("ChoiceType", ["CHOICE"; "OPEN_BRACE"; "AlternativeTypeLists"; "CLOSE_BRACE"]);  (* 339: line 1304 *)
  ("AlternativeTypeLists", ["RootAlternativeTypeList"]);  (* 340: line 1308 *)
  ("RootAlternativeTypeList", ["AlternativeTypeList"]);  (* 341: line 1312 *)
  ("RootAlternativeTypeList", ["AlternativeTypeList"; "COMMA"; "ELIPSIS"]);  (* 342: line 1315 *)
  ("RootAlternativeTypeList", ["AlternativeTypeList"; "COMMA"; "ELIPSIS"; "COMMA"; "AlternativeTypeList"]);  (* 343: line 1317 *)
  ("AlternativeTypeList", ["NamedType"]);  (* 344: line 1320 *)
  ("AlternativeTypeList", ["AlternativeTypeList"; "COMMA"; "NamedType"]);  (* 345: line 1323 *)
  ("SelectionType", ["identifier"; "LESS_THAN"; "Type"]);  (* 346: line 1329 *)
  ("PrefixedType", ["TaggedType"]);  (* 347: line 1332 *)
  ("TaggedType", ["Tag"; "Type"]);  (* 348: line 1336 *)
  ("TaggedType", ["Tag"; "IMPLICIT"; "Type"]);  (* 349: line 1339 *)
  ("TaggedType", ["Tag"; "EXPLICIT"; "Type"]);  (* 350: line 1341 *)
  ("Tag", ["OPEN_SQUARE_BRACKET"; "EncodingReference"; "Class"; "ClassNumber"; "CLOSE_SQUARE_BRACKET"]);  (* 351: line 1344 *)
  ("EncodingReference", ["encodingreference"; "COLON"]);  (* 352: line 1348 *)
  ("EncodingReference", []);  (* 353: line 1350 *)
  ("ClassNumber", ["number"]);  (* 354: line 1352 *)
  ("ClassNumber", ["DefinedValue"]);  (* 355: line 1355 *)
  ("Class", ["UNIVERSAL"]);  (* 356: line 1357 *)
  ("Class", ["APPLICATION"]);  (* 357: line 1360 *)
  ("Class", ["PRIVATE"]);  (* 358: line 1362 *)
  ("Class", []);  (* 359: line 1364 *)
  ("ObjectIdentifierType", ["OBJECT"; "IDENTIFIER"]);  (* 360: line 1373 *)
  ("ObjectIdentifierValue", ["OPEN_BRACE"; "ObjIdComponentsList"; "CLOSE_BRACE"]);  (* 361: line 1376 *)
  ("ObjectIdentifierValue", ["OPEN_BRACE"; "DefinedValue"; "ObjIdComponentsList"; "CLOSE_BRACE"]);  (* 362: line 1379 *)
  ("ObjIdComponentsList", ["ObjIdComponents"]);  (* 363: line 1382 *)
  ("ObjIdComponentsList", ["ObjIdComponents"; "ObjIdComponentsList"]);  (* 364: line 1385 *)
  ("ObjIdComponents", ["NameForm"]);  (* 365: line 1388 *)
  ("ObjIdComponents", ["NumberForm"]);  (* 366: line 1391 *)
  ("ObjIdComponents", ["NameAndNumberForm"]);  (* 367: line 1393 *)
  ("NameForm", ["identifier"]);  (* 368: line 1396 *)
  ("NumberForm", ["number"]);  (* 369: line 1400 *)
  ("NumberForm", ["DefinedValue"]);  (* 370: line 1403 *)
  ("NameAndNumberForm", ["identifier"; "OPEN_PARENTHESIS"; "NumberForm"; "CLOSE_PARENTHESIS"]);  (* 371: line 1405 *)
  ("RelativeOIDType", ["RELATIVE_OID"]);  (* 372: line 1409 *)
  ("IRIType", ["OID_IRI"]);  (* 373: line 1421 *)
  ("IRIValue", ["QUOTATION_MARK"; "FirstArcIdentifier"; "SubsequentArcIdentifier"; "QUOTATION_MARK"]);  (* 374: line 1424 *)
  ("FirstArcIdentifier", ["SOLIDUS"; "ArcIdentifier"]);  (* 375: line 1430 *)
  ("SubsequentArcIdentifier", ["SOLIDUS"; "ArcIdentifier"; "SubsequentArcIdentifier"]);  (* 376: line 1433 *)
  ("SubsequentArcIdentifier", []);  (* 377: line 1435 *)
  ("ArcIdentifier", ["integerUnicodeLabel"]);  (* 378: line 1437 *)
  ("ArcIdentifier", ["non-integerUnicodeLabel"]);  (* 379: line 1439 *)
  ("RelativeIRIType", ["RELATIVE_OID_IRI"]);  (* 380: line 1441 *)
  ("EmbeddedPDVType", ["EMBEDDED"; "PDV"]);  (* 381: line 1447 *)
  ("ExternalType", ["EXTERNAL"]);  (* 382: line 1454 *)
  ("TimeType", ["TIME"]);  (* 383: line 1460 *)
  ("TimeValue", ["tstring"]);  (* 384: line 1463 *)
  ("DateType", ["DATE"]);  (* 385: line 1466 *)
  ("TimeOfDayType", ["TIME_OF_DAY"]);  (* 386: line 1469 *)
  ("DateTimeType", ["DATE_TIME"]);  (* 387: line 1472 *)
  ("DurationType", ["DURATION"]);  (* 388: line 1475 *)
  ("CharacterStringType", ["RestrictedCharacterStringType"]);  (* 389: line 1478 *)
  ("CharacterStringType", ["UnrestrictedCharacterStringType"]);  (* 390: line 1481 *)
  ("RestrictedCharacterStringType", ["BMPString"]);  (* 391: line 1484 *)
  ("RestrictedCharacterStringType", ["GeneralString"]);  (* 392: line 1487 *)
  ("RestrictedCharacterStringType", ["GraphicString"]);  (* 393: line 1489 *)
  ("RestrictedCharacterStringType", ["IA5String"]);  (* 394: line 1491 *)
  ("RestrictedCharacterStringType", ["ISO646String"]);  (* 395: line 1493 *)
  ("RestrictedCharacterStringType", ["NumericString"]);  (* 396: line 1495 *)
  ("RestrictedCharacterStringType", ["PrintableString"]);  (* 397: line 1497 *)
  ("RestrictedCharacterStringType", ["TeletexString"]);  (* 398: line 1499 *)
  ("RestrictedCharacterStringType", ["T61String"]);  (* 399: line 1501 *)
  ("RestrictedCharacterStringType", ["UniversalString"]);  (* 400: line 1503 *)
  ("RestrictedCharacterStringType", ["UTF8String"]);  (* 401: line 1505 *)
  ("RestrictedCharacterStringType", ["VideotexString"]);  (* 402: line 1507 *)
  ("RestrictedCharacterStringType", ["VisibleString"]);  (* 403: line 1509 *)
  ("UnrestrictedCharacterStringType", ["CHARACTER"; "STRING"]);  (* 404: line 1512 *)
  ("ConstrainedType", ["Type"; "Constraint"]);  (* 405: line 1516 *)
  ("ConstrainedType", ["TypeWithConstraint"]);  (* 406: line 1519 *)
  ("TypeWithConstraint", ["SET"; "Constraint"; "OF"; "Type"]);  (* 407: line 1522 *)
  ("TypeWithConstraint", ["SET"; "SizeConstraint"; "OF"; "Type"]);  (* 408: line 1525 *)
  ("TypeWithConstraint", ["SEQUENCE"; "Constraint"; "OF"; "Type"]);  (* 409: line 1527 *)
  ("TypeWithConstraint", ["SEQUENCE"; "SizeConstraint"; "OF"; "Type"]);  (* 410: line 1529 *)
  ("TypeWithConstraint", ["SET"; "Constraint"; "OF"; "NamedType"]);  (* 411: line 1531 *)
  ("TypeWithConstraint", ["SET"; "SizeConstraint"; "OF"; "NamedType"]);  (* 412: line 1533 *)
  ("TypeWithConstraint", ["SEQUENCE"; "Constraint"; "OF"; "NamedType"]);  (* 413: line 1535 *)
  ("TypeWithConstraint", ["SEQUENCE"; "SizeConstraint"; "OF"; "NamedType"]);  (* 414: line 1537 *)
  ("Constraint", ["OPEN_PARENTHESIS"; "ConstraintSpec"; "ExceptionSpec"; "CLOSE_PARENTHESIS"]);  (* 415: line 1540 *)
  ("ConstraintSpec", ["SubtypeConstraint"]);  (* 416: line 1544 *)
  ("ConstraintSpec", ["GeneralConstraint"]);  (* 417: line 1546 *)
  ("SubtypeConstraint", ["ElementSetSpecs"]);  (* 418: line 1548 *)
  ("ElementSetSpecs", ["ElementSetSpec"]);  (* 419: line 1551 *)
  ("ElementSetSpecs", ["ElementSetSpec"; "COMMA"; "ELIPSIS"]);  (* 420: line 1553 *)
  ("ElementSetSpecs", ["ElementSetSpec"; "COMMA"; "ELIPSIS"; "COMMA"; "ElementSetSpec"]);  (* 421: line 1554 *)
  ("ElementSetSpec", ["Unions"]);  (* 422: line 1556 *)
  ("ElementSetSpec", ["ALL"; "Exclusions"]);  (* 423: line 1558 *)
  ("Unions", ["Intersections"]);  (* 424: line 1560 *)
  ("Unions", ["UElems"; "UnionMark"; "Intersections"]);  (* 425: line 1562 *)
  ("UElems", ["Unions"]);  (* 426: line 1564 *)
  ("Intersections", ["IntersectionElements"]);  (* 427: line 1567 *)
  ("Intersections", ["IElems"; "IntersectionMark"; "IntersectionElements"]);  (* 428: line 1569 *)
  ("IElems", ["Intersections"]);  (* 429: line 1571 *)
  ("IntersectionElements", ["Elements"]);  (* 430: line 1574 *)
  ("IntersectionElements", ["Elems"; "Exclusions"]);  (* 431: line 1576 *)
  ("Elems", ["Elements"]);  (* 432: line 1578 *)
  ("Exclusions", ["EXCEPT"; "Elements"]);  (* 433: line 1581 *)
  ("UnionMark", ["VERTICAL_LINE"]);  (* 434: line 1584 *)
  ("UnionMark", ["UNION"]);  (* 435: line 1586 *)
  ("IntersectionMark", ["ACCENT"]);  (* 436: line 1588 *)
  ("IntersectionMark", ["INTERSECTION"]);  (* 437: line 1590 *)
  ("Elements", ["SubtypeElements"]);  (* 438: line 1592 *)
  ("Elements", ["OPEN_PARENTHESIS"; "ElementSetSpecs"; "CLOSE_PARENTHESIS"]);  (* 439: line 1595 *)
  ("SubtypeElements", ["SingleValue"]);  (* 440: line 1597 *)
  ("SubtypeElements", ["ContainedSubtype"]);  (* 441: line 1599 *)
  ("SubtypeElements", ["ValueRange"]);  (* 442: line 1600 *)
  ("SubtypeElements", ["PermittedAlphabet"]);  (* 443: line 1601 *)
  ("SubtypeElements", ["SizeConstraint"]);  (* 444: line 1602 *)
  ("SubtypeElements", ["TypeConstraint"]);  (* 445: line 1603 *)
  ("SubtypeElements", ["InnerTypeConstraints"]);  (* 446: line 1604 *)
  ("SubtypeElements", ["PatternConstraint"]);  (* 447: line 1605 *)
  ("SubtypeElements", ["PropertySettings"]);  (* 448: line 1606 *)
  ("SingleValue", ["BooleanValue"]);  (* 449: line 1611 *)
  ("SingleValue", ["ASN_NULL"]);  (* 450: line 1615 *)
  ("SingleValue", ["TimeValue"]);  (* 451: line 1617 *)
  ("SingleValue", ["bstring"]);  (* 452: line 1619 *)
  ("SingleValue", ["hstring"]);  (* 453: line 1621 *)
  ("SingleValue", ["cstring"]);  (* 454: line 1623 *)
  ("SingleValue", ["GENERIC_IDENTIFIER_UPPERCASE"]);  (* 455: line 1625 *)
  ("SingleValue", ["DefinedValue"]);  (* 456: line 1627 *)
  ("SingleValue", ["SignedNumber"]);  (* 457: line 1629 *)
  ("SingleValue", ["realnumber"]);  (* 458: line 1631 *)
  ("ContainedSubtype", ["Includes"; "Type"]);  (* 459: line 1634 *)
  ("Includes", ["INCLUDES"]);  (* 460: line 1637 *)
  ("ValueRange", ["LowerEndpoint"; "RANGE"; "UpperEndpoint"]);  (* 461: line 1640 *)
  ("LowerEndpoint", ["LowerEndValue"]);  (* 462: line 1643 *)
  ("LowerEndpoint", ["LowerEndValue"; "LESS_THAN"]);  (* 463: line 1645 *)
  ("UpperEndpoint", ["UpperEndValue"]);  (* 464: line 1647 *)
  ("UpperEndpoint", ["LESS_THAN"; "UpperEndValue"]);  (* 465: line 1649 *)
  ("LowerEndValue", ["SingleValue"]);  (* 466: line 1651 *)
  ("LowerEndValue", ["MIN"]);  (* 467: line 1653 *)
  ("UpperEndValue", ["SingleValue"]);  (* 468: line 1655 *)
  ("UpperEndValue", ["MAX"]);  (* 469: line 1657 *)
  ("SizeConstraint", ["SIZE"; "Constraint"]);  (* 470: line 1659 *)
  ("TypeConstraint", ["Type"]);  (* 471: line 1662 *)
  ("PermittedAlphabet", ["FROM"; "Constraint"]);  (* 472: line 1665 *)
  ("InnerTypeConstraints", ["WITH"; "COMPONENT"; "SingleTypeConstraint"]);  (* 473: line 1668 *)
  ("InnerTypeConstraints", ["WITH"; "COMPONENTS"; "MultipleTypeConstraints"]);  (* 474: line 1670 *)
  ("SingleTypeConstraint", ["Constraint"]);  (* 475: line 1672 *)
  ("MultipleTypeConstraints", []);  (* 476: line 1675 *)
  ("MultipleTypeConstraints", ["OPEN_BRACE"; "ELIPSIS"; "CLOSE_BRACE"]);  (* 477: line 1676 *)
  ("MultipleTypeConstraints", ["OPEN_BRACE"; "ELIPSIS"; "COMMA"; "TypeConstraints"; "CLOSE_BRACE"]);  (* 478: line 1677 *)
  ("MultipleTypeConstraints", ["OPEN_BRACE"; "TypeConstraints"; "CLOSE_BRACE"]);  (* 479: line 1678 *)
  ("TypeConstraints", ["NamedConstraint"]);  (* 480: line 1680 *)
  ("TypeConstraints", ["NamedConstraint"; "COMMA"; "TypeConstraints"]);  (* 481: line 1682 *)
  ("NamedConstraint", ["identifier"; "ComponentConstraint"]);  (* 482: line 1684 *)
  ("ComponentConstraint", ["ValueConstraint"; "PresenceConstraint"]);  (* 483: line 1687 *)
  ("ValueConstraint", ["Constraint"]);  (* 484: line 1690 *)
  ("ValueConstraint", []);  (* 485: line 1692 *)
  ("PresenceConstraint", ["PRESENT"]);  (* 486: line 1694 *)
  ("PresenceConstraint", ["ABSENT"]);  (* 487: line 1696 *)
  ("PresenceConstraint", ["OPTIONAL"]);  (* 488: line 1697 *)
  ("PresenceConstraint", []);  (* 489: line 1698 *)
  ("PatternConstraint", ["PATTERN"; "Value"]);  (* 490: line 1700 *)
  ("PropertySettings", ["SETTINGS"; "simplestring"]);  (* 491: line 1703 *)
  ("ExceptionSpec", ["EXCLAMATION_MARK"; "ExceptionIdentification"]);  (* 492: line 1706 *)
  ("ExceptionSpec", []);  (* 493: line 1708 *)
  ("ExceptionIdentification", ["SignedNumber"]);  (* 494: line 1710 *)
  ("ExceptionIdentification", ["DefinedValue"]);  (* 495: line 1712 *)
  ("ExceptionIdentification", ["Type"; "COLON"; "Value"]);  (* 496: line 1713 *)
  ("typereference", ["GENERIC_IDENTIFIER_UPPERCASE"]);  (* 497: line 1715 *)
  ("identifier", ["GENERIC_IDENTIFIER_LOWERCASE"]);  (* 498: line 1719 *)
  ("valuereference", ["GENERIC_IDENTIFIER_LOWERCASE"]);  (* 499: line 1723 *)
  ("modulereference", ["GENERIC_IDENTIFIER_UPPERCASE"]);  (* 500: line 1727 *)
  ("objectclassreference", ["GENERIC_IDENTIFIER_UPPERCASE"]);  (* 501: line 1731 *)
  ("word", ["GENERIC_IDENTIFIER_UPPERCASE"]);  (* 502: line 1735 *)
  ("word", ["ABSENT"]);  (* 503: line 1737 *)
  ("word", ["ABSTRACT_SYNTAX"]);  (* 504: line 1738 *)
  ("word", ["ALL"]);  (* 505: line 1739 *)
  ("word", ["APPLICATION"]);  (* 506: line 1740 *)
  ("word", ["ASN_NULL"]);  (* 507: line 1741 *)
  ("word", ["AUTOMATIC"]);  (* 508: line 1742 *)
  ("word", ["BEGIN"]);  (* 509: line 1743 *)
  ("word", ["BIT"]);  (* 510: line 1744 *)
  ("word", ["BMPString"]);  (* 511: line 1745 *)
  ("word", ["BOOLEAN"]);  (* 512: line 1746 *)
  ("word", ["BY"]);  (* 513: line 1747 *)
  ("word", ["CHARACTER"]);  (* 514: line 1748 *)
  ("word", ["CHOICE"]);  (* 515: line 1749 *)
  ("word", ["CLASS"]);  (* 516: line 1750 *)
  ("word", ["COMPONENT"]);  (* 517: line 1751 *)
  ("word", ["COMPONENTS"]);  (* 518: line 1752 *)
  ("word", ["CONSTRAINED"]);  (* 519: line 1753 *)
  ("word", ["CONTAINING"]);  (* 520: line 1754 *)
  ("word", ["DATE"]);  (* 521: line 1755 *)
  ("word", ["DATE_TIME"]);  (* 522: line 1756 *)
  ("word", ["DEFAULT"]);  (* 523: line 1757 *)
  ("word", ["DEFINITIONS"]);  (* 524: line 1758 *)
  ("word", ["DURATION"]);  (* 525: line 1759 *)
  ("word", ["EMBEDDED"]);  (* 526: line 1760 *)
  ("word", ["ENCODED"]);  (* 527: line 1761 *)
  ("word", ["ENCODING_CONTROL"]);  (* 528: line 1762 *)
  ("word", ["END"]);  (* 529: line 1763 *)
  ("word", ["ENUMERATED"]);  (* 530: line 1764 *)
  ("word", ["EXCEPT"]);  (* 531: line 1765 *)
  ("word", ["EXPLICIT"]);  (* 532: line 1766 *)
  ("word", ["EXPORTS"]);  (* 533: line 1767 *)
  ("word", ["EXTENSIBILITY"]);  (* 534: line 1768 *)
  ("word", ["EXTERNAL"]);  (* 535: line 1769 *)
  ("word", ["FALSE"]);  (* 536: line 1770 *)
  ("word", ["FROM"]);  (* 537: line 1771 *)
  ("word", ["IDENTIFIER"]);  (* 538: line 1772 *)
  ("word", ["IMPLICIT"]);  (* 539: line 1773 *)
  ("word", ["IMPLIED"]);  (* 540: line 1774 *)
  ("word", ["IMPORTS"]);  (* 541: line 1775 *)
  ("word", ["INCLUDES"]);  (* 542: line 1776 *)
  ("word", ["INSTANCE"]);  (* 543: line 1777 *)
  ("word", ["INSTRUCTIONS"]);  (* 544: line 1778 *)
  ("word", ["INTEGER"]);  (* 545: line 1779 *)
  ("word", ["INTERSECTION"]);  (* 546: line 1780 *)
  ("word", ["MAX"]);  (* 547: line 1781 *)
  ("word", ["MIN"]);  (* 548: line 1782 *)
  ("word", ["MINUS_INFINITY"]);  (* 549: line 1783 *)
  ("word", ["NOT_A_NUMBER"]);  (* 550: line 1784 *)
  ("word", ["OBJECT"]);  (* 551: line 1785 *)
  ("word", ["OCTET"]);  (* 552: line 1786 *)
  ("word", ["OF"]);  (* 553: line 1787 *)
  ("word", ["OID_IRI"]);  (* 554: line 1788 *)
  ("word", ["OPTIONAL"]);  (* 555: line 1789 *)
  ("word", ["PATTERN"]);  (* 556: line 1790 *)
  ("word", ["PDV"]);  (* 557: line 1791 *)
  ("word", ["PLUS_INFINITY"]);  (* 558: line 1792 *)
  ("word", ["PRESENT"]);  (* 559: line 1793 *)
  ("word", ["PRIVATE"]);  (* 560: line 1794 *)
  ("word", ["REAL"]);  (* 561: line 1795 *)
  ("word", ["RELATIVE_OID"]);  (* 562: line 1796 *)
  ("word", ["RELATIVE_OID_IRI"]);  (* 563: line 1797 *)
  ("word", ["SEQUENCE"]);  (* 564: line 1798 *)
  ("word", ["SET"]);  (* 565: line 1799 *)
  ("word", ["SETTINGS"]);  (* 566: line 1800 *)
  ("word", ["SIZE"]);  (* 567: line 1801 *)
  ("word", ["STRING"]);  (* 568: line 1802 *)
  ("word", ["SYNTAX"]);  (* 569: line 1803 *)
  ("word", ["TAGS"]);  (* 570: line 1804 *)
  ("word", ["TIME"]);  (* 571: line 1805 *)
  ("word", ["TIME_OF_DAY"]);  (* 572: line 1806 *)
  ("word", ["TRUE"]);  (* 573: line 1807 *)
  ("word", ["TYPE_IDENTIFIER"]);  (* 574: line 1808 *)
  ("word", ["UNION"]);  (* 575: line 1809 *)
  ("word", ["UNIQUE"]);  (* 576: line 1810 *)
  ("word", ["UNIVERSAL"]);  (* 577: line 1811 *)
  ("word", ["WITH"])  (* 578: line 1812 *)
].
