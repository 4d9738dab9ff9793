(** Generated by tools/gen_parser_cert.py. A part of the grammar (ParserGrammar.v) on which the tables have no conflicts *)
From Coq Require Import List String ZArith.
Import ListNotations.
Local Open Scope string_scope.
Local Open Scope Z_scope.
(** Rules that are left out. *)
Definition dropped : list Z := [
  (* objects in the syntax of their class, and objects as governed parameters *) 48; 71; 72; 73; 74; 75; 76; 77; 78; 79; 80; 81; 82; 123; 124; 126;
  (* values that are meant for objects (keywords, fields, lists with commas or bars, values with a type) *) 256; 262; 263; 266; 267; 269; 271; 276; 277; 278; 279; 280;
  (* parameters: lists of several, and those that are values or classes *) 203; 205; 206;
  (* types as constraints without INCLUDES, value sets *) 211; 445; 471;
  (* references to classes as such *) 7; 501;
  (* object identifiers with references to values *) 362; 370;
  (* patterns, and exceptions with a type *) 490; 496
].
(** Symbols that are more restricted versions of others: Type' and BuiltinType' are not NULL, SingleValue' neither, Reference' does not
    end in a value reference, Type'' is no parameterized type. *)
Definition restricted : list (string * string) := [
  ("Type'", "Type"); ("BuiltinType'", "BuiltinType"); ("SingleValue'", "SingleValue"); ("DefinedValue'", "DefinedValue");
  ("Reference'", "Reference"); ("valuereference'", "valuereference"); ("Type''", "Type"); ("DefinedType''", "DefinedType");
  ("ConstrainedType''", "ConstrainedType")
].
(** Rules with a restricted version on the right side. *)
Definition changed : list (Z * list string) := [
  (204, ["Type'"]); (440, ["SingleValue'"]); (466, ["SingleValue'"]); (468, ["SingleValue'"]); (495, ["DefinedValue'"]); (107, ["Reference'"]);
  (110, ["Type''"])
].
(** Rules for the restricted versions: the rule that they are a version of, and their sides.  They have the numbers 600, 601, ... *)
Definition added : list (Z * (string * list string)) := [
  (212, ("Type'", ["BuiltinType'"])); (213, ("Type'", ["ConstrainedType"])); (214, ("Type'", ["DefinedType"])); (215, ("Type'", ["SelectionType"]));
  (216, ("Type'", ["TypeFromObject"])); (217, ("BuiltinType'", ["ANY"])); (218, ("BuiltinType'", ["BitStringType"]));
  (219, ("BuiltinType'", ["BooleanType"])); (220, ("BuiltinType'", ["CharacterStringType"])); (221, ("BuiltinType'", ["ChoiceType"]));
  (222, ("BuiltinType'", ["DateType"])); (223, ("BuiltinType'", ["DateTimeType"])); (224, ("BuiltinType'", ["DurationType"]));
  (225, ("BuiltinType'", ["EmbeddedPDVType"])); (226, ("BuiltinType'", ["EnumeratedType"])); (227, ("BuiltinType'", ["ExternalType"]));
  (228, ("BuiltinType'", ["GeneralizedTime"])); (229, ("BuiltinType'", ["InstanceOfType"])); (230, ("BuiltinType'", ["IntegerType"]));
  (231, ("BuiltinType'", ["IRIType"])); (233, ("BuiltinType'", ["ObjectClassFieldType"])); (234, ("BuiltinType'", ["ObjectDescriptor"]));
  (235, ("BuiltinType'", ["ObjectIdentifierType"])); (236, ("BuiltinType'", ["OctetStringType"])); (237, ("BuiltinType'", ["RealType"]));
  (238, ("BuiltinType'", ["RelativeIRIType"])); (239, ("BuiltinType'", ["RelativeOIDType"])); (240, ("BuiltinType'", ["SequenceType"]));
  (241, ("BuiltinType'", ["SequenceOfType"])); (242, ("BuiltinType'", ["SetType"])); (243, ("BuiltinType'", ["SetOfType"]));
  (244, ("BuiltinType'", ["PrefixedType"])); (245, ("BuiltinType'", ["TimeType"])); (246, ("BuiltinType'", ["TimeOfDayType"]));
  (247, ("BuiltinType'", ["UTCTime"])); (449, ("SingleValue'", ["BooleanValue"])); (451, ("SingleValue'", ["TimeValue"]));
  (452, ("SingleValue'", ["bstring"])); (453, ("SingleValue'", ["hstring"])); (454, ("SingleValue'", ["cstring"]));
  (455, ("SingleValue'", ["GENERIC_IDENTIFIER_UPPERCASE"])); (456, ("SingleValue'", ["DefinedValue'"])); (457, ("SingleValue'", ["SignedNumber"]));
  (458, ("SingleValue'", ["realnumber"])); (198, ("DefinedValue'", ["valuereference'"])); (199, ("DefinedValue'", ["ParameterizedValue"]));
  (499, ("valuereference'", ["GENERIC_IDENTIFIER_LOWERCASE"])); (184, ("Reference'", ["typereference"]));
  (185, ("Reference'", ["typereference"; "OPEN_BRACE"; "CLOSE_BRACE"])); (186, ("Reference'", ["valuereference'"]));
  (212, ("Type''", ["BuiltinType"])); (213, ("Type''", ["ConstrainedType''"])); (214, ("Type''", ["DefinedType''"]));
  (215, ("Type''", ["SelectionType"])); (216, ("Type''", ["TypeFromObject"])); (195, ("DefinedType''", ["ExternalTypeReference"]));
  (196, ("DefinedType''", ["typereference"])); (405, ("ConstrainedType''", ["Type''"; "Constraint"]));
  (406, ("ConstrainedType''", ["TypeWithConstraint"]))
].
(** Rules that are not used before certain tokens. *)
Definition not_before : list (Z * list string) := [
  (* OptionalUnique ->  *)
  (36, [
  "OPTIONAL"]);
  (* LiteralList ->  *)
  (64, [
  "ABSENT"; "ABSTRACT_SYNTAX"; "ALL"; "APPLICATION"; "ASN_NULL"; "AUTOMATIC"; "BEGIN"; "BIT"; "BMPString"; "BOOLEAN"; "BY"; "CHARACTER"; "CHOICE";
  "CLASS"; "COMPONENT"; "COMPONENTS"; "CONSTRAINED"; "CONTAINING"; "DATE"; "DATE_TIME"; "DEFAULT"; "DEFINITIONS"; "DURATION"; "EMBEDDED"; "ENCODED";
  "ENCODING_CONTROL"; "END"; "ENUMERATED"; "EXCEPT"; "EXPLICIT"; "EXPORTS"; "EXTENSIBILITY"; "EXTERNAL"; "FALSE"; "FROM"; "IDENTIFIER"; "IMPLICIT";
  "IMPLIED"; "IMPORTS"; "INCLUDES"; "INSTANCE"; "INSTRUCTIONS"; "INTEGER"; "INTERSECTION"; "MAX"; "MIN"; "MINUS_INFINITY"; "NOT_A_NUMBER"; "OBJECT";
  "OCTET"; "OF"; "OID_IRI"; "OPTIONAL"; "PATTERN"; "PDV"; "PLUS_INFINITY"; "PRESENT"; "PRIVATE"; "REAL"; "RELATIVE_OID"; "RELATIVE_OID_IRI";
  "SEQUENCE"; "SET"; "SETTINGS"; "SIZE"; "STRING"; "SYNTAX"; "TAGS"; "TIME"; "TIME_OF_DAY"; "TRUE"; "TYPE_IDENTIFIER"; "UNION"; "UNIQUE";
  "UNIVERSAL"; "WITH"; "COMMA"; "GENERIC_IDENTIFIER_UPPERCASE"]);
  (* DefinedValue -> valuereference *)
  (198, [
  "OPEN_BRACE"]);
  (* NamedType -> identifier Type *)
  (248, [
  "OPEN_PARENTHESIS"]);
  (* SequenceOfValues -> Value *)
  (282, [
  "COLON"]);
  (* SequenceOfValues -> SequenceOfValues Value *)
  (283, [
  "COLON"]);
  (* SequenceOfType -> SEQUENCE OF Type *)
  (333, [
  "OPEN_PARENTHESIS"]);
  (* SetOfType -> SET OF Type *)
  (337, [
  "OPEN_PARENTHESIS"]);
  (* SelectionType -> identifier LESS_THAN Type *)
  (346, [
  "OPEN_PARENTHESIS"]);
  (* TaggedType -> Tag Type *)
  (348, [
  "OPEN_PARENTHESIS"]);
  (* TaggedType -> Tag IMPLICIT Type *)
  (349, [
  "OPEN_PARENTHESIS"]);
  (* TaggedType -> Tag EXPLICIT Type *)
  (350, [
  "OPEN_PARENTHESIS"]);
  (* TypeWithConstraint -> SET Constraint OF Type *)
  (407, [
  "OPEN_PARENTHESIS"]);
  (* TypeWithConstraint -> SET SizeConstraint OF Type *)
  (408, [
  "OPEN_PARENTHESIS"]);
  (* TypeWithConstraint -> SEQUENCE Constraint OF Type *)
  (409, [
  "OPEN_PARENTHESIS"]);
  (* TypeWithConstraint -> SEQUENCE SizeConstraint OF Type *)
  (410, [
  "OPEN_PARENTHESIS"]);
  (* modulereference -> GENERIC_IDENTIFIER_UPPERCASE *)
  (500, [
  "FULL_STOP"]);
  (* valuereference' -> GENERIC_IDENTIFIER_LOWERCASE *)
  (646, [
  "CLOSE_BRACE"; "LESS_THAN"]);
  (* DefinedType'' -> typereference *)
  (656, [
  "COLON"])
].
