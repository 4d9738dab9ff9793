(** Generated by tools/gen_parser.py from /repo/src/compiler/asn_compiler.yacc 326-1813, the actions (in autogen_copy/asn_compiler.hpp 7635-9623). *)
From Coq Require Import List String ZArith.
From Verif Require Import Base ParserTree.
Import ListNotations.
Local Open Scope string_scope.
Local Open Scope list_scope.
(** The declared types of the symbols (185-323), in the order of their numbers. *)
Definition symbol_kinds : list kind := [
  KNone; KNone; KNone; KNone; KInt64; KInt64; KDouble; KString; KString; KString; KString; KString; KString; KString; KString; KNone;
  KNone; KNone; KNone; KNone; KNone; KNone; KString; KNone; KString; KString; KNone; KNone; KNone; KNone; KNone; KNone; KNone; KNone;
  KNone; KNone; KNone; KNone; KNone; KNone; KNone; KNone; KNone; KNone; KNone; KNone; KNone; KNone; KNone; KNone; KNone; KNone; KNone;
  KNone; KNone; KNone; KNone; KNone; KNone; KNone; KNone; KNone; KNone; KNone; KNone; KNone; KNone; KNone; KNone; KNone; KNone; KNone;
  KNone; KNone; KNone; KNone; KNone; KNone; KNone; KNone; KNone; KNone; KNone; KNone; KNone; KNone; KNone; KNone; KNone; KNone; KNone;
  KNone; KNone; KNone; KNone; KNone; KNone; KNone; KNone; KNone; KNone; KNone; KNone; KNone; KNone; KNone; KNone; KNone; KNone; KNone;
  KNone; KNone; KNone; KNone; KNone; KNone; KNone; KNone; KNone; KNone; KNone; KNone; KNone; KNone; KNone; KNone; KNone; KNone; KNone;
  KNone; KNone; KNone; KNone; KNone; KNone; KNone; KNone; KNone; KNone; KNone; KNone; KNone; KNone; KNone; KNone; KNone; KNone; KNone;
  KNone; KString; KString; KNone; KNone; KNone; KNone; KNone; KNone; KNone; KNone; KString; KAssign; KClassDef; KClassDef; KFields;
  KFields; KString; KStrings; KFields; KStrings; KNone; KNone; KFields; KNone; KNone; KNone; KNone; KNone; KNone; KNone; KNone; KNone;
  KNone; KNone; KNone; KNone; KNone; KNone; KNone; KNone; KNone; KNone; KNone; KNone; KNone; KNone; KNone; KNone; KNone; KNone; KAssign;
  KNone; KNone; KField; KAssign; KAssign; KAssign; KAssign; KAssign; KParams; KParams; KParam; KType; KType; KNone; KNone;
  KEmpty InstanceOf; KString; KNone; KNone; KNone; KNone; KNone; KNone; KNone; KNone; KNone; KNone; KNone; KString; KNone; KNone; KNone;
  KNone; KNone; KNone; KNone; KNone; KMode; KNone; KModule; KExports; KNone; KImports; KImports; KImports; KImport; KString; KStrings;
  KString; KString; KAssigns; KAssign; KDefined; KDefinedValue; KDefined; KNone; KTypes; KType; KDefined; KNone; KAssign; KAssign; KAssign;
  KType; KBuiltin; KNamedType; KValue; KValue; KNone; KNone; KNone; KValues; KEmpty Boolean; KBool; KInteger; KNamedNumbers; KNamedNumber;
  KInt64; KEnumerated; KEnumerated; KEnumerated; KEnumValue; KEmpty Real; KEmpty BitString; KNone; KNone; KEmpty OctetString; KEmpty Null;
  KSequence; KCollection; KComps; KComp; KSequenceOf; KSet; KSetOf; KChoice; KNamedTypes; KNamedTypes; KNamedTypes; KNone; KPrefixed;
  KTagged; KTag; KNone; KInt; KClass; KEmpty ObjectIdentifier; KOidComps; KOidComps; KOidComp; KOidComp; KOidComp; KOidComp;
  KEmpty RelativeOID; KEmpty IRI; KNone; KNone; KNone; KNone; KEmpty RelativeIRI; KEmpty EmbeddedPDV; KEmpty External; KEmpty Time; KTime;
  KEmpty Date; KEmpty TimeOfDay; KEmpty DateTime; KEmpty Duration; KChar; KChar; KChar; KType; KType; KNone; KNone; KNone; KNone; KNone;
  KNone; KNone; KNone; KNone; KNone; KNone; KNone; KNone; KNone; KNone; KNone; KValue; KNone; KNone; KNone; KNone; KNone; KNone; KNone;
  KNone; KNone; KNone; KNone; KNone; KNone; KNone; KNone; KNone; KNone; KNone; KNone; KNone; KNone; KNone; KString; KString; KString;
  KString; KString; KString].
(** The actions in the order of their numbers, from 1 on. *)
Definition actions : list action := [
  Action [KNone; KNone] (KNone) (fun _ _ s => (default_value (KNone), s));  (* 1: line 327 *)
  Action [KNone] (KNone) (fun _ s => (default_value (KNone), s));  (* 2: line 326 *)
  Action [KNone; KNone] (KNone) (fun _ _ s => (default_value (KNone), s));  (* 3: line 328 *)
  Action [KString; KNone; KNone; KMode; KNone; KNone; KNone; KModule; KNone; KNone] (KNone) (fun x1 _ _ x4 _ _ _ x8 _ _ s => (tt, State (st_modules s ++ [Module x1 x4 (m_imports x8) (m_assigns x8)]) (st_anon s)));  (* 4: line 330 *)
  Action [KNone; KNone; KNone] (KNone) (fun _ _ _ s => (default_value (KNone), s));  (* 5: line 345 *)
  Action [KNone] (KNone) (fun _ s => (default_value (KNone), s));  (* 6: line 348 *)
  Action [KString] (KNone) (fun _ s => (default_value (KNone), s));  (* 7: line 350 *)
  Action [KString] (KNone) (fun _ s => (default_value (KNone), s));  (* 8: line 351 *)
  Action [KString; KNone; KString] (KNone) (fun _ _ _ s => (default_value (KNone), s));  (* 9: line 353 *)
  Action [KNone] (KString) (fun _ s => ("TYPE-IDENTIFIER", s));  (* 10: line 356 *)
  Action [KNone] (KString) (fun _ s => ("TYPE-IDENTIFIER", s));  (* 11: line 359 *)
  Action [KString; KNone; KClassDef] (KAssign) (fun x1 _ x3 s => (Assign x1 (AClass x3) [], s));  (* 12: line 362 *)
  Action [KNone] (KClassDef) (fun _ s => (default_value (KClassDef), s));  (* 13: line 366 *)
  Action [KClassDef] (KClassDef) (fun x1 s => (x1, s));  (* 14: line 369 *)
  Action [KNone; KNone; KFields; KNone; KNone] (KClassDef) (fun _ _ x3 _ _ s => (x3, s));  (* 15: line 373 *)
  Action [KFields] (KFields) (fun x1 s => (x1, s));  (* 16: line 377 *)
  Action [KFields; KNone; KFields] (KFields) (fun x1 _ x3 s => (x1 ++ x3, s));  (* 17: line 380 *)
  Action [KFields] (KFields) (fun x1 s => (x1, s));  (* 18: line 383 *)
  Action [KFields] (KFields) (fun x1 s => (x1, s));  (* 19: line 386 *)
  Action [KNone] (KFields) (fun _ s => (default_value (KFields), s));  (* 20: line 388 *)
  Action [KNone] (KFields) (fun _ s => (default_value (KFields), s));  (* 21: line 389 *)
  Action [KNone] (KFields) (fun _ s => (default_value (KFields), s));  (* 22: line 390 *)
  Action [KNone] (KFields) (fun _ s => (default_value (KFields), s));  (* 23: line 391 *)
  Action [KString] (KString) (fun x1 s => (x1, s));  (* 24: line 393 *)
  Action [KString] (KString) (fun x1 s => (x1, s));  (* 25: line 396 *)
  Action [KString] (KStrings) (fun x1 s => ([x1], s));  (* 26: line 403 *)
  Action [KStrings; KNone; KString] (KStrings) (fun x1 _ x3 s => (x1 ++ [x3], s));  (* 27: line 406 *)
  Action [KStrings; KNone] (KFields) (fun x1 _ s => (map (fun name => ClassField name None) x1, s));  (* 28: line 409 *)
  Action [KString] (KStrings) (fun x1 s => ([x1], s));  (* 29: line 413 *)
  Action [KStrings; KString] (KStrings) (fun x1 x2 s => (x1 ++ [x2], s));  (* 30: line 416 *)
  Action [KNone] (KNone) (fun _ s => (default_value (KNone), s));  (* 31: line 419 *)
  Action [KNone; KType] (KNone) (fun _ _ s => (default_value (KNone), s));  (* 32: line 421 *)
  Action [] (KNone) (fun  s => (default_value (KNone), s));  (* 33: line 422 *)
  Action [KNone] (KNone) (fun _ s => (default_value (KNone), s));  (* 34: line 424 *)
  Action [KNone] (KNone) (fun _ s => (default_value (KNone), s));  (* 35: line 426 *)
  Action [] (KNone) (fun  s => (default_value (KNone), s));  (* 36: line 427 *)
  Action [KString; KType; KNone; KNone] (KFields) (fun x1 x2 _ _ s => ([ClassField x1 (Some x2)], s));  (* 37: line 429 *)
  Action [KNone] (KNone) (fun _ s => (default_value (KNone), s));  (* 38: line 433 *)
  Action [KNone; KValue] (KNone) (fun _ _ s => (default_value (KNone), s));  (* 39: line 435 *)
  Action [] (KNone) (fun  s => (default_value (KNone), s));  (* 40: line 436 *)
  Action [KString; KString; KNone; KNone] (KNone) (fun _ _ _ _ s => (default_value (KNone), s));  (* 41: line 438 *)
  Action [KString; KType; KNone; KNone] (KNone) (fun _ _ _ _ s => (default_value (KNone), s));  (* 42: line 441 *)
  Action [KNone] (KNone) (fun _ s => (default_value (KNone), s));  (* 43: line 444 *)
  Action [KNone; KNone] (KNone) (fun _ _ s => (default_value (KNone), s));  (* 44: line 446 *)
  Action [] (KNone) (fun  s => (default_value (KNone), s));  (* 45: line 447 *)
  Action [KString; KNone; KNone] (KNone) (fun _ _ _ s => (default_value (KNone), s));  (* 46: line 449 *)
  Action [KNone] (KNone) (fun _ s => (default_value (KNone), s));  (* 47: line 452 *)
  Action [KNone; KNone] (KNone) (fun _ _ s => (default_value (KNone), s));  (* 48: line 454 *)
  Action [] (KNone) (fun  s => (default_value (KNone), s));  (* 49: line 455 *)
  Action [KNone; KNone; KNone] (KNone) (fun _ _ _ s => (default_value (KNone), s));  (* 50: line 457 *)
  Action [KNone] (KNone) (fun _ s => (default_value (KNone), s));  (* 51: line 460 *)
  Action [KNone] (KNone) (fun _ s => (default_value (KNone), s));  (* 52: line 462 *)
  Action [] (KNone) (fun  s => (default_value (KNone), s));  (* 53: line 463 *)
  Action [KNone; KNone; KNone] (KNone) (fun _ _ _ s => (default_value (KNone), s));  (* 54: line 468 *)
  Action [] (KNone) (fun  s => (default_value (KNone), s));  (* 55: line 470 *)
  Action [KNone] (KNone) (fun _ s => (default_value (KNone), s));  (* 56: line 472 *)
  Action [KNone; KNone] (KNone) (fun _ _ s => (default_value (KNone), s));  (* 57: line 474 *)
  Action [KNone] (KNone) (fun _ s => (default_value (KNone), s));  (* 58: line 476 *)
  Action [KNone] (KNone) (fun _ s => (default_value (KNone), s));  (* 59: line 478 *)
  Action [KNone; KNone; KNone] (KNone) (fun _ _ _ s => (default_value (KNone), s));  (* 60: line 480 *)
  Action [KNone; KString] (KNone) (fun _ _ s => (default_value (KNone), s));  (* 61: line 483 *)
  Action [KNone] (KNone) (fun _ s => (default_value (KNone), s));  (* 62: line 486 *)
  Action [KNone; KNone] (KNone) (fun _ _ s => (default_value (KNone), s));  (* 63: line 488 *)
  Action [] (KNone) (fun  s => (default_value (KNone), s));  (* 64: line 489 *)
  Action [KString] (KNone) (fun _ s => (default_value (KNone), s));  (* 65: line 491 *)
  Action [KNone] (KNone) (fun _ s => (default_value (KNone), s));  (* 66: line 493 *)
  Action [KNone] (KNone) (fun _ s => (default_value (KNone), s));  (* 67: line 495 *)
  Action [KString] (KNone) (fun _ s => (default_value (KNone), s));  (* 68: line 497 *)
  Action [KString; KNone; KString] (KNone) (fun _ _ _ s => (default_value (KNone), s));  (* 69: line 499 *)
  Action [KNone] (KNone) (fun _ s => (default_value (KNone), s));  (* 70: line 505 *)
  Action [KNone] (KNone) (fun _ s => (default_value (KNone), s));  (* 71: line 507 *)
  Action [KNone] (KNone) (fun _ s => (default_value (KNone), s));  (* 72: line 511 *)
  Action [KNone] (KNone) (fun _ s => (default_value (KNone), s));  (* 73: line 513 *)
  Action [KNone; KNone; KNone; KNone; KNone] (KNone) (fun _ _ _ _ _ s => (default_value (KNone), s));  (* 74: line 515 *)
  Action [KString; KNone] (KNone) (fun _ _ s => (default_value (KNone), s));  (* 75: line 518 *)
  Action [KNone; KNone; KNone] (KNone) (fun _ _ _ s => (default_value (KNone), s));  (* 76: line 521 *)
  Action [KNone] (KNone) (fun _ s => (default_value (KNone), s));  (* 77: line 524 *)
  Action [KNone; KNone] (KNone) (fun _ _ s => (default_value (KNone), s));  (* 78: line 526 *)
  Action [KNone] (KNone) (fun _ s => (default_value (KNone), s));  (* 79: line 528 *)
  Action [KNone] (KNone) (fun _ s => (default_value (KNone), s));  (* 80: line 530 *)
  Action [KType] (KNone) (fun _ s => (default_value (KNone), s));  (* 81: line 532 *)
  Action [KValue] (KNone) (fun _ s => (default_value (KNone), s));  (* 82: line 534 *)
  Action [KNone] (KNone) (fun _ s => (default_value (KNone), s));  (* 83: line 537 *)
  Action [KString] (KNone) (fun _ s => (default_value (KNone), s));  (* 84: line 539 *)
  Action [KString; KNone; KString] (KNone) (fun _ _ _ s => (default_value (KNone), s));  (* 85: line 541 *)
  Action [KString; KNone; KNone; KNone] (KAssign) (fun x1 _ _ _ s => (Assign x1 AObjectSet [], s));  (* 86: line 544 *)
  Action [KNone; KNone; KNone] (KNone) (fun _ _ _ s => (default_value (KNone), s));  (* 87: line 548 *)
  Action [KNone] (KNone) (fun _ s => (default_value (KNone), s));  (* 88: line 551 *)
  Action [KNone; KNone; KNone] (KNone) (fun _ _ _ s => (default_value (KNone), s));  (* 89: line 553 *)
  Action [KNone] (KNone) (fun _ s => (default_value (KNone), s));  (* 90: line 554 *)
  Action [KNone; KNone; KNone] (KNone) (fun _ _ _ s => (default_value (KNone), s));  (* 91: line 555 *)
  Action [KNone; KNone; KNone; KNone; KNone] (KNone) (fun _ _ _ _ _ s => (default_value (KNone), s));  (* 92: line 556 *)
  Action [KString; KNone; KStrings] (KField) (fun _ _ x3 s => ((Defined None "" [], x3), s));  (* 93: line 564 *)
  Action [KString; KNone; KStrings] (KField) (fun x1 _ x3 s => ((Defined None x1 [], x3), s));  (* 94: line 567 *)
  Action [KAssign] (KAssign) (fun x1 s => (x1, s));  (* 95: line 573 *)
  Action [KAssign] (KAssign) (fun x1 s => (x1, s));  (* 96: line 576 *)
  Action [KAssign] (KAssign) (fun x1 s => (x1, s));  (* 97: line 578 *)
  Action [KAssign] (KAssign) (fun x1 s => (x1, s));  (* 98: line 580 *)
  Action [KString; KParams; KNone; KType] (KAssign) (fun x1 x2 _ x4 s => (Assign x1 (AType x4) x2, s));  (* 99: line 586 *)
  Action [KString; KParams; KType; KNone; KValue] (KAssign) (fun x1 _ _ _ _ s => (Assign x1 (AValue any_type no_value) [], s));  (* 100: line 590 *)
  Action [KString; KParams; KType; KNone; KValue] (KAssign) (fun x1 _ _ _ _ s => (Assign x1 (AValue any_type no_value) [], s));  (* 101: line 594 *)
  Action [KString; KParams; KNone; KClassDef] (KAssign) (fun x1 _ _ _ s => (Assign x1 (AClass []) [], s));  (* 102: line 598 *)
  Action [KNone; KParams; KNone] (KParams) (fun _ x2 _ s => (x2, s));  (* 103: line 610 *)
  Action [KParam] (KParams) (fun x1 s => ([x1], s));  (* 104: line 614 *)
  Action [KParams; KNone; KParam] (KParams) (fun x1 _ x3 s => (x1 ++ [x3], s));  (* 105: line 617 *)
  Action [KType; KNone; KString] (KParam) (fun x1 _ x3 s => (Param (Some x1) x3, s));  (* 106: line 620 *)
  Action [KString] (KParam) (fun x1 s => (Param None x1, s));  (* 107: line 623 *)
  Action [KType] (KType) (fun x1 s => (x1, s));  (* 108: line 626 *)
  Action [KString] (KType) (fun x1 s => (TRef (Defined None x1 []), s));  (* 109: line 629 *)
  Action [KType] (KType) (fun x1 s => (x1, s));  (* 110: line 632 *)
  Action [KNone] (KType) (fun _ s => (default_value (KType), s));  (* 111: line 635 *)
  Action [KNone] (KNone) (fun _ s => (default_value (KNone), s));  (* 112: line 650 *)
  Action [KNone; KNone; KStrings] (KNone) (fun _ _ _ s => (default_value (KNone), s));  (* 113: line 662 *)
  Action [KNone; KNone; KNone] (KEmpty InstanceOf) (fun _ _ _ s => (default_value (KEmpty InstanceOf), s));  (* 114: line 671 *)
  Action [KDefined] (KString) (fun _ s => (default_value (KString), s));  (* 115: line 679 *)
  Action [KString] (KString) (fun x1 s => (x1, s));  (* 116: line 681 *)
  Action [KNone] (KNone) (fun _ s => (default_value (KNone), s));  (* 117: line 684 *)
  Action [KString] (KNone) (fun _ s => (default_value (KNone), s));  (* 118: line 686 *)
  Action [KNone] (KNone) (fun _ s => (default_value (KNone), s));  (* 119: line 688 *)
  Action [KNone] (KNone) (fun _ s => (default_value (KNone), s));  (* 120: line 690 *)
  Action [KNone] (KNone) (fun _ s => (default_value (KNone), s));  (* 121: line 691 *)
  Action [KNone; KNone; KNone; KNone; KNone] (KNone) (fun _ _ _ _ _ s => (default_value (KNone), s));  (* 122: line 693 *)
  Action [KType; KNone; KValue] (KNone) (fun _ _ _ s => (default_value (KNone), s));  (* 123: line 698 *)
  Action [KType; KNone; KNone] (KNone) (fun _ _ _ s => (default_value (KNone), s));  (* 124: line 700 *)
  Action [KNone] (KNone) (fun _ s => (default_value (KNone), s));  (* 125: line 701 *)
  Action [KType] (KNone) (fun _ s => (default_value (KNone), s));  (* 126: line 702 *)
  Action [KNone] (KNone) (fun _ s => (default_value (KNone), s));  (* 127: line 703 *)
  Action [KNone] (KNone) (fun _ s => (default_value (KNone), s));  (* 128: line 704 *)
  Action [] (KNone) (fun  s => (default_value (KNone), s));  (* 129: line 705 *)
  Action [KNone] (KNone) (fun _ s => (default_value (KNone), s));  (* 130: line 707 *)
  Action [KNone; KNone; KNone; KNone] (KNone) (fun _ _ _ _ s => (default_value (KNone), s));  (* 131: line 710 *)
  Action [KNone] (KNone) (fun _ s => (default_value (KNone), s));  (* 132: line 713 *)
  Action [KNone; KNone; KNone] (KNone) (fun _ _ _ s => (default_value (KNone), s));  (* 133: line 715 *)
  Action [KNone; KNone] (KNone) (fun _ _ s => (default_value (KNone), s));  (* 134: line 717 *)
  Action [KNone; KNone; KNone; KNone] (KNone) (fun _ _ _ _ s => (default_value (KNone), s));  (* 135: line 719 *)
  Action [KNone; KNone] (KNone) (fun _ _ s => (default_value (KNone), s));  (* 136: line 721 *)
  Action [] (KNone) (fun  s => (default_value (KNone), s));  (* 137: line 723 *)
  Action [KString] (KNone) (fun _ s => (default_value (KNone), s));  (* 138: line 725 *)
  Action [KNone; KNone; KString] (KNone) (fun _ _ _ s => (default_value (KNone), s));  (* 139: line 727 *)
  Action [KNone; KType] (KNone) (fun _ _ s => (default_value (KNone), s));  (* 140: line 729 *)
  Action [KNone; KNone; KValue] (KNone) (fun _ _ _ s => (default_value (KNone), s));  (* 141: line 731 *)
  Action [KNone; KType; KNone; KNone; KValue] (KNone) (fun _ _ _ _ _ s => (default_value (KNone), s));  (* 142: line 732 *)
  Action [] (KNone) (fun  s => (default_value (KNone), s));  (* 143: line 740 *)
  Action [KString; KNone] (KString) (fun x1 _ s => (x1, s));  (* 144: line 750 *)
  Action [KNone] (KNone) (fun _ s => (default_value (KNone), s));  (* 145: line 757 *)
  Action [KNone] (KNone) (fun _ s => (default_value (KNone), s));  (* 146: line 759 *)
  Action [] (KNone) (fun  s => (default_value (KNone), s));  (* 147: line 760 *)
  Action [KNone; KNone; KNone] (KNone) (fun _ _ _ s => (default_value (KNone), s));  (* 148: line 762 *)
  Action [KNone; KNone] (KNone) (fun _ _ s => (default_value (KNone), s));  (* 149: line 765 *)
  Action [KNone] (KNone) (fun _ s => (default_value (KNone), s));  (* 150: line 769 *)
  Action [KNone; KNone] (KNone) (fun _ _ s => (default_value (KNone), s));  (* 151: line 771 *)
  Action [KOidComp] (KNone) (fun _ s => (default_value (KNone), s));  (* 152: line 774 *)
  Action [KNone] (KNone) (fun _ s => (default_value (KNone), s));  (* 153: line 776 *)
  Action [KNone] (KNone) (fun _ s => (default_value (KNone), s));  (* 154: line 777 *)
  Action [KInt64] (KNone) (fun _ s => (default_value (KNone), s));  (* 155: line 779 *)
  Action [KString; KNone; KNone; KNone] (KNone) (fun _ _ _ _ s => (default_value (KNone), s));  (* 156: line 782 *)
  Action [KNone; KNone] (KNone) (fun _ _ s => (default_value (KNone), s));  (* 157: line 786 *)
  Action [] (KNone) (fun  s => (default_value (KNone), s));  (* 158: line 788 *)
  Action [KNone; KNone] (KMode) (fun _ _ s => (Explicit, s));  (* 159: line 790 *)
  Action [KNone; KNone] (KMode) (fun _ _ s => (Implicit, s));  (* 160: line 793 *)
  Action [KNone; KNone] (KMode) (fun _ _ s => (Automatic, s));  (* 161: line 795 *)
  Action [] (KMode) (fun  s => (Explicit, s));  (* 162: line 797 *)
  Action [KNone; KNone] (KNone) (fun _ _ s => (default_value (KNone), s));  (* 163: line 800 *)
  Action [] (KNone) (fun  s => (default_value (KNone), s));  (* 164: line 802 *)
  Action [KExports; KImports; KAssigns] (KModule) (fun _ x2 x3 s => (Module "" Explicit x2 x3, s));  (* 165: line 804 *)
  Action [] (KModule) (fun  s => (default_value (KModule), s));  (* 166: line 807 *)
  Action [KNone; KNone; KNone] (KExports) (fun _ _ _ s => (default_value (KExports), s));  (* 167: line 810 *)
  Action [KNone; KNone; KNone] (KExports) (fun _ _ _ s => (default_value (KExports), s));  (* 168: line 812 *)
  Action [] (KExports) (fun  s => (default_value (KExports), s));  (* 169: line 813 *)
  Action [KStrings] (KNone) (fun _ s => (default_value (KNone), s));  (* 170: line 815 *)
  Action [] (KNone) (fun  s => (default_value (KNone), s));  (* 171: line 817 *)
  Action [KNone; KImports; KNone] (KImports) (fun _ x2 _ s => (x2, s));  (* 172: line 819 *)
  Action [] (KImports) (fun  s => (default_value (KImports), s));  (* 173: line 822 *)
  Action [KImports] (KImports) (fun x1 s => (x1, s));  (* 174: line 824 *)
  Action [] (KImports) (fun  s => (default_value (KImports), s));  (* 175: line 827 *)
  Action [KImport] (KImports) (fun x1 s => ([x1], s));  (* 176: line 829 *)
  Action [KImports; KImport] (KImports) (fun x1 x2 s => (x1 ++ [x2], s));  (* 177: line 832 *)
  Action [KStrings; KNone; KString] (KImport) (fun x1 _ x3 s => (Import x3 (filter isupper_first x1) (filter (fun ref => negb (isupper_first ref)) x1), s));  (* 178: line 835 *)
  Action [KString] (KString) (fun x1 s => (x1, s));  (* 179: line 851 *)
  Action [KString; KOidComps] (KString) (fun x1 _ s => (x1, s));  (* 180: line 854 *)
  Action [KString] (KStrings) (fun x1 s => ([x1], s));  (* 181: line 859 *)
  Action [KStrings; KNone; KString] (KStrings) (fun x1 _ x3 s => (x1 ++ [x3], s));  (* 182: line 862 *)
  Action [KString] (KString) (fun x1 s => (x1, s));  (* 183: line 865 *)
  Action [KString] (KString) (fun x1 s => (x1, s));  (* 184: line 869 *)
  Action [KString; KNone; KNone] (KString) (fun x1 _ _ s => (x1, s));  (* 185: line 872 *)
  Action [KString] (KString) (fun x1 s => (x1, s));  (* 186: line 874 *)
  Action [KAssign] (KAssigns) (fun x1 s => ([x1], s));  (* 187: line 882 *)
  Action [KAssign; KAssigns] (KAssigns) (fun x1 x2 s => (x2 ++ [x1], s));  (* 188: line 885 *)
  Action [KAssign] (KAssign) (fun x1 s => (x1, s));  (* 189: line 888 *)
  Action [KAssign] (KAssign) (fun x1 s => (x1, s));  (* 190: line 891 *)
  Action [KAssign] (KAssign) (fun x1 s => (x1, s));  (* 191: line 893 *)
  Action [KAssign] (KAssign) (fun x1 s => (x1, s));  (* 192: line 895 *)
  Action [KAssign] (KAssign) (fun x1 s => (x1, s));  (* 193: line 898 *)
  Action [KAssign] (KAssign) (fun x1 s => (x1, s));  (* 194: line 900 *)
  Action [KDefined] (KDefined) (fun x1 s => (x1, s));  (* 195: line 903 *)
  Action [KString] (KDefined) (fun x1 s => (Defined None x1 [], s));  (* 196: line 906 *)
  Action [KDefined] (KDefined) (fun x1 s => (x1, s));  (* 197: line 908 *)
  Action [KString] (KDefinedValue) (fun x1 s => (x1, s));  (* 198: line 912 *)
  Action [KNone] (KDefinedValue) (fun _ s => (default_value (KDefinedValue), s));  (* 199: line 916 *)
  Action [KString; KNone; KTypes; KNone] (KDefined) (fun x1 _ x3 _ s => (Defined None x1 x3, s));  (* 200: line 918 *)
  Action [KNone; KNone; KTypes; KNone] (KNone) (fun _ _ _ _ s => (default_value (KNone), s));  (* 201: line 922 *)
  Action [KType] (KTypes) (fun x1 s => ([x1], s));  (* 202: line 925 *)
  Action [KType; KNone; KTypes] (KTypes) (fun x1 _ x3 s => (x3 ++ [x1], s));  (* 203: line 928 *)
  Action [KType] (KType) (fun x1 s => (x1, s));  (* 204: line 931 *)
  Action [KValue] (KType) (fun _ s => (default_value (KType), s));  (* 205: line 934 *)
  Action [KNone] (KType) (fun _ s => (default_value (KType), s));  (* 206: line 937 *)
  Action [KString; KNone; KString] (KDefined) (fun x1 _ x3 s => (Defined (Some x1) x3 [], s));  (* 207: line 946 *)
  Action [KString; KNone; KString] (KNone) (fun _ _ _ s => (default_value (KNone), s));  (* 208: line 950 *)
  Action [KString; KNone; KType] (KAssign) (fun x1 _ x3 s => (Assign x1 (AType x3) [], s));  (* 209: line 975 *)
  Action [KString; KType; KNone; KValue] (KAssign) (fun x1 x2 _ x4 s => (Assign x1 (AValue x2 x4) [], s));  (* 210: line 979 *)
  Action [KString; KType; KNone; KNone] (KAssign) (fun x1 x2 _ _ s => (Assign x1 (AType x2) [], s));  (* 211: line 983 *)
  Action [KBuiltin] (KType) (fun x1 s => (x1, s));  (* 212: line 987 *)
  Action [KType] (KType) (fun x1 s => (x1, s));  (* 213: line 990 *)
  Action [KDefined] (KType) (fun x1 s => (TRef x1, s));  (* 214: line 992 *)
  Action [KNone] (KType) (fun _ s => (default_value (KType), s));  (* 215: line 994 *)
  Action [KNone] (KType) (fun _ s => (default_value (KType), s));  (* 216: line 996 *)
  Action [KNone] (KBuiltin) (fun _ s => (TSimple Any, s));  (* 217: line 1000 *)
  Action [KEmpty BitString] (KBuiltin) (fun _ s => (TSimple BitString, s));  (* 218: line 1002 *)
  Action [KEmpty Boolean] (KBuiltin) (fun _ s => (TSimple Boolean, s));  (* 219: line 1003 *)
  Action [KChar] (KBuiltin) (fun x1 s => (TSimple (CharString x1), s));  (* 220: line 1004 *)
  Action [KChoice] (KBuiltin) (fun x1 s => (TChoice x1, s));  (* 221: line 1005 *)
  Action [KEmpty Date] (KBuiltin) (fun _ s => (TSimple Date, s));  (* 222: line 1006 *)
  Action [KEmpty DateTime] (KBuiltin) (fun _ s => (TSimple DateTime, s));  (* 223: line 1007 *)
  Action [KEmpty Duration] (KBuiltin) (fun _ s => (TSimple Duration, s));  (* 224: line 1008 *)
  Action [KEmpty EmbeddedPDV] (KBuiltin) (fun _ s => (TSimple EmbeddedPDV, s));  (* 225: line 1009 *)
  Action [KEnumerated] (KBuiltin) (fun x1 s => (TEnumerated (fst x1) (snd x1), s));  (* 226: line 1010 *)
  Action [KEmpty External] (KBuiltin) (fun _ s => (TSimple External, s));  (* 227: line 1011 *)
  Action [KNone] (KBuiltin) (fun _ s => (TSimple GeneralizedTime, s));  (* 228: line 1012 *)
  Action [KEmpty InstanceOf] (KBuiltin) (fun _ s => (TSimple InstanceOf, s));  (* 229: line 1013 *)
  Action [KInteger] (KBuiltin) (fun x1 s => (TInteger x1, s));  (* 230: line 1014 *)
  Action [KEmpty IRI] (KBuiltin) (fun _ s => (TSimple IRI, s));  (* 231: line 1015 *)
  Action [KEmpty Null] (KBuiltin) (fun _ s => (TSimple Null, s));  (* 232: line 1016 *)
  Action [KField] (KBuiltin) (fun x1 s => (TField (fst x1) (snd x1), s));  (* 233: line 1017 *)
  Action [KNone] (KBuiltin) (fun _ s => (TSimple ObjectDescriptor, s));  (* 234: line 1018 *)
  Action [KEmpty ObjectIdentifier] (KBuiltin) (fun _ s => (TSimple ObjectIdentifier, s));  (* 235: line 1019 *)
  Action [KEmpty OctetString] (KBuiltin) (fun _ s => (TSimple OctetString, s));  (* 236: line 1020 *)
  Action [KEmpty Real] (KBuiltin) (fun _ s => (TSimple Real, s));  (* 237: line 1021 *)
  Action [KEmpty RelativeIRI] (KBuiltin) (fun _ s => (TSimple RelativeIRI, s));  (* 238: line 1022 *)
  Action [KEmpty RelativeOID] (KBuiltin) (fun _ s => (TSimple RelativeOID, s));  (* 239: line 1023 *)
  Action [KSequence] (KBuiltin) (fun x1 s => (TRecord false (fst x1) (snd x1), s));  (* 240: line 1024 *)
  Action [KSequenceOf] (KBuiltin) (fun x1 s => (TListOf false (fst x1) (snd x1), s));  (* 241: line 1025 *)
  Action [KSet] (KBuiltin) (fun x1 s => (TRecord true (fst x1) (snd x1), s));  (* 242: line 1026 *)
  Action [KSetOf] (KBuiltin) (fun x1 s => (TListOf true (fst x1) (snd x1), s));  (* 243: line 1027 *)
  Action [KPrefixed] (KBuiltin) (fun x1 s => (TTagged (fst (fst x1)) (snd (fst x1)) (snd x1), s));  (* 244: line 1028 *)
  Action [KEmpty Time] (KBuiltin) (fun _ s => (TSimple Time, s));  (* 245: line 1029 *)
  Action [KEmpty TimeOfDay] (KBuiltin) (fun _ s => (TSimple TimeOfDay, s));  (* 246: line 1030 *)
  Action [KNone] (KBuiltin) (fun _ s => (TSimple UTCTime, s));  (* 247: line 1031 *)
  Action [KString; KType] (KNamedType) (fun x1 x2 s => ((x1, x2), s));  (* 248: line 1033 *)
  Action [KBool] (KValue) (fun _ s => (default_value (KValue), s));  (* 249: line 1037 *)
  Action [KNone] (KValue) (fun _ s => (default_value (KValue), s));  (* 250: line 1040 *)
  Action [KNone] (KValue) (fun _ s => (default_value (KValue), s));  (* 251: line 1042 *)
  Action [KTime] (KValue) (fun _ s => (default_value (KValue), s));  (* 252: line 1044 *)
  Action [KString] (KValue) (fun x1 s => (VBits x1, s));  (* 253: line 1046 *)
  Action [KString] (KValue) (fun x1 s => (VHex x1, s));  (* 254: line 1048 *)
  Action [KString] (KValue) (fun x1 s => (VChars x1, s));  (* 255: line 1050 *)
  Action [KNone; KValue] (KValue) (fun _ _ s => (default_value (KValue), s));  (* 256: line 1052 *)
  Action [KDefinedValue] (KValue) (fun x1 s => (VDefined x1, s));  (* 257: line 1054 *)
  Action [KString; KNone; KInt64; KNone] (KValue) (fun x1 _ x3 _ s => (VNamed x1 x3, s));  (* 258: line 1056 *)
  Action [KNone] (KValue) (fun _ s => (default_value (KValue), s));  (* 259: line 1058 *)
  Action [KInt64] (KValue) (fun x1 s => (VInt x1, s));  (* 260: line 1059 *)
  Action [KDouble] (KValue) (fun x1 s => (VReal x1, s));  (* 261: line 1061 *)
  Action [KField] (KValue) (fun _ s => (default_value (KValue), s));  (* 262: line 1063 *)
  Action [KValue; KNone; KValue] (KValue) (fun _ _ _ s => (default_value (KValue), s));  (* 263: line 1065 *)
  Action [KString; KNone; KString] (KValue) (fun _ _ _ s => (default_value (KValue), s));  (* 264: line 1069 *)
  Action [KString; KNone; KString] (KValue) (fun _ _ _ s => (default_value (KValue), s));  (* 265: line 1070 *)
  Action [KString] (KValue) (fun _ s => (default_value (KValue), s));  (* 266: line 1071 *)
  Action [KString] (KValue) (fun _ s => (default_value (KValue), s));  (* 267: line 1072 *)
  Action [KNone; KValues; KNone] (KValue) (fun _ x2 _ s => (VList x2, s));  (* 268: line 1073 *)
  Action [KNone] (KValue) (fun _ s => (default_value (KValue), s));  (* 269: line 1075 *)
  Action [KNone] (KValue) (fun _ s => (default_value (KValue), s));  (* 270: line 1077 *)
  Action [KNone] (KValue) (fun _ s => (default_value (KValue), s));  (* 271: line 1079 *)
  Action [KNone] (KValue) (fun _ s => (default_value (KValue), s));  (* 272: line 1081 *)
  Action [KNone] (KValue) (fun _ s => (default_value (KValue), s));  (* 273: line 1083 *)
  Action [KValue] (KValue) (fun x1 s => (x1, s));  (* 274: line 1087 *)
  Action [KString] (KValue) (fun x1 s => (VString x1, s));  (* 275: line 1090 *)
  Action [KNone] (KValue) (fun _ s => (default_value (KValue), s));  (* 276: line 1092 *)
  Action [KValue; KNone; KValue] (KNone) (fun _ _ _ s => (default_value (KNone), s));  (* 277: line 1094 *)
  Action [KNone; KNone; KValue] (KNone) (fun _ _ _ s => (default_value (KNone), s));  (* 278: line 1096 *)
  Action [KValue; KNone; KValue] (KNone) (fun _ _ _ s => (default_value (KNone), s));  (* 279: line 1098 *)
  Action [KNone; KNone; KValue] (KNone) (fun _ _ _ s => (default_value (KNone), s));  (* 280: line 1100 *)
  Action [KNone; KNone; KNone] (KNone) (fun _ _ _ s => (default_value (KNone), s));  (* 281: line 1102 *)
  Action [KValue] (KValues) (fun x1 s => ([x1], s));  (* 282: line 1105 *)
  Action [KValues; KValue] (KValues) (fun x1 x2 s => (x1 ++ [x2], s));  (* 283: line 1108 *)
  Action [KNone] (KEmpty Boolean) (fun _ s => (default_value (KEmpty Boolean), s));  (* 284: line 1115 *)
  Action [KNone] (KBool) (fun _ s => (true, s));  (* 285: line 1118 *)
  Action [KNone] (KBool) (fun _ s => (false, s));  (* 286: line 1121 *)
  Action [KNone] (KInteger) (fun _ s => ([], s));  (* 287: line 1124 *)
  Action [KNone; KNone; KNamedNumbers; KNone] (KInteger) (fun _ _ x3 _ s => (x3, s));  (* 288: line 1127 *)
  Action [KNamedNumber] (KNamedNumbers) (fun x1 s => ([x1], s));  (* 289: line 1130 *)
  Action [KNamedNumbers; KNone; KNamedNumber] (KNamedNumbers) (fun x1 _ x3 s => (x1 ++ [x3], s));  (* 290: line 1133 *)
  Action [KString; KNone; KInt64; KNone] (KNamedNumber) (fun x1 _ x3 _ s => ((x1, x3), s));  (* 291: line 1136 *)
  Action [KString; KNone; KDefinedValue; KNone] (KNamedNumber) (fun x1 _ _ _ s => ((x1, 0%Z), s));  (* 292: line 1139 *)
  Action [KInt64] (KInt64) (fun x1 s => (x1, s));  (* 293: line 1142 *)
  Action [KInt64] (KInt64) (fun x1 s => (x1, s));  (* 294: line 1145 *)
  Action [KNone; KNone; KEnumerated; KNone] (KEnumerated) (fun _ _ x3 _ s => (x3, s));  (* 295: line 1148 *)
  Action [KEnumerated] (KEnumerated) (fun x1 s => ((fst x1, false), s));  (* 296: line 1152 *)
  Action [KEnumerated; KNone; KNone; KNone] (KEnumerated) (fun x1 _ _ _ s => ((fst x1, true), s));  (* 297: line 1156 *)
  Action [KEnumerated; KNone; KNone; KNone; KNone; KEnumerated] (KEnumerated) (fun x1 _ _ _ _ x6 s => ((fst x1 ++ fst x6, true), s));  (* 298: line 1159 *)
  Action [KNone; KNone] (KEnumerated) (fun _ _ s => (default_value (KEnumerated), s));  (* 299: line 1163 *)
  Action [KEnumValue] (KEnumerated) (fun x1 s => (([x1], false), s));  (* 300: line 1165 *)
  Action [KEnumerated; KNone; KEnumValue] (KEnumerated) (fun x1 _ x3 s => ((fst x1 ++ [x3], snd x1), s));  (* 301: line 1168 *)
  Action [KString] (KEnumValue) (fun x1 s => ((x1, None), s));  (* 302: line 1171 *)
  Action [KNamedNumber] (KEnumValue) (fun x1 s => ((fst x1, Some (snd x1)), s));  (* 303: line 1174 *)
  Action [KNone] (KEmpty Real) (fun _ s => (default_value (KEmpty Real), s));  (* 304: line 1181 *)
  Action [KNone; KNone] (KEmpty BitString) (fun _ _ s => (tt, s));  (* 305: line 1184 *)
  Action [KNone; KNone; KNone; KNone; KNone] (KEmpty BitString) (fun _ _ _ _ _ s => (tt, s));  (* 306: line 1187 *)
  Action [KNone] (KNone) (fun _ s => (default_value (KNone), s));  (* 307: line 1190 *)
  Action [KNone; KNone; KNone] (KNone) (fun _ _ _ s => (default_value (KNone), s));  (* 308: line 1192 *)
  Action [KString; KNone; KInt64; KNone] (KNone) (fun _ _ _ _ s => (default_value (KNone), s));  (* 309: line 1194 *)
  Action [KString; KNone; KDefinedValue; KNone] (KNone) (fun _ _ _ _ s => (default_value (KNone), s));  (* 310: line 1196 *)
  Action [KNone; KNone] (KEmpty OctetString) (fun _ _ s => (default_value (KEmpty OctetString), s));  (* 311: line 1209 *)
  Action [KNone] (KEmpty Null) (fun _ s => (default_value (KEmpty Null), s));  (* 312: line 1212 *)
  Action [KNone; KNone; KNone] (KSequence) (fun _ _ _ s => (([], false), s));  (* 313: line 1215 *)
  Action [KNone; KNone; KCollection; KNone] (KSequence) (fun _ _ x3 _ s => (x3, s));  (* 314: line 1218 *)
  Action [KComps] (KCollection) (fun x1 s => ((x1, false), s));  (* 315: line 1221 *)
  Action [KComps; KNone; KNone; KNone] (KCollection) (fun x1 _ _ _ s => ((x1, true), s));  (* 316: line 1224 *)
  Action [KComps; KNone; KNone; KNone; KNone; KComps] (KCollection) (fun x1 _ _ _ _ x6 s => ((x1 ++ x6, true), s));  (* 317: line 1227 *)
  Action [KComps; KNone; KNone; KNone; KNone; KComps; KNone; KNone] (KCollection) (fun x1 _ _ _ _ x6 _ _ s => ((x1 ++ x6, true), s));  (* 318: line 1231 *)
  Action [KComps; KNone; KNone; KNone; KNone; KComps; KNone; KNone; KNone; KComps] (KCollection) (fun x1 _ _ _ _ x6 _ _ _ x10 s => ((x1 ++ x6 ++ x10, true), s));  (* 319: line 1235 *)
  Action [KNone; KNone; KNone; KComps] (KCollection) (fun _ _ _ x4 s => ((x4, true), s));  (* 320: line 1240 *)
  Action [KNone; KNone; KNone; KComps; KNone; KNone] (KCollection) (fun _ _ _ x4 _ _ s => ((x4, true), s));  (* 321: line 1243 *)
  Action [KNone; KNone] (KCollection) (fun _ _ s => (([], true), s));  (* 322: line 1246 *)
  Action [KNone; KNone; KNone; KNone] (KCollection) (fun _ _ _ _ s => (([], true), s));  (* 323: line 1249 *)
  Action [KComp] (KComps) (fun x1 s => ([x1], s));  (* 324: line 1253 *)
  Action [KComps; KNone; KComp] (KComps) (fun x1 _ x3 s => (x1 ++ [x3], s));  (* 325: line 1256 *)
  Action [KType] (KComp) (fun x1 s => (Comp (anon_name (st_anon s)) x1 false None None, State (st_modules s) (st_anon s + 1)%Z));  (* 326: line 1259 *)
  Action [KType; KNone] (KComp) (fun x1 _ s => (Comp (anon_name (st_anon s)) x1 true None None, State (st_modules s) (st_anon s + 1)%Z));  (* 327: line 1263 *)
  Action [KType; KNone; KValue] (KComp) (fun x1 _ x3 s => (Comp (anon_name (st_anon s)) x1 false (Some x3) None, State (st_modules s) (st_anon s + 1)%Z));  (* 328: line 1266 *)
  Action [KNamedType] (KComp) (fun x1 s => (Comp (fst x1) (snd x1) false None None, s));  (* 329: line 1269 *)
  Action [KNamedType; KNone] (KComp) (fun x1 _ s => (Comp (fst x1) (snd x1) true None None, s));  (* 330: line 1271 *)
  Action [KNamedType; KNone; KValue] (KComp) (fun x1 _ x3 s => (Comp (fst x1) (snd x1) false (Some x3) None, s));  (* 331: line 1273 *)
  Action [KNone; KNone; KType] (KComp) (fun _ _ x3 s => (Comp "" any_type false None (Some x3), s));  (* 332: line 1275 *)
  Action [KNone; KNone; KType] (KSequenceOf) (fun _ _ x3 s => ((None, x3), s));  (* 333: line 1286 *)
  Action [KNone; KNone; KNamedType] (KSequenceOf) (fun _ _ x3 s => ((Some (fst x3), snd x3), s));  (* 334: line 1289 *)
  Action [KNone; KNone; KNone] (KSet) (fun _ _ _ s => (([], false), s));  (* 335: line 1292 *)
  Action [KNone; KNone; KCollection; KNone] (KSet) (fun _ _ x3 _ s => (x3, s));  (* 336: line 1295 *)
  Action [KNone; KNone; KType] (KSetOf) (fun _ _ x3 s => ((None, x3), s));  (* 337: line 1298 *)
  Action [KNone; KNone; KNamedType] (KSetOf) (fun _ _ x3 s => ((Some (fst x3), snd x3), s));  (* 338: line 1301 *)
  Action [KNone; KNone; KNamedTypes; KNone] (KChoice) (fun _ _ x3 _ s => (x3, s));  (* 339: line 1304 *)
  Action [KNamedTypes] (KNamedTypes) (fun x1 s => (x1, s));  (* 340: line 1308 *)
  Action [KNamedTypes] (KNamedTypes) (fun x1 s => (x1, s));  (* 341: line 1312 *)
  Action [KNamedTypes; KNone; KNone] (KNamedTypes) (fun x1 _ _ s => (x1, s));  (* 342: line 1315 *)
  Action [KNamedTypes; KNone; KNone; KNone; KNamedTypes] (KNamedTypes) (fun x1 _ _ _ x5 s => (x5 ++ x1, s));  (* 343: line 1317 *)
  Action [KNamedType] (KNamedTypes) (fun x1 s => ([x1], s));  (* 344: line 1320 *)
  Action [KNamedTypes; KNone; KNamedType] (KNamedTypes) (fun x1 _ x3 s => (x1 ++ [x3], s));  (* 345: line 1323 *)
  Action [KString; KNone; KType] (KNone) (fun _ _ _ s => (default_value (KNone), s));  (* 346: line 1329 *)
  Action [KTagged] (KPrefixed) (fun x1 s => (x1, s));  (* 347: line 1332 *)
  Action [KTag; KType] (KTagged) (fun x1 x2 s => ((x1, Automatic, x2), s));  (* 348: line 1336 *)
  Action [KTag; KNone; KType] (KTagged) (fun x1 _ x3 s => ((x1, Implicit, x3), s));  (* 349: line 1339 *)
  Action [KTag; KNone; KType] (KTagged) (fun x1 _ x3 s => ((x1, Explicit, x3), s));  (* 350: line 1341 *)
  Action [KNone; KNone; KClass; KInt; KNone] (KTag) (fun _ _ x3 x4 _ s => ((x3, x4), s));  (* 351: line 1344 *)
  Action [KNone; KNone] (KNone) (fun _ _ s => (default_value (KNone), s));  (* 352: line 1348 *)
  Action [] (KNone) (fun  s => (default_value (KNone), s));  (* 353: line 1350 *)
  Action [KInt64] (KInt) (fun x1 s => (to_int x1, s));  (* 354: line 1352 *)
  Action [KDefinedValue] (KInt) (fun _ s => (default_value (KInt), s));  (* 355: line 1355 *)
  Action [KNone] (KClass) (fun _ s => (universal, s));  (* 356: line 1357 *)
  Action [KNone] (KClass) (fun _ s => (application, s));  (* 357: line 1360 *)
  Action [KNone] (KClass) (fun _ s => (private_, s));  (* 358: line 1362 *)
  Action [] (KClass) (fun  s => (context_specific, s));  (* 359: line 1364 *)
  Action [KNone; KNone] (KEmpty ObjectIdentifier) (fun _ _ s => (default_value (KEmpty ObjectIdentifier), s));  (* 360: line 1373 *)
  Action [KNone; KOidComps; KNone] (KOidComps) (fun _ x2 _ s => (rev x2, s));  (* 361: line 1376 *)
  Action [KNone; KDefinedValue; KOidComps; KNone] (KOidComps) (fun _ _ x3 _ s => (rev x3, s));  (* 362: line 1379 *)
  Action [KOidComp] (KOidComps) (fun x1 s => ([x1], s));  (* 363: line 1382 *)
  Action [KOidComp; KOidComps] (KOidComps) (fun x1 x2 s => (x2 ++ [x1], s));  (* 364: line 1385 *)
  Action [KOidComp] (KOidComp) (fun x1 s => (x1, s));  (* 365: line 1388 *)
  Action [KOidComp] (KOidComp) (fun x1 s => (x1, s));  (* 366: line 1391 *)
  Action [KOidComp] (KOidComp) (fun x1 s => (x1, s));  (* 367: line 1393 *)
  Action [KString] (KOidComp) (fun x1 s => ((Some x1, None), s));  (* 368: line 1396 *)
  Action [KInt64] (KOidComp) (fun x1 s => ((None, Some x1), s));  (* 369: line 1400 *)
  Action [KDefinedValue] (KOidComp) (fun _ s => (default_value (KOidComp), s));  (* 370: line 1403 *)
  Action [KString; KNone; KOidComp; KNone] (KOidComp) (fun x1 _ x3 _ s => ((Some x1, snd x3), s));  (* 371: line 1405 *)
  Action [KNone] (KEmpty RelativeOID) (fun _ s => (default_value (KEmpty RelativeOID), s));  (* 372: line 1409 *)
  Action [KNone] (KEmpty IRI) (fun _ s => (default_value (KEmpty IRI), s));  (* 373: line 1421 *)
  Action [KNone; KNone; KNone; KNone] (KNone) (fun _ _ _ _ s => (default_value (KNone), s));  (* 374: line 1424 *)
  Action [KNone; KNone] (KNone) (fun _ _ s => (default_value (KNone), s));  (* 375: line 1430 *)
  Action [KNone; KNone; KNone] (KNone) (fun _ _ _ s => (default_value (KNone), s));  (* 376: line 1433 *)
  Action [] (KNone) (fun  s => (default_value (KNone), s));  (* 377: line 1435 *)
  Action [KNone] (KNone) (fun _ s => (default_value (KNone), s));  (* 378: line 1437 *)
  Action [KNone] (KNone) (fun _ s => (default_value (KNone), s));  (* 379: line 1439 *)
  Action [KNone] (KEmpty RelativeIRI) (fun _ s => (default_value (KEmpty RelativeIRI), s));  (* 380: line 1441 *)
  Action [KNone; KNone] (KEmpty EmbeddedPDV) (fun _ _ s => (default_value (KEmpty EmbeddedPDV), s));  (* 381: line 1447 *)
  Action [KNone] (KEmpty External) (fun _ s => (default_value (KEmpty External), s));  (* 382: line 1454 *)
  Action [KNone] (KEmpty Time) (fun _ s => (default_value (KEmpty Time), s));  (* 383: line 1460 *)
  Action [KNone] (KTime) (fun _ s => (default_value (KTime), s));  (* 384: line 1463 *)
  Action [KNone] (KEmpty Date) (fun _ s => (default_value (KEmpty Date), s));  (* 385: line 1466 *)
  Action [KNone] (KEmpty TimeOfDay) (fun _ s => (default_value (KEmpty TimeOfDay), s));  (* 386: line 1469 *)
  Action [KNone] (KEmpty DateTime) (fun _ s => (default_value (KEmpty DateTime), s));  (* 387: line 1472 *)
  Action [KNone] (KEmpty Duration) (fun _ s => (default_value (KEmpty Duration), s));  (* 388: line 1475 *)
  Action [KChar] (KChar) (fun x1 s => (x1, s));  (* 389: line 1478 *)
  Action [KChar] (KChar) (fun x1 s => (x1, s));  (* 390: line 1481 *)
  Action [KNone] (KChar) (fun _ s => (bmp_string, s));  (* 391: line 1484 *)
  Action [KNone] (KChar) (fun _ s => (general_string, s));  (* 392: line 1487 *)
  Action [KNone] (KChar) (fun _ s => (graphic_string, s));  (* 393: line 1489 *)
  Action [KNone] (KChar) (fun _ s => (ia5_string, s));  (* 394: line 1491 *)
  Action [KNone] (KChar) (fun _ s => (iso646_string, s));  (* 395: line 1493 *)
  Action [KNone] (KChar) (fun _ s => (numeric_string, s));  (* 396: line 1495 *)
  Action [KNone] (KChar) (fun _ s => (printable_string, s));  (* 397: line 1497 *)
  Action [KNone] (KChar) (fun _ s => (teletex_string, s));  (* 398: line 1499 *)
  Action [KNone] (KChar) (fun _ s => (t61_string, s));  (* 399: line 1501 *)
  Action [KNone] (KChar) (fun _ s => (universal_string, s));  (* 400: line 1503 *)
  Action [KNone] (KChar) (fun _ s => (utf8_string, s));  (* 401: line 1505 *)
  Action [KNone] (KChar) (fun _ s => (videotex_string, s));  (* 402: line 1507 *)
  Action [KNone] (KChar) (fun _ s => (visible_string, s));  (* 403: line 1509 *)
  Action [KNone; KNone] (KChar) (fun _ _ s => (character_string, s));  (* 404: line 1512 *)
  Action [KType; KNone] (KType) (fun x1 _ s => (x1, s));  (* 405: line 1516 *)
  Action [KType] (KType) (fun x1 s => (x1, s));  (* 406: line 1519 *)
  Action [KNone; KNone; KNone; KType] (KType) (fun _ _ _ x4 s => (TListOf true None x4, s));  (* 407: line 1522 *)
  Action [KNone; KNone; KNone; KType] (KType) (fun _ _ _ x4 s => (TListOf true None x4, s));  (* 408: line 1525 *)
  Action [KNone; KNone; KNone; KType] (KType) (fun _ _ _ x4 s => (TListOf false None x4, s));  (* 409: line 1527 *)
  Action [KNone; KNone; KNone; KType] (KType) (fun _ _ _ x4 s => (TListOf false None x4, s));  (* 410: line 1529 *)
  Action [KNone; KNone; KNone; KNamedType] (KType) (fun _ _ _ x4 s => (TListOf true (Some (fst x4)) (snd x4), s));  (* 411: line 1531 *)
  Action [KNone; KNone; KNone; KNamedType] (KType) (fun _ _ _ x4 s => (TListOf true (Some (fst x4)) (snd x4), s));  (* 412: line 1533 *)
  Action [KNone; KNone; KNone; KNamedType] (KType) (fun _ _ _ x4 s => (TListOf false (Some (fst x4)) (snd x4), s));  (* 413: line 1535 *)
  Action [KNone; KNone; KNone; KNamedType] (KType) (fun _ _ _ x4 s => (TListOf false (Some (fst x4)) (snd x4), s));  (* 414: line 1537 *)
  Action [KNone; KNone; KNone; KNone] (KNone) (fun _ _ _ _ s => (default_value (KNone), s));  (* 415: line 1540 *)
  Action [KNone] (KNone) (fun _ s => (default_value (KNone), s));  (* 416: line 1544 *)
  Action [KNone] (KNone) (fun _ s => (default_value (KNone), s));  (* 417: line 1546 *)
  Action [KNone] (KNone) (fun _ s => (default_value (KNone), s));  (* 418: line 1548 *)
  Action [KNone] (KNone) (fun _ s => (default_value (KNone), s));  (* 419: line 1551 *)
  Action [KNone; KNone; KNone] (KNone) (fun _ _ _ s => (default_value (KNone), s));  (* 420: line 1553 *)
  Action [KNone; KNone; KNone; KNone; KNone] (KNone) (fun _ _ _ _ _ s => (default_value (KNone), s));  (* 421: line 1554 *)
  Action [KNone] (KNone) (fun _ s => (default_value (KNone), s));  (* 422: line 1556 *)
  Action [KNone; KNone] (KNone) (fun _ _ s => (default_value (KNone), s));  (* 423: line 1558 *)
  Action [KNone] (KNone) (fun _ s => (default_value (KNone), s));  (* 424: line 1560 *)
  Action [KNone; KNone; KNone] (KNone) (fun _ _ _ s => (default_value (KNone), s));  (* 425: line 1562 *)
  Action [KNone] (KNone) (fun _ s => (default_value (KNone), s));  (* 426: line 1564 *)
  Action [KNone] (KNone) (fun _ s => (default_value (KNone), s));  (* 427: line 1567 *)
  Action [KNone; KNone; KNone] (KNone) (fun _ _ _ s => (default_value (KNone), s));  (* 428: line 1569 *)
  Action [KNone] (KNone) (fun _ s => (default_value (KNone), s));  (* 429: line 1571 *)
  Action [KNone] (KNone) (fun _ s => (default_value (KNone), s));  (* 430: line 1574 *)
  Action [KNone; KNone] (KNone) (fun _ _ s => (default_value (KNone), s));  (* 431: line 1576 *)
  Action [KNone] (KNone) (fun _ s => (default_value (KNone), s));  (* 432: line 1578 *)
  Action [KNone; KNone] (KNone) (fun _ _ s => (default_value (KNone), s));  (* 433: line 1581 *)
  Action [KNone] (KNone) (fun _ s => (default_value (KNone), s));  (* 434: line 1584 *)
  Action [KNone] (KNone) (fun _ s => (default_value (KNone), s));  (* 435: line 1586 *)
  Action [KNone] (KNone) (fun _ s => (default_value (KNone), s));  (* 436: line 1588 *)
  Action [KNone] (KNone) (fun _ s => (default_value (KNone), s));  (* 437: line 1590 *)
  Action [KNone] (KNone) (fun _ s => (default_value (KNone), s));  (* 438: line 1592 *)
  Action [KNone; KNone; KNone] (KNone) (fun _ _ _ s => (default_value (KNone), s));  (* 439: line 1595 *)
  Action [KValue] (KNone) (fun _ s => (default_value (KNone), s));  (* 440: line 1597 *)
  Action [KNone] (KNone) (fun _ s => (default_value (KNone), s));  (* 441: line 1599 *)
  Action [KNone] (KNone) (fun _ s => (default_value (KNone), s));  (* 442: line 1600 *)
  Action [KNone] (KNone) (fun _ s => (default_value (KNone), s));  (* 443: line 1601 *)
  Action [KNone] (KNone) (fun _ s => (default_value (KNone), s));  (* 444: line 1602 *)
  Action [KNone] (KNone) (fun _ s => (default_value (KNone), s));  (* 445: line 1603 *)
  Action [KNone] (KNone) (fun _ s => (default_value (KNone), s));  (* 446: line 1604 *)
  Action [KNone] (KNone) (fun _ s => (default_value (KNone), s));  (* 447: line 1605 *)
  Action [KNone] (KNone) (fun _ s => (default_value (KNone), s));  (* 448: line 1606 *)
  Action [KBool] (KValue) (fun x1 s => (VBoolean x1, s));  (* 449: line 1611 *)
  Action [KNone] (KValue) (fun _ s => (VNull, s));  (* 450: line 1615 *)
  Action [KTime] (KValue) (fun x1 s => (VTime x1, s));  (* 451: line 1617 *)
  Action [KString] (KValue) (fun x1 s => (VString x1, s));  (* 452: line 1619 *)
  Action [KString] (KValue) (fun x1 s => (VString x1, s));  (* 453: line 1621 *)
  Action [KString] (KValue) (fun x1 s => (VString x1, s));  (* 454: line 1623 *)
  Action [KString] (KValue) (fun x1 s => (VString x1, s));  (* 455: line 1625 *)
  Action [KDefinedValue] (KValue) (fun x1 s => (VDefined x1, s));  (* 456: line 1627 *)
  Action [KInt64] (KValue) (fun x1 s => (VInt x1, s));  (* 457: line 1629 *)
  Action [KDouble] (KValue) (fun x1 s => (VReal x1, s));  (* 458: line 1631 *)
  Action [KNone; KType] (KNone) (fun _ _ s => (default_value (KNone), s));  (* 459: line 1634 *)
  Action [KNone] (KNone) (fun _ s => (default_value (KNone), s));  (* 460: line 1637 *)
  Action [KNone; KNone; KNone] (KNone) (fun _ _ _ s => (default_value (KNone), s));  (* 461: line 1640 *)
  Action [KNone] (KNone) (fun _ s => (default_value (KNone), s));  (* 462: line 1643 *)
  Action [KNone; KNone] (KNone) (fun _ _ s => (default_value (KNone), s));  (* 463: line 1645 *)
  Action [KNone] (KNone) (fun _ s => (default_value (KNone), s));  (* 464: line 1647 *)
  Action [KNone; KNone] (KNone) (fun _ _ s => (default_value (KNone), s));  (* 465: line 1649 *)
  Action [KValue] (KNone) (fun _ s => (default_value (KNone), s));  (* 466: line 1651 *)
  Action [KNone] (KNone) (fun _ s => (default_value (KNone), s));  (* 467: line 1653 *)
  Action [KValue] (KNone) (fun _ s => (default_value (KNone), s));  (* 468: line 1655 *)
  Action [KNone] (KNone) (fun _ s => (default_value (KNone), s));  (* 469: line 1657 *)
  Action [KNone; KNone] (KNone) (fun _ _ s => (default_value (KNone), s));  (* 470: line 1659 *)
  Action [KType] (KNone) (fun _ s => (default_value (KNone), s));  (* 471: line 1662 *)
  Action [KNone; KNone] (KNone) (fun _ _ s => (default_value (KNone), s));  (* 472: line 1665 *)
  Action [KNone; KNone; KNone] (KNone) (fun _ _ _ s => (default_value (KNone), s));  (* 473: line 1668 *)
  Action [KNone; KNone; KNone] (KNone) (fun _ _ _ s => (default_value (KNone), s));  (* 474: line 1670 *)
  Action [KNone] (KNone) (fun _ s => (default_value (KNone), s));  (* 475: line 1672 *)
  Action [] (KNone) (fun  s => (default_value (KNone), s));  (* 476: line 1675 *)
  Action [KNone; KNone; KNone] (KNone) (fun _ _ _ s => (default_value (KNone), s));  (* 477: line 1676 *)
  Action [KNone; KNone; KNone; KNone; KNone] (KNone) (fun _ _ _ _ _ s => (default_value (KNone), s));  (* 478: line 1677 *)
  Action [KNone; KNone; KNone] (KNone) (fun _ _ _ s => (default_value (KNone), s));  (* 479: line 1678 *)
  Action [KNone] (KNone) (fun _ s => (default_value (KNone), s));  (* 480: line 1680 *)
  Action [KNone; KNone; KNone] (KNone) (fun _ _ _ s => (default_value (KNone), s));  (* 481: line 1682 *)
  Action [KString; KNone] (KNone) (fun _ _ s => (default_value (KNone), s));  (* 482: line 1684 *)
  Action [KNone; KNone] (KNone) (fun _ _ s => (default_value (KNone), s));  (* 483: line 1687 *)
  Action [KNone] (KNone) (fun _ s => (default_value (KNone), s));  (* 484: line 1690 *)
  Action [] (KNone) (fun  s => (default_value (KNone), s));  (* 485: line 1692 *)
  Action [KNone] (KNone) (fun _ s => (default_value (KNone), s));  (* 486: line 1694 *)
  Action [KNone] (KNone) (fun _ s => (default_value (KNone), s));  (* 487: line 1696 *)
  Action [KNone] (KNone) (fun _ s => (default_value (KNone), s));  (* 488: line 1697 *)
  Action [] (KNone) (fun  s => (default_value (KNone), s));  (* 489: line 1698 *)
  Action [KNone; KValue] (KNone) (fun _ _ s => (default_value (KNone), s));  (* 490: line 1700 *)
  Action [KNone; KString] (KNone) (fun _ _ s => (default_value (KNone), s));  (* 491: line 1703 *)
  Action [KNone; KNone] (KNone) (fun _ _ s => (default_value (KNone), s));  (* 492: line 1706 *)
  Action [] (KNone) (fun  s => (default_value (KNone), s));  (* 493: line 1708 *)
  Action [KInt64] (KNone) (fun _ s => (default_value (KNone), s));  (* 494: line 1710 *)
  Action [KDefinedValue] (KNone) (fun _ s => (default_value (KNone), s));  (* 495: line 1712 *)
  Action [KType; KNone; KValue] (KNone) (fun _ _ _ s => (default_value (KNone), s));  (* 496: line 1713 *)
  Action [KString] (KString) (fun x1 s => (x1, s));  (* 497: line 1715 *)
  Action [KString] (KString) (fun x1 s => (x1, s));  (* 498: line 1719 *)
  Action [KString] (KString) (fun x1 s => (x1, s));  (* 499: line 1723 *)
  Action [KString] (KString) (fun x1 s => (x1, s));  (* 500: line 1727 *)
  Action [KString] (KString) (fun x1 s => (x1, s));  (* 501: line 1731 *)
  Action [KString] (KString) (fun x1 s => (x1, s));  (* 502: line 1735 *)
  Action [KNone] (KString) (fun _ s => (default_value (KString), s));  (* 503: line 1737 *)
  Action [KNone] (KString) (fun _ s => (default_value (KString), s));  (* 504: line 1738 *)
  Action [KNone] (KString) (fun _ s => (default_value (KString), s));  (* 505: line 1739 *)
  Action [KNone] (KString) (fun _ s => (default_value (KString), s));  (* 506: line 1740 *)
  Action [KNone] (KString) (fun _ s => (default_value (KString), s));  (* 507: line 1741 *)
  Action [KNone] (KString) (fun _ s => (default_value (KString), s));  (* 508: line 1742 *)
  Action [KNone] (KString) (fun _ s => (default_value (KString), s));  (* 509: line 1743 *)
  Action [KNone] (KString) (fun _ s => (default_value (KString), s));  (* 510: line 1744 *)
  Action [KNone] (KString) (fun _ s => (default_value (KString), s));  (* 511: line 1745 *)
  Action [KNone] (KString) (fun _ s => (default_value (KString), s));  (* 512: line 1746 *)
  Action [KNone] (KString) (fun _ s => (default_value (KString), s));  (* 513: line 1747 *)
  Action [KNone] (KString) (fun _ s => (default_value (KString), s));  (* 514: line 1748 *)
  Action [KNone] (KString) (fun _ s => (default_value (KString), s));  (* 515: line 1749 *)
  Action [KNone] (KString) (fun _ s => (default_value (KString), s));  (* 516: line 1750 *)
  Action [KNone] (KString) (fun _ s => (default_value (KString), s));  (* 517: line 1751 *)
  Action [KNone] (KString) (fun _ s => (default_value (KString), s));  (* 518: line 1752 *)
  Action [KNone] (KString) (fun _ s => (default_value (KString), s));  (* 519: line 1753 *)
  Action [KNone] (KString) (fun _ s => (default_value (KString), s));  (* 520: line 1754 *)
  Action [KNone] (KString) (fun _ s => (default_value (KString), s));  (* 521: line 1755 *)
  Action [KNone] (KString) (fun _ s => (default_value (KString), s));  (* 522: line 1756 *)
  Action [KNone] (KString) (fun _ s => (default_value (KString), s));  (* 523: line 1757 *)
  Action [KNone] (KString) (fun _ s => (default_value (KString), s));  (* 524: line 1758 *)
  Action [KNone] (KString) (fun _ s => (default_value (KString), s));  (* 525: line 1759 *)
  Action [KNone] (KString) (fun _ s => (default_value (KString), s));  (* 526: line 1760 *)
  Action [KNone] (KString) (fun _ s => (default_value (KString), s));  (* 527: line 1761 *)
  Action [KNone] (KString) (fun _ s => (default_value (KString), s));  (* 528: line 1762 *)
  Action [KNone] (KString) (fun _ s => (default_value (KString), s));  (* 529: line 1763 *)
  Action [KNone] (KString) (fun _ s => (default_value (KString), s));  (* 530: line 1764 *)
  Action [KNone] (KString) (fun _ s => (default_value (KString), s));  (* 531: line 1765 *)
  Action [KNone] (KString) (fun _ s => (default_value (KString), s));  (* 532: line 1766 *)
  Action [KNone] (KString) (fun _ s => (default_value (KString), s));  (* 533: line 1767 *)
  Action [KNone] (KString) (fun _ s => (default_value (KString), s));  (* 534: line 1768 *)
  Action [KNone] (KString) (fun _ s => (default_value (KString), s));  (* 535: line 1769 *)
  Action [KNone] (KString) (fun _ s => (default_value (KString), s));  (* 536: line 1770 *)
  Action [KNone] (KString) (fun _ s => (default_value (KString), s));  (* 537: line 1771 *)
  Action [KNone] (KString) (fun _ s => (default_value (KString), s));  (* 538: line 1772 *)
  Action [KNone] (KString) (fun _ s => (default_value (KString), s));  (* 539: line 1773 *)
  Action [KNone] (KString) (fun _ s => (default_value (KString), s));  (* 540: line 1774 *)
  Action [KNone] (KString) (fun _ s => (default_value (KString), s));  (* 541: line 1775 *)
  Action [KNone] (KString) (fun _ s => (default_value (KString), s));  (* 542: line 1776 *)
  Action [KNone] (KString) (fun _ s => (default_value (KString), s));  (* 543: line 1777 *)
  Action [KNone] (KString) (fun _ s => (default_value (KString), s));  (* 544: line 1778 *)
  Action [KNone] (KString) (fun _ s => (default_value (KString), s));  (* 545: line 1779 *)
  Action [KNone] (KString) (fun _ s => (default_value (KString), s));  (* 546: line 1780 *)
  Action [KNone] (KString) (fun _ s => (default_value (KString), s));  (* 547: line 1781 *)
  Action [KNone] (KString) (fun _ s => (default_value (KString), s));  (* 548: line 1782 *)
  Action [KNone] (KString) (fun _ s => (default_value (KString), s));  (* 549: line 1783 *)
  Action [KNone] (KString) (fun _ s => (default_value (KString), s));  (* 550: line 1784 *)
  Action [KNone] (KString) (fun _ s => (default_value (KString), s));  (* 551: line 1785 *)
  Action [KNone] (KString) (fun _ s => (default_value (KString), s));  (* 552: line 1786 *)
  Action [KNone] (KString) (fun _ s => (default_value (KString), s));  (* 553: line 1787 *)
  Action [KNone] (KString) (fun _ s => (default_value (KString), s));  (* 554: line 1788 *)
  Action [KNone] (KString) (fun _ s => (default_value (KString), s));  (* 555: line 1789 *)
  Action [KNone] (KString) (fun _ s => (default_value (KString), s));  (* 556: line 1790 *)
  Action [KNone] (KString) (fun _ s => (default_value (KString), s));  (* 557: line 1791 *)
  Action [KNone] (KString) (fun _ s => (default_value (KString), s));  (* 558: line 1792 *)
  Action [KNone] (KString) (fun _ s => (default_value (KString), s));  (* 559: line 1793 *)
  Action [KNone] (KString) (fun _ s => (default_value (KString), s));  (* 560: line 1794 *)
  Action [KNone] (KString) (fun _ s => (default_value (KString), s));  (* 561: line 1795 *)
  Action [KNone] (KString) (fun _ s => (default_value (KString), s));  (* 562: line 1796 *)
  Action [KNone] (KString) (fun _ s => (default_value (KString), s));  (* 563: line 1797 *)
  Action [KNone] (KString) (fun _ s => (default_value (KString), s));  (* 564: line 1798 *)
  Action [KNone] (KString) (fun _ s => (default_value (KString), s));  (* 565: line 1799 *)
  Action [KNone] (KString) (fun _ s => (default_value (KString), s));  (* 566: line 1800 *)
  Action [KNone] (KString) (fun _ s => (default_value (KString), s));  (* 567: line 1801 *)
  Action [KNone] (KString) (fun _ s => (default_value (KString), s));  (* 568: line 1802 *)
  Action [KNone] (KString) (fun _ s => (default_value (KString), s));  (* 569: line 1803 *)
  Action [KNone] (KString) (fun _ s => (default_value (KString), s));  (* 570: line 1804 *)
  Action [KNone] (KString) (fun _ s => (default_value (KString), s));  (* 571: line 1805 *)
  Action [KNone] (KString) (fun _ s => (default_value (KString), s));  (* 572: line 1806 *)
  Action [KNone] (KString) (fun _ s => (default_value (KString), s));  (* 573: line 1807 *)
  Action [KNone] (KString) (fun _ s => (default_value (KString), s));  (* 574: line 1808 *)
  Action [KNone] (KString) (fun _ s => (default_value (KString), s));  (* 575: line 1809 *)
  Action [KNone] (KString) (fun _ s => (default_value (KString), s));  (* 576: line 1810 *)
  Action [KNone] (KString) (fun _ s => (default_value (KString), s));  (* 577: line 1811 *)
  Action [KNone] (KString) (fun _ s => (default_value (KString), s))  (* 578: line 1812 *)
].
