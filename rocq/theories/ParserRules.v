(** Generated by tools/gen_parser_rules.py: the rules of the subset of the grammar, one by one, as lemmas. *)
From Coq Require Import List String ZArith NArith Bool.
From Verif Require Import Base Lexer ParserTree ParserActions ParserFile ParserComplete ParserPhrases ParserSource.
Import ListNotations.
Local Open Scope string_scope.
Local Open Scope list_scope.
Notation sem := (existT denote).
Definition n_ModuleDefinitionList : Z := 154%Z.
Definition n_ModuleDefinition : Z := 155%Z.
Definition n_ModuleIdentifier : Z := 228%Z.
Definition n_EncodingReferenceDefault : Z := 236%Z.
Definition n_TagDefault : Z := 237%Z.
Definition n_ExtensionDefault : Z := 238%Z.
Definition n_ModuleBody : Z := 239%Z.
Definition n_EncodingControlSections : Z := 227%Z.
Definition n_ObjectClassAssignment : Z := 160%Z.
Definition n_typereference : Z := 372%Z.
Definition n_ObjectClass : Z := 161%Z.
Definition n_ObjectClassDefn : Z := 162%Z.
Definition n_FieldSpecList : Z := 163%Z.
Definition n_WithSyntaxSpec : Z := 180%Z.
Definition n_FieldSpec : Z := 164%Z.
Definition n_TypeFieldSpec : Z := 167%Z.
Definition n_FixedTypeValueFieldSpec : Z := 171%Z.
Definition n_FieldName : Z := 165%Z.
Definition n_FieldNameList : Z := 166%Z.
Definition n_OneOrManyTypeFieldReference : Z := 168%Z.
Definition n_TypeOptionalitySpec : Z := 169%Z.
Definition n_OptionalUnique : Z := 170%Z.
Definition n_Type : Z := 263%Z.
Definition n_ValueOptionalitySpec : Z := 172%Z.
Definition n_SingleValue : Z := 349%Z.
Definition n_ObjectSetOptionalitySpec : Z := 179%Z.
Definition n_ObjectClassFieldType : Z := 202%Z.
Definition n_ParameterizedAssignment : Z := 203%Z.
Definition n_ParameterizedTypeAssignment : Z := 204%Z.
Definition n_ParameterList : Z := 208%Z.
Definition n_ParameterSeries : Z := 209%Z.
Definition n_Parameter : Z := 210%Z.
Definition n_ParamGovernor : Z := 211%Z.
Definition n_Reference : Z := 249%Z.
Definition n_Reference_1 : Z := 404%Z.
Definition n_Governor : Z := 212%Z.
Definition n_Type_2 : Z := 406%Z.
Definition n_SimpleDefinedType : Z := 216%Z.
Definition n_modulereference : Z := 375%Z.
Definition n_DefinitiveIdentification : Z := 229%Z.
Definition n_DefinitiveOID : Z := 230%Z.
Definition n_DefinitiveOIDandIRI : Z := 231%Z.
Definition n_DefinitiveObjIdComponentList : Z := 232%Z.
Definition n_DefinitiveObjIdComponent : Z := 233%Z.
Definition n_NameForm : Z := 310%Z.
Definition n_DefinitiveNumberForm : Z := 234%Z.
Definition n_DefinitiveNameAndNumberForm : Z := 235%Z.
Definition n_identifier : Z := 373%Z.
Definition n_Exports : Z := 240%Z.
Definition n_Imports : Z := 242%Z.
Definition n_AssignmentList : Z := 250%Z.
Definition n_SymbolsExported : Z := 241%Z.
Definition n_SymbolList : Z := 247%Z.
Definition n_SymbolsImported : Z := 243%Z.
Definition n_SymbolsFromModuleList : Z := 244%Z.
Definition n_SymbolsFromModule : Z := 245%Z.
Definition n_GlobalModuleReference : Z := 246%Z.
Definition n_ObjectIdentifierValue : Z := 307%Z.
Definition n_Symbol : Z := 248%Z.
Definition n_valuereference : Z := 374%Z.
Definition n_Assignment : Z := 251%Z.
Definition n_TypeAssignment : Z := 260%Z.
Definition n_ValueAssignment : Z := 261%Z.
Definition n_ValueSetTypeAssignment : Z := 262%Z.
Definition n_ObjectSetAssignment : Z := 199%Z.
Definition n_DefinedType : Z := 252%Z.
Definition n_ExternalTypeReference : Z := 258%Z.
Definition n_ParameterizedType : Z := 254%Z.
Definition n_DefinedValue : Z := 253%Z.
Definition n_ParameterizedValue : Z := 255%Z.
Definition n_ActualParameterList : Z := 256%Z.
Definition n_ActualParameter : Z := 257%Z.
Definition n_Type_1 : Z := 400%Z.
Definition n_Value : Z := 267%Z.
Definition n_BuiltinType : Z := 264%Z.
Definition n_ConstrainedType : Z := 331%Z.
Definition n_BitStringType : Z := 283%Z.
Definition n_BooleanType : Z := 272%Z.
Definition n_CharacterStringType : Z := 328%Z.
Definition n_ChoiceType : Z := 295%Z.
Definition n_DateType : Z := 324%Z.
Definition n_DateTimeType : Z := 326%Z.
Definition n_DurationType : Z := 327%Z.
Definition n_EmbeddedPDVType : Z := 320%Z.
Definition n_EnumeratedType : Z := 278%Z.
Definition n_ExternalType : Z := 321%Z.
Definition n_InstanceOfType : Z := 215%Z.
Definition n_IntegerType : Z := 274%Z.
Definition n_IRIType : Z := 314%Z.
Definition n_NullType : Z := 287%Z.
Definition n_ObjectIdentifierType : Z := 306%Z.
Definition n_OctetStringType : Z := 286%Z.
Definition n_RealType : Z := 282%Z.
Definition n_RelativeIRIType : Z := 319%Z.
Definition n_RelativeOIDType : Z := 313%Z.
Definition n_SequenceType : Z := 288%Z.
Definition n_SequenceOfType : Z := 292%Z.
Definition n_SetType : Z := 293%Z.
Definition n_SetOfType : Z := 294%Z.
Definition n_PrefixedType : Z := 300%Z.
Definition n_TimeType : Z := 322%Z.
Definition n_TimeOfDayType : Z := 325%Z.
Definition n_NamedType : Z := 265%Z.
Definition n_ValueWithoutTypeIdentifier : Z := 266%Z.
Definition n_BooleanValue : Z := 273%Z.
Definition n_IRIValue : Z := 315%Z.
Definition n_TimeValue : Z := 323%Z.
Definition n_SignedNumber : Z := 277%Z.
Definition n_SequenceOfValues : Z := 271%Z.
Definition n_NamedNumberList : Z := 275%Z.
Definition n_NamedNumber : Z := 276%Z.
Definition n_Enumerations : Z := 279%Z.
Definition n_Enumeration : Z := 280%Z.
Definition n_ExceptionSpec : Z := 370%Z.
Definition n_EnumerationItem : Z := 281%Z.
Definition n_NamedBitList : Z := 284%Z.
Definition n_NamedBit : Z := 285%Z.
Definition n_ComponentTypeLists : Z := 289%Z.
Definition n_ComponentTypeList : Z := 290%Z.
Definition n_ComponentType : Z := 291%Z.
Definition n_AlternativeTypeLists : Z := 296%Z.
Definition n_RootAlternativeTypeList : Z := 297%Z.
Definition n_AlternativeTypeList : Z := 298%Z.
Definition n_SelectionType : Z := 299%Z.
Definition n_TaggedType : Z := 301%Z.
Definition n_Tag : Z := 302%Z.
Definition n_EncodingReference : Z := 303%Z.
Definition n_Class : Z := 305%Z.
Definition n_ClassNumber : Z := 304%Z.
Definition n_ObjIdComponentsList : Z := 308%Z.
Definition n_ObjIdComponents : Z := 309%Z.
Definition n_NumberForm : Z := 311%Z.
Definition n_NameAndNumberForm : Z := 312%Z.
Definition n_RestrictedCharacterStringType : Z := 329%Z.
Definition n_UnrestrictedCharacterStringType : Z := 330%Z.
Definition n_Constraint : Z := 333%Z.
Definition n_TypeWithConstraint : Z := 332%Z.
Definition n_SizeConstraint : Z := 357%Z.
Definition n_ConstraintSpec : Z := 334%Z.
Definition n_SubtypeConstraint : Z := 335%Z.
Definition n_GeneralConstraint : Z := 218%Z.
Definition n_ElementSetSpecs : Z := 336%Z.
Definition n_ElementSetSpec : Z := 337%Z.
Definition n_Unions : Z := 338%Z.
Definition n_Exclusions : Z := 344%Z.
Definition n_Intersections : Z := 340%Z.
Definition n_UElems : Z := 339%Z.
Definition n_UnionMark : Z := 345%Z.
Definition n_IntersectionElements : Z := 342%Z.
Definition n_IElems : Z := 341%Z.
Definition n_IntersectionMark : Z := 346%Z.
Definition n_Elements : Z := 347%Z.
Definition n_Elems : Z := 343%Z.
Definition n_SubtypeElements : Z := 348%Z.
Definition n_SingleValue_1 : Z := 402%Z.
Definition n_ContainedSubtype : Z := 350%Z.
Definition n_ValueRange : Z := 352%Z.
Definition n_PermittedAlphabet : Z := 359%Z.
Definition n_InnerTypeConstraints : Z := 360%Z.
Definition n_PatternConstraint : Z := 368%Z.
Definition n_PropertySettings : Z := 369%Z.
Definition n_Includes : Z := 351%Z.
Definition n_LowerEndpoint : Z := 353%Z.
Definition n_UpperEndpoint : Z := 354%Z.
Definition n_LowerEndValue : Z := 355%Z.
Definition n_UpperEndValue : Z := 356%Z.
Definition n_BuiltinType_1 : Z := 401%Z.
Definition n_TypeFromObject : Z := 214%Z.
Definition n_DefinedValue_1 : Z := 403%Z.
Definition n_valuereference_1 : Z := 405%Z.
Definition n_ConstrainedType_2 : Z := 408%Z.
Definition n_DefinedType_2 : Z := 407%Z.
Lemma r_2 (t1 : list Lexer.token) (s1 : state) (ts : list Lexer.token) (next : string) (s : state) : ph n_ModuleDefinition t1 next s (sem KNone tt) s1 -> ts = t1 ->
  ph n_ModuleDefinitionList ts next s (sem KNone (tt)) (s1).
Proof.
  intros; subst. eapply ph_rule with (j := 2%Z); [vm_compute; reflexivity|apply allowed_always; vm_compute; reflexivity| |]; [rewrite <- (app_nil_r t1); eapply phs_cons; [eassumption|]; apply phs_nil|reflexivity].
Qed.
Lemma r_3 (t1 : list Lexer.token) (t2 : list Lexer.token) (s1 : state) (s2 : state) (ts : list Lexer.token) (next : string) (s : state) : ph n_ModuleDefinition t1 (nxt (t2) next) s (sem KNone tt) s1 -> ph n_ModuleDefinitionList t2 next s1 (sem KNone tt) s2 -> ts = t1 ++ t2 ->
  ph n_ModuleDefinitionList ts next s (sem KNone (tt)) (s2).
Proof.
  intros; subst. eapply ph_rule with (j := 3%Z); [vm_compute; reflexivity|apply allowed_always; vm_compute; reflexivity| |]; [eapply phs_cons; [eassumption|]; rewrite <- (app_nil_r t2); eapply phs_cons; [eassumption|]; apply phs_nil|reflexivity].
Qed.
Lemma r_4 (t1 : list Lexer.token) (x1 : denote KString) (t3 : list Lexer.token) (t4 : list Lexer.token) (x4 : denote KMode) (t5 : list Lexer.token) (t8 : list Lexer.token) (x8 : denote KModule) (t9 : list Lexer.token) (s1 : state) (s3 : state) (s4 : state) (s5 : state) (s8 : state) (s9 : state) (ts : list Lexer.token) (next : string) (s : state) : ph n_ModuleIdentifier t1 "DEFINITIONS" s (sem KString x1) s1 -> ph n_EncodingReferenceDefault t3 (nxt (t4 ++ t5 ++ kw "DEFINED_AS" :: kw "BEGIN" :: t8 ++ t9 ++ kw "END" :: []) next) s1 (sem KNone tt) s3 -> ph n_TagDefault t4 (nxt (t5 ++ kw "DEFINED_AS" :: kw "BEGIN" :: t8 ++ t9 ++ kw "END" :: []) next) s3 (sem KMode x4) s4 -> ph n_ExtensionDefault t5 "DEFINED_AS" s4 (sem KNone tt) s5 -> ph n_ModuleBody t8 (nxt (t9 ++ kw "END" :: []) next) s5 (sem KModule x8) s8 -> ph n_EncodingControlSections t9 "END" s8 (sem KNone tt) s9 -> ts = t1 ++ kw "DEFINITIONS" :: t3 ++ t4 ++ t5 ++ kw "DEFINED_AS" :: kw "BEGIN" :: t8 ++ t9 ++ kw "END" :: [] ->
  ph n_ModuleDefinition ts next s (sem KNone (tt)) (State (st_modules s9 ++ [Module x1 x4 (m_imports x8) (m_assigns x8)]) (st_anon s9)).
Proof.
  intros; subst. eapply ph_rule with (j := 4%Z); [vm_compute; reflexivity|apply allowed_always; vm_compute; reflexivity| |]; [eapply phs_cons; [eassumption|]; apply phs_token; [vm_compute; reflexivity|]; eapply phs_cons; [eassumption|]; eapply phs_cons; [eassumption|]; eapply phs_cons; [eassumption|]; apply phs_token; [vm_compute; reflexivity|]; apply phs_token; [vm_compute; reflexivity|]; eapply phs_cons; [eassumption|]; eapply phs_cons; [eassumption|]; apply phs_token; [vm_compute; reflexivity|]; apply phs_nil|reflexivity].
Qed.
Lemma r_12 (t1 : list Lexer.token) (x1 : denote KString) (t3 : list Lexer.token) (x3 : denote KClassDef) (s1 : state) (s3 : state) (ts : list Lexer.token) (next : string) (s : state) : ph n_typereference t1 "DEFINED_AS" s (sem KString x1) s1 -> ph n_ObjectClass t3 next s1 (sem KClassDef x3) s3 -> ts = t1 ++ kw "DEFINED_AS" :: t3 ->
  ph n_ObjectClassAssignment ts next s (sem KAssign (Assign x1 (AClass x3) [])) (s3).
Proof.
  intros; subst. eapply ph_rule with (j := 12%Z); [vm_compute; reflexivity|apply allowed_always; vm_compute; reflexivity| |]; [eapply phs_cons; [eassumption|]; apply phs_token; [vm_compute; reflexivity|]; rewrite <- (app_nil_r t3); eapply phs_cons; [eassumption|]; apply phs_nil|reflexivity].
Qed.
Lemma r_14 (t1 : list Lexer.token) (x1 : denote KClassDef) (s1 : state) (ts : list Lexer.token) (next : string) (s : state) : ph n_ObjectClassDefn t1 next s (sem KClassDef x1) s1 -> ts = t1 ->
  ph n_ObjectClass ts next s (sem KClassDef (x1)) (s1).
Proof.
  intros; subst. eapply ph_rule with (j := 14%Z); [vm_compute; reflexivity|apply allowed_always; vm_compute; reflexivity| |]; [rewrite <- (app_nil_r t1); eapply phs_cons; [eassumption|]; apply phs_nil|reflexivity].
Qed.
Lemma r_15 (t3 : list Lexer.token) (x3 : denote KFields) (t5 : list Lexer.token) (s3 : state) (s5 : state) (ts : list Lexer.token) (next : string) (s : state) : ph n_FieldSpecList t3 "CLOSE_BRACE" s (sem KFields x3) s3 -> ph n_WithSyntaxSpec t5 next s3 (sem KNone tt) s5 -> ts = kw "CLASS" :: kw "OPEN_BRACE" :: t3 ++ kw "CLOSE_BRACE" :: t5 ->
  ph n_ObjectClassDefn ts next s (sem KClassDef (x3)) (s5).
Proof.
  intros; subst. eapply ph_rule with (j := 15%Z); [vm_compute; reflexivity|apply allowed_always; vm_compute; reflexivity| |]; [apply phs_token; [vm_compute; reflexivity|]; apply phs_token; [vm_compute; reflexivity|]; eapply phs_cons; [eassumption|]; apply phs_token; [vm_compute; reflexivity|]; rewrite <- (app_nil_r t5); eapply phs_cons; [eassumption|]; apply phs_nil|reflexivity].
Qed.
Lemma r_16 (t1 : list Lexer.token) (x1 : denote KFields) (s1 : state) (ts : list Lexer.token) (next : string) (s : state) : ph n_FieldSpec t1 next s (sem KFields x1) s1 -> ts = t1 ->
  ph n_FieldSpecList ts next s (sem KFields (x1)) (s1).
Proof.
  intros; subst. eapply ph_rule with (j := 16%Z); [vm_compute; reflexivity|apply allowed_always; vm_compute; reflexivity| |]; [rewrite <- (app_nil_r t1); eapply phs_cons; [eassumption|]; apply phs_nil|reflexivity].
Qed.
Lemma r_17 (t1 : list Lexer.token) (x1 : denote KFields) (t3 : list Lexer.token) (x3 : denote KFields) (s1 : state) (s3 : state) (ts : list Lexer.token) (next : string) (s : state) : ph n_FieldSpecList t1 "COMMA" s (sem KFields x1) s1 -> ph n_FieldSpec t3 next s1 (sem KFields x3) s3 -> ts = t1 ++ kw "COMMA" :: t3 ->
  ph n_FieldSpecList ts next s (sem KFields (x1 ++ x3)) (s3).
Proof.
  intros; subst. eapply ph_rule with (j := 17%Z); [vm_compute; reflexivity|apply allowed_always; vm_compute; reflexivity| |]; [eapply phs_cons; [eassumption|]; apply phs_token; [vm_compute; reflexivity|]; rewrite <- (app_nil_r t3); eapply phs_cons; [eassumption|]; apply phs_nil|reflexivity].
Qed.
Lemma r_18 (t1 : list Lexer.token) (x1 : denote KFields) (s1 : state) (ts : list Lexer.token) (next : string) (s : state) : ph n_TypeFieldSpec t1 next s (sem KFields x1) s1 -> ts = t1 ->
  ph n_FieldSpec ts next s (sem KFields (x1)) (s1).
Proof.
  intros; subst. eapply ph_rule with (j := 18%Z); [vm_compute; reflexivity|apply allowed_always; vm_compute; reflexivity| |]; [rewrite <- (app_nil_r t1); eapply phs_cons; [eassumption|]; apply phs_nil|reflexivity].
Qed.
Lemma r_19 (t1 : list Lexer.token) (x1 : denote KFields) (s1 : state) (ts : list Lexer.token) (next : string) (s : state) : ph n_FixedTypeValueFieldSpec t1 next s (sem KFields x1) s1 -> ts = t1 ->
  ph n_FieldSpec ts next s (sem KFields (x1)) (s1).
Proof.
  intros; subst. eapply ph_rule with (j := 19%Z); [vm_compute; reflexivity|apply allowed_always; vm_compute; reflexivity| |]; [rewrite <- (app_nil_r t1); eapply phs_cons; [eassumption|]; apply phs_nil|reflexivity].
Qed.
Lemma r_24 (a1 : string) (ts : list Lexer.token) (next : string) (s : state) : ts = Lexer.Token "typefieldreference" (PName a1) :: [] ->
  ph n_FieldName ts next s (sem KString (a1)) (s).
Proof.
  intros; subst. eapply ph_rule with (j := 24%Z); [vm_compute; reflexivity|apply allowed_always; vm_compute; reflexivity| |]; [apply phs_token; [vm_compute; reflexivity|]; apply phs_nil|reflexivity].
Qed.
Lemma r_25 (a1 : string) (ts : list Lexer.token) (next : string) (s : state) : ts = Lexer.Token "valuefieldreference" (PName a1) :: [] ->
  ph n_FieldName ts next s (sem KString (a1)) (s).
Proof.
  intros; subst. eapply ph_rule with (j := 25%Z); [vm_compute; reflexivity|apply allowed_always; vm_compute; reflexivity| |]; [apply phs_token; [vm_compute; reflexivity|]; apply phs_nil|reflexivity].
Qed.
Lemma r_26 (t1 : list Lexer.token) (x1 : denote KString) (s1 : state) (ts : list Lexer.token) (next : string) (s : state) : ph n_FieldName t1 next s (sem KString x1) s1 -> ts = t1 ->
  ph n_FieldNameList ts next s (sem KStrings ([x1])) (s1).
Proof.
  intros; subst. eapply ph_rule with (j := 26%Z); [vm_compute; reflexivity|apply allowed_always; vm_compute; reflexivity| |]; [rewrite <- (app_nil_r t1); eapply phs_cons; [eassumption|]; apply phs_nil|reflexivity].
Qed.
Lemma r_27 (t1 : list Lexer.token) (x1 : denote KStrings) (t3 : list Lexer.token) (x3 : denote KString) (s1 : state) (s3 : state) (ts : list Lexer.token) (next : string) (s : state) : ph n_FieldNameList t1 "FULL_STOP" s (sem KStrings x1) s1 -> ph n_FieldName t3 next s1 (sem KString x3) s3 -> ts = t1 ++ kw "FULL_STOP" :: t3 ->
  ph n_FieldNameList ts next s (sem KStrings (x1 ++ [x3])) (s3).
Proof.
  intros; subst. eapply ph_rule with (j := 27%Z); [vm_compute; reflexivity|apply allowed_always; vm_compute; reflexivity| |]; [eapply phs_cons; [eassumption|]; apply phs_token; [vm_compute; reflexivity|]; rewrite <- (app_nil_r t3); eapply phs_cons; [eassumption|]; apply phs_nil|reflexivity].
Qed.
Lemma r_28 (t1 : list Lexer.token) (x1 : denote KStrings) (t2 : list Lexer.token) (s1 : state) (s2 : state) (ts : list Lexer.token) (next : string) (s : state) : ph n_OneOrManyTypeFieldReference t1 (nxt (t2) next) s (sem KStrings x1) s1 -> ph n_TypeOptionalitySpec t2 next s1 (sem KNone tt) s2 -> ts = t1 ++ t2 ->
  ph n_TypeFieldSpec ts next s (sem KFields (map (fun name => ClassField name None) x1)) (s2).
Proof.
  intros; subst. eapply ph_rule with (j := 28%Z); [vm_compute; reflexivity|apply allowed_always; vm_compute; reflexivity| |]; [eapply phs_cons; [eassumption|]; rewrite <- (app_nil_r t2); eapply phs_cons; [eassumption|]; apply phs_nil|reflexivity].
Qed.
Lemma r_29 (a1 : string) (ts : list Lexer.token) (next : string) (s : state) : ts = Lexer.Token "typefieldreference" (PName a1) :: [] ->
  ph n_OneOrManyTypeFieldReference ts next s (sem KStrings ([a1])) (s).
Proof.
  intros; subst. eapply ph_rule with (j := 29%Z); [vm_compute; reflexivity|apply allowed_always; vm_compute; reflexivity| |]; [apply phs_token; [vm_compute; reflexivity|]; apply phs_nil|reflexivity].
Qed.
Lemma r_31  (ts : list Lexer.token) (next : string) (s : state) : ts = kw "OPTIONAL" :: [] ->
  ph n_TypeOptionalitySpec ts next s (sem KNone (tt)) (s).
Proof.
  intros; subst. eapply ph_rule with (j := 31%Z); [vm_compute; reflexivity|apply allowed_always; vm_compute; reflexivity| |]; [apply phs_token; [vm_compute; reflexivity|]; apply phs_nil|reflexivity].
Qed.
Lemma r_33  (ts : list Lexer.token) (next : string) (s : state) : ts = [] ->
  ph n_TypeOptionalitySpec ts next s (sem KNone (tt)) (s).
Proof.
  intros; subst. eapply ph_rule with (j := 33%Z); [vm_compute; reflexivity|apply allowed_always; vm_compute; reflexivity| |]; [apply phs_nil|reflexivity].
Qed.
Lemma r_34  (ts : list Lexer.token) (next : string) (s : state) : ts = kw "OPTIONAL" :: [] ->
  ph n_OptionalUnique ts next s (sem KNone (tt)) (s).
Proof.
  intros; subst. eapply ph_rule with (j := 34%Z); [vm_compute; reflexivity|apply allowed_always; vm_compute; reflexivity| |]; [apply phs_token; [vm_compute; reflexivity|]; apply phs_nil|reflexivity].
Qed.
Lemma r_35  (ts : list Lexer.token) (next : string) (s : state) : ts = kw "UNIQUE" :: [] ->
  ph n_OptionalUnique ts next s (sem KNone (tt)) (s).
Proof.
  intros; subst. eapply ph_rule with (j := 35%Z); [vm_compute; reflexivity|apply allowed_always; vm_compute; reflexivity| |]; [apply phs_token; [vm_compute; reflexivity|]; apply phs_nil|reflexivity].
Qed.
Lemma r_36  (ts : list Lexer.token) (next : string) (s : state) : next <> "OPTIONAL" -> ts = [] ->
  ph n_OptionalUnique ts next s (sem KNone (tt)) (s).
Proof.
  intros; subst. eapply ph_rule with (j := 36%Z); [vm_compute; reflexivity|apply allowed_before with (names := ["OPTIONAL"]); [vm_compute; reflexivity|vm_compute; reflexivity|cbn; intuition congruence]| |]; [apply phs_nil|reflexivity].
Qed.
Lemma r_37 (a1 : string) (t2 : list Lexer.token) (x2 : denote KType) (t3 : list Lexer.token) (t4 : list Lexer.token) (s2 : state) (s3 : state) (s4 : state) (ts : list Lexer.token) (next : string) (s : state) : ph n_Type t2 (nxt (t3 ++ t4) next) s (sem KType x2) s2 -> ph n_OptionalUnique t3 (nxt (t4) next) s2 (sem KNone tt) s3 -> ph n_ValueOptionalitySpec t4 next s3 (sem KNone tt) s4 -> ts = Lexer.Token "valuefieldreference" (PName a1) :: t2 ++ t3 ++ t4 ->
  ph n_FixedTypeValueFieldSpec ts next s (sem KFields ([ClassField a1 (Some x2)])) (s4).
Proof.
  intros; subst. eapply ph_rule with (j := 37%Z); [vm_compute; reflexivity|apply allowed_always; vm_compute; reflexivity| |]; [apply phs_token; [vm_compute; reflexivity|]; eapply phs_cons; [eassumption|]; eapply phs_cons; [eassumption|]; rewrite <- (app_nil_r t4); eapply phs_cons; [eassumption|]; apply phs_nil|reflexivity].
Qed.
Lemma r_38  (ts : list Lexer.token) (next : string) (s : state) : ts = kw "OPTIONAL" :: [] ->
  ph n_ValueOptionalitySpec ts next s (sem KNone (tt)) (s).
Proof.
  intros; subst. eapply ph_rule with (j := 38%Z); [vm_compute; reflexivity|apply allowed_always; vm_compute; reflexivity| |]; [apply phs_token; [vm_compute; reflexivity|]; apply phs_nil|reflexivity].
Qed.
Lemma r_39 (t2 : list Lexer.token) (x2 : denote KValue) (s2 : state) (ts : list Lexer.token) (next : string) (s : state) : ph n_SingleValue t2 next s (sem KValue x2) s2 -> ts = kw "DEFAULT" :: t2 ->
  ph n_ValueOptionalitySpec ts next s (sem KNone (tt)) (s2).
Proof.
  intros; subst. eapply ph_rule with (j := 39%Z); [vm_compute; reflexivity|apply allowed_always; vm_compute; reflexivity| |]; [apply phs_token; [vm_compute; reflexivity|]; rewrite <- (app_nil_r t2); eapply phs_cons; [eassumption|]; apply phs_nil|reflexivity].
Qed.
Lemma r_40  (ts : list Lexer.token) (next : string) (s : state) : ts = [] ->
  ph n_ValueOptionalitySpec ts next s (sem KNone (tt)) (s).
Proof.
  intros; subst. eapply ph_rule with (j := 40%Z); [vm_compute; reflexivity|apply allowed_always; vm_compute; reflexivity| |]; [apply phs_nil|reflexivity].
Qed.
Lemma r_53  (ts : list Lexer.token) (next : string) (s : state) : ts = [] ->
  ph n_ObjectSetOptionalitySpec ts next s (sem KNone (tt)) (s).
Proof.
  intros; subst. eapply ph_rule with (j := 53%Z); [vm_compute; reflexivity|apply allowed_always; vm_compute; reflexivity| |]; [apply phs_nil|reflexivity].
Qed.
Lemma r_55  (ts : list Lexer.token) (next : string) (s : state) : ts = [] ->
  ph n_WithSyntaxSpec ts next s (sem KNone (tt)) (s).
Proof.
  intros; subst. eapply ph_rule with (j := 55%Z); [vm_compute; reflexivity|apply allowed_always; vm_compute; reflexivity| |]; [apply phs_nil|reflexivity].
Qed.
Lemma r_94 (t1 : list Lexer.token) (x1 : denote KString) (t3 : list Lexer.token) (x3 : denote KStrings) (s1 : state) (s3 : state) (ts : list Lexer.token) (next : string) (s : state) : ph n_typereference t1 "FULL_STOP" s (sem KString x1) s1 -> ph n_FieldNameList t3 next s1 (sem KStrings x3) s3 -> ts = t1 ++ kw "FULL_STOP" :: t3 ->
  ph n_ObjectClassFieldType ts next s (sem KField ((Defined None x1 [], x3))) (s3).
Proof.
  intros; subst. eapply ph_rule with (j := 94%Z); [vm_compute; reflexivity|apply allowed_always; vm_compute; reflexivity| |]; [eapply phs_cons; [eassumption|]; apply phs_token; [vm_compute; reflexivity|]; rewrite <- (app_nil_r t3); eapply phs_cons; [eassumption|]; apply phs_nil|reflexivity].
Qed.
Lemma r_95 (t1 : list Lexer.token) (x1 : denote KAssign) (s1 : state) (ts : list Lexer.token) (next : string) (s : state) : ph n_ParameterizedTypeAssignment t1 next s (sem KAssign x1) s1 -> ts = t1 ->
  ph n_ParameterizedAssignment ts next s (sem KAssign (x1)) (s1).
Proof.
  intros; subst. eapply ph_rule with (j := 95%Z); [vm_compute; reflexivity|apply allowed_always; vm_compute; reflexivity| |]; [rewrite <- (app_nil_r t1); eapply phs_cons; [eassumption|]; apply phs_nil|reflexivity].
Qed.
Lemma r_99 (t1 : list Lexer.token) (x1 : denote KString) (t2 : list Lexer.token) (x2 : denote KParams) (t4 : list Lexer.token) (x4 : denote KType) (s1 : state) (s2 : state) (s4 : state) (ts : list Lexer.token) (next : string) (s : state) : ph n_typereference t1 (nxt (t2 ++ kw "DEFINED_AS" :: t4) next) s (sem KString x1) s1 -> ph n_ParameterList t2 "DEFINED_AS" s1 (sem KParams x2) s2 -> ph n_Type t4 next s2 (sem KType x4) s4 -> ts = t1 ++ t2 ++ kw "DEFINED_AS" :: t4 ->
  ph n_ParameterizedTypeAssignment ts next s (sem KAssign (Assign x1 (AType x4) x2)) (s4).
Proof.
  intros; subst. eapply ph_rule with (j := 99%Z); [vm_compute; reflexivity|apply allowed_always; vm_compute; reflexivity| |]; [eapply phs_cons; [eassumption|]; eapply phs_cons; [eassumption|]; apply phs_token; [vm_compute; reflexivity|]; rewrite <- (app_nil_r t4); eapply phs_cons; [eassumption|]; apply phs_nil|reflexivity].
Qed.
Lemma r_103 (t2 : list Lexer.token) (x2 : denote KParams) (s2 : state) (ts : list Lexer.token) (next : string) (s : state) : ph n_ParameterSeries t2 "CLOSE_BRACE" s (sem KParams x2) s2 -> ts = kw "OPEN_BRACE" :: t2 ++ kw "CLOSE_BRACE" :: [] ->
  ph n_ParameterList ts next s (sem KParams (x2)) (s2).
Proof.
  intros; subst. eapply ph_rule with (j := 103%Z); [vm_compute; reflexivity|apply allowed_always; vm_compute; reflexivity| |]; [apply phs_token; [vm_compute; reflexivity|]; eapply phs_cons; [eassumption|]; apply phs_token; [vm_compute; reflexivity|]; apply phs_nil|reflexivity].
Qed.
Lemma r_104 (t1 : list Lexer.token) (x1 : denote KParam) (s1 : state) (ts : list Lexer.token) (next : string) (s : state) : ph n_Parameter t1 next s (sem KParam x1) s1 -> ts = t1 ->
  ph n_ParameterSeries ts next s (sem KParams ([x1])) (s1).
Proof.
  intros; subst. eapply ph_rule with (j := 104%Z); [vm_compute; reflexivity|apply allowed_always; vm_compute; reflexivity| |]; [rewrite <- (app_nil_r t1); eapply phs_cons; [eassumption|]; apply phs_nil|reflexivity].
Qed.
Lemma r_105 (t1 : list Lexer.token) (x1 : denote KParams) (t3 : list Lexer.token) (x3 : denote KParam) (s1 : state) (s3 : state) (ts : list Lexer.token) (next : string) (s : state) : ph n_ParameterSeries t1 "COMMA" s (sem KParams x1) s1 -> ph n_Parameter t3 next s1 (sem KParam x3) s3 -> ts = t1 ++ kw "COMMA" :: t3 ->
  ph n_ParameterSeries ts next s (sem KParams (x1 ++ [x3])) (s3).
Proof.
  intros; subst. eapply ph_rule with (j := 105%Z); [vm_compute; reflexivity|apply allowed_always; vm_compute; reflexivity| |]; [eapply phs_cons; [eassumption|]; apply phs_token; [vm_compute; reflexivity|]; rewrite <- (app_nil_r t3); eapply phs_cons; [eassumption|]; apply phs_nil|reflexivity].
Qed.
Lemma r_106 (t1 : list Lexer.token) (x1 : denote KType) (t3 : list Lexer.token) (x3 : denote KString) (s1 : state) (s3 : state) (ts : list Lexer.token) (next : string) (s : state) : ph n_ParamGovernor t1 "COLON" s (sem KType x1) s1 -> ph n_Reference t3 next s1 (sem KString x3) s3 -> ts = t1 ++ kw "COLON" :: t3 ->
  ph n_Parameter ts next s (sem KParam (Param (Some x1) x3)) (s3).
Proof.
  intros; subst. eapply ph_rule with (j := 106%Z); [vm_compute; reflexivity|apply allowed_always; vm_compute; reflexivity| |]; [eapply phs_cons; [eassumption|]; apply phs_token; [vm_compute; reflexivity|]; rewrite <- (app_nil_r t3); eapply phs_cons; [eassumption|]; apply phs_nil|reflexivity].
Qed.
Lemma r_107 (t1 : list Lexer.token) (x1 : denote KString) (s1 : state) (ts : list Lexer.token) (next : string) (s : state) : ph n_Reference_1 t1 next s (sem KString x1) s1 -> ts = t1 ->
  ph n_Parameter ts next s (sem KParam (Param None x1)) (s1).
Proof.
  intros; subst. eapply ph_rule with (j := 107%Z); [vm_compute; reflexivity|apply allowed_always; vm_compute; reflexivity| |]; [rewrite <- (app_nil_r t1); eapply phs_cons; [eassumption|]; apply phs_nil|reflexivity].
Qed.
Lemma r_108 (t1 : list Lexer.token) (x1 : denote KType) (s1 : state) (ts : list Lexer.token) (next : string) (s : state) : ph n_Governor t1 next s (sem KType x1) s1 -> ts = t1 ->
  ph n_ParamGovernor ts next s (sem KType (x1)) (s1).
Proof.
  intros; subst. eapply ph_rule with (j := 108%Z); [vm_compute; reflexivity|apply allowed_always; vm_compute; reflexivity| |]; [rewrite <- (app_nil_r t1); eapply phs_cons; [eassumption|]; apply phs_nil|reflexivity].
Qed.
Lemma r_109 (t1 : list Lexer.token) (x1 : denote KString) (s1 : state) (ts : list Lexer.token) (next : string) (s : state) : ph n_Reference t1 next s (sem KString x1) s1 -> ts = t1 ->
  ph n_ParamGovernor ts next s (sem KType (TRef (Defined None x1 []))) (s1).
Proof.
  intros; subst. eapply ph_rule with (j := 109%Z); [vm_compute; reflexivity|apply allowed_always; vm_compute; reflexivity| |]; [rewrite <- (app_nil_r t1); eapply phs_cons; [eassumption|]; apply phs_nil|reflexivity].
Qed.
Lemma r_110 (t1 : list Lexer.token) (x1 : denote KType) (s1 : state) (ts : list Lexer.token) (next : string) (s : state) : ph n_Type_2 t1 next s (sem KType x1) s1 -> ts = t1 ->
  ph n_Governor ts next s (sem KType (x1)) (s1).
Proof.
  intros; subst. eapply ph_rule with (j := 110%Z); [vm_compute; reflexivity|apply allowed_always; vm_compute; reflexivity| |]; [rewrite <- (app_nil_r t1); eapply phs_cons; [eassumption|]; apply phs_nil|reflexivity].
Qed.
Lemma r_116 (t1 : list Lexer.token) (x1 : denote KString) (s1 : state) (ts : list Lexer.token) (next : string) (s : state) : ph n_typereference t1 next s (sem KString x1) s1 -> ts = t1 ->
  ph n_SimpleDefinedType ts next s (sem KString (x1)) (s1).
Proof.
  intros; subst. eapply ph_rule with (j := 116%Z); [vm_compute; reflexivity|apply allowed_always; vm_compute; reflexivity| |]; [rewrite <- (app_nil_r t1); eapply phs_cons; [eassumption|]; apply phs_nil|reflexivity].
Qed.
Lemma r_143  (ts : list Lexer.token) (next : string) (s : state) : ts = [] ->
  ph n_EncodingControlSections ts next s (sem KNone (tt)) (s).
Proof.
  intros; subst. eapply ph_rule with (j := 143%Z); [vm_compute; reflexivity|apply allowed_always; vm_compute; reflexivity| |]; [apply phs_nil|reflexivity].
Qed.
Lemma r_144 (t1 : list Lexer.token) (x1 : denote KString) (t2 : list Lexer.token) (s1 : state) (s2 : state) (ts : list Lexer.token) (next : string) (s : state) : ph n_modulereference t1 (nxt (t2) next) s (sem KString x1) s1 -> ph n_DefinitiveIdentification t2 next s1 (sem KNone tt) s2 -> ts = t1 ++ t2 ->
  ph n_ModuleIdentifier ts next s (sem KString (x1)) (s2).
Proof.
  intros; subst. eapply ph_rule with (j := 144%Z); [vm_compute; reflexivity|apply allowed_always; vm_compute; reflexivity| |]; [eapply phs_cons; [eassumption|]; rewrite <- (app_nil_r t2); eapply phs_cons; [eassumption|]; apply phs_nil|reflexivity].
Qed.
Lemma r_145 (t1 : list Lexer.token) (s1 : state) (ts : list Lexer.token) (next : string) (s : state) : ph n_DefinitiveOID t1 next s (sem KNone tt) s1 -> ts = t1 ->
  ph n_DefinitiveIdentification ts next s (sem KNone (tt)) (s1).
Proof.
  intros; subst. eapply ph_rule with (j := 145%Z); [vm_compute; reflexivity|apply allowed_always; vm_compute; reflexivity| |]; [rewrite <- (app_nil_r t1); eapply phs_cons; [eassumption|]; apply phs_nil|reflexivity].
Qed.
Lemma r_146 (t1 : list Lexer.token) (s1 : state) (ts : list Lexer.token) (next : string) (s : state) : ph n_DefinitiveOIDandIRI t1 next s (sem KNone tt) s1 -> ts = t1 ->
  ph n_DefinitiveIdentification ts next s (sem KNone (tt)) (s1).
Proof.
  intros; subst. eapply ph_rule with (j := 146%Z); [vm_compute; reflexivity|apply allowed_always; vm_compute; reflexivity| |]; [rewrite <- (app_nil_r t1); eapply phs_cons; [eassumption|]; apply phs_nil|reflexivity].
Qed.
Lemma r_147  (ts : list Lexer.token) (next : string) (s : state) : ts = [] ->
  ph n_DefinitiveIdentification ts next s (sem KNone (tt)) (s).
Proof.
  intros; subst. eapply ph_rule with (j := 147%Z); [vm_compute; reflexivity|apply allowed_always; vm_compute; reflexivity| |]; [apply phs_nil|reflexivity].
Qed.
Lemma r_148 (t2 : list Lexer.token) (s2 : state) (ts : list Lexer.token) (next : string) (s : state) : ph n_DefinitiveObjIdComponentList t2 "CLOSE_BRACE" s (sem KNone tt) s2 -> ts = kw "OPEN_BRACE" :: t2 ++ kw "CLOSE_BRACE" :: [] ->
  ph n_DefinitiveOID ts next s (sem KNone (tt)) (s2).
Proof.
  intros; subst. eapply ph_rule with (j := 148%Z); [vm_compute; reflexivity|apply allowed_always; vm_compute; reflexivity| |]; [apply phs_token; [vm_compute; reflexivity|]; eapply phs_cons; [eassumption|]; apply phs_token; [vm_compute; reflexivity|]; apply phs_nil|reflexivity].
Qed.
Lemma r_150 (t1 : list Lexer.token) (s1 : state) (ts : list Lexer.token) (next : string) (s : state) : ph n_DefinitiveObjIdComponent t1 next s (sem KNone tt) s1 -> ts = t1 ->
  ph n_DefinitiveObjIdComponentList ts next s (sem KNone (tt)) (s1).
Proof.
  intros; subst. eapply ph_rule with (j := 150%Z); [vm_compute; reflexivity|apply allowed_always; vm_compute; reflexivity| |]; [rewrite <- (app_nil_r t1); eapply phs_cons; [eassumption|]; apply phs_nil|reflexivity].
Qed.
Lemma r_151 (t1 : list Lexer.token) (t2 : list Lexer.token) (s1 : state) (s2 : state) (ts : list Lexer.token) (next : string) (s : state) : ph n_DefinitiveObjIdComponent t1 (nxt (t2) next) s (sem KNone tt) s1 -> ph n_DefinitiveObjIdComponentList t2 next s1 (sem KNone tt) s2 -> ts = t1 ++ t2 ->
  ph n_DefinitiveObjIdComponentList ts next s (sem KNone (tt)) (s2).
Proof.
  intros; subst. eapply ph_rule with (j := 151%Z); [vm_compute; reflexivity|apply allowed_always; vm_compute; reflexivity| |]; [eapply phs_cons; [eassumption|]; rewrite <- (app_nil_r t2); eapply phs_cons; [eassumption|]; apply phs_nil|reflexivity].
Qed.
Lemma r_152 (t1 : list Lexer.token) (x1 : denote KOidComp) (s1 : state) (ts : list Lexer.token) (next : string) (s : state) : ph n_NameForm t1 next s (sem KOidComp x1) s1 -> ts = t1 ->
  ph n_DefinitiveObjIdComponent ts next s (sem KNone (tt)) (s1).
Proof.
  intros; subst. eapply ph_rule with (j := 152%Z); [vm_compute; reflexivity|apply allowed_always; vm_compute; reflexivity| |]; [rewrite <- (app_nil_r t1); eapply phs_cons; [eassumption|]; apply phs_nil|reflexivity].
Qed.
Lemma r_153 (t1 : list Lexer.token) (s1 : state) (ts : list Lexer.token) (next : string) (s : state) : ph n_DefinitiveNumberForm t1 next s (sem KNone tt) s1 -> ts = t1 ->
  ph n_DefinitiveObjIdComponent ts next s (sem KNone (tt)) (s1).
Proof.
  intros; subst. eapply ph_rule with (j := 153%Z); [vm_compute; reflexivity|apply allowed_always; vm_compute; reflexivity| |]; [rewrite <- (app_nil_r t1); eapply phs_cons; [eassumption|]; apply phs_nil|reflexivity].
Qed.
Lemma r_154 (t1 : list Lexer.token) (s1 : state) (ts : list Lexer.token) (next : string) (s : state) : ph n_DefinitiveNameAndNumberForm t1 next s (sem KNone tt) s1 -> ts = t1 ->
  ph n_DefinitiveObjIdComponent ts next s (sem KNone (tt)) (s1).
Proof.
  intros; subst. eapply ph_rule with (j := 154%Z); [vm_compute; reflexivity|apply allowed_always; vm_compute; reflexivity| |]; [rewrite <- (app_nil_r t1); eapply phs_cons; [eassumption|]; apply phs_nil|reflexivity].
Qed.
Lemma r_155 (a1 : Z) (ts : list Lexer.token) (next : string) (s : state) : ts = Lexer.Token "number" (PInteger a1) :: [] ->
  ph n_DefinitiveNumberForm ts next s (sem KNone (tt)) (s).
Proof.
  intros; subst. eapply ph_rule with (j := 155%Z); [vm_compute; reflexivity|apply allowed_always; vm_compute; reflexivity| |]; [apply phs_token; [vm_compute; reflexivity|]; apply phs_nil|reflexivity].
Qed.
Lemma r_156 (t1 : list Lexer.token) (x1 : denote KString) (t3 : list Lexer.token) (s1 : state) (s3 : state) (ts : list Lexer.token) (next : string) (s : state) : ph n_identifier t1 "OPEN_PARENTHESIS" s (sem KString x1) s1 -> ph n_DefinitiveNumberForm t3 "CLOSE_PARENTHESIS" s1 (sem KNone tt) s3 -> ts = t1 ++ kw "OPEN_PARENTHESIS" :: t3 ++ kw "CLOSE_PARENTHESIS" :: [] ->
  ph n_DefinitiveNameAndNumberForm ts next s (sem KNone (tt)) (s3).
Proof.
  intros; subst. eapply ph_rule with (j := 156%Z); [vm_compute; reflexivity|apply allowed_always; vm_compute; reflexivity| |]; [eapply phs_cons; [eassumption|]; apply phs_token; [vm_compute; reflexivity|]; eapply phs_cons; [eassumption|]; apply phs_token; [vm_compute; reflexivity|]; apply phs_nil|reflexivity].
Qed.
Lemma r_158  (ts : list Lexer.token) (next : string) (s : state) : ts = [] ->
  ph n_EncodingReferenceDefault ts next s (sem KNone (tt)) (s).
Proof.
  intros; subst. eapply ph_rule with (j := 158%Z); [vm_compute; reflexivity|apply allowed_always; vm_compute; reflexivity| |]; [apply phs_nil|reflexivity].
Qed.
Lemma r_159  (ts : list Lexer.token) (next : string) (s : state) : ts = kw "EXPLICIT" :: kw "TAGS" :: [] ->
  ph n_TagDefault ts next s (sem KMode (Explicit)) (s).
Proof.
  intros; subst. eapply ph_rule with (j := 159%Z); [vm_compute; reflexivity|apply allowed_always; vm_compute; reflexivity| |]; [apply phs_token; [vm_compute; reflexivity|]; apply phs_token; [vm_compute; reflexivity|]; apply phs_nil|reflexivity].
Qed.
Lemma r_160  (ts : list Lexer.token) (next : string) (s : state) : ts = kw "IMPLICIT" :: kw "TAGS" :: [] ->
  ph n_TagDefault ts next s (sem KMode (Implicit)) (s).
Proof.
  intros; subst. eapply ph_rule with (j := 160%Z); [vm_compute; reflexivity|apply allowed_always; vm_compute; reflexivity| |]; [apply phs_token; [vm_compute; reflexivity|]; apply phs_token; [vm_compute; reflexivity|]; apply phs_nil|reflexivity].
Qed.
Lemma r_161  (ts : list Lexer.token) (next : string) (s : state) : ts = kw "AUTOMATIC" :: kw "TAGS" :: [] ->
  ph n_TagDefault ts next s (sem KMode (Automatic)) (s).
Proof.
  intros; subst. eapply ph_rule with (j := 161%Z); [vm_compute; reflexivity|apply allowed_always; vm_compute; reflexivity| |]; [apply phs_token; [vm_compute; reflexivity|]; apply phs_token; [vm_compute; reflexivity|]; apply phs_nil|reflexivity].
Qed.
Lemma r_162  (ts : list Lexer.token) (next : string) (s : state) : ts = [] ->
  ph n_TagDefault ts next s (sem KMode (Explicit)) (s).
Proof.
  intros; subst. eapply ph_rule with (j := 162%Z); [vm_compute; reflexivity|apply allowed_always; vm_compute; reflexivity| |]; [apply phs_nil|reflexivity].
Qed.
Lemma r_163  (ts : list Lexer.token) (next : string) (s : state) : ts = kw "EXTENSIBILITY" :: kw "IMPLIED" :: [] ->
  ph n_ExtensionDefault ts next s (sem KNone (tt)) (s).
Proof.
  intros; subst. eapply ph_rule with (j := 163%Z); [vm_compute; reflexivity|apply allowed_always; vm_compute; reflexivity| |]; [apply phs_token; [vm_compute; reflexivity|]; apply phs_token; [vm_compute; reflexivity|]; apply phs_nil|reflexivity].
Qed.
Lemma r_164  (ts : list Lexer.token) (next : string) (s : state) : ts = [] ->
  ph n_ExtensionDefault ts next s (sem KNone (tt)) (s).
Proof.
  intros; subst. eapply ph_rule with (j := 164%Z); [vm_compute; reflexivity|apply allowed_always; vm_compute; reflexivity| |]; [apply phs_nil|reflexivity].
Qed.
Lemma r_165 (t1 : list Lexer.token) (x1 : denote KExports) (t2 : list Lexer.token) (x2 : denote KImports) (t3 : list Lexer.token) (x3 : denote KAssigns) (s1 : state) (s2 : state) (s3 : state) (ts : list Lexer.token) (next : string) (s : state) : ph n_Exports t1 (nxt (t2 ++ t3) next) s (sem KExports x1) s1 -> ph n_Imports t2 (nxt (t3) next) s1 (sem KImports x2) s2 -> ph n_AssignmentList t3 next s2 (sem KAssigns x3) s3 -> ts = t1 ++ t2 ++ t3 ->
  ph n_ModuleBody ts next s (sem KModule (Module "" Explicit x2 x3)) (s3).
Proof.
  intros; subst. eapply ph_rule with (j := 165%Z); [vm_compute; reflexivity|apply allowed_always; vm_compute; reflexivity| |]; [eapply phs_cons; [eassumption|]; eapply phs_cons; [eassumption|]; rewrite <- (app_nil_r t3); eapply phs_cons; [eassumption|]; apply phs_nil|reflexivity].
Qed.
Lemma r_166  (ts : list Lexer.token) (next : string) (s : state) : ts = [] ->
  ph n_ModuleBody ts next s (sem KModule (default_value (KModule))) (s).
Proof.
  intros; subst. eapply ph_rule with (j := 166%Z); [vm_compute; reflexivity|apply allowed_always; vm_compute; reflexivity| |]; [apply phs_nil|reflexivity].
Qed.
Lemma r_167 (t2 : list Lexer.token) (s2 : state) (ts : list Lexer.token) (next : string) (s : state) : ph n_SymbolsExported t2 "SEMICOLON" s (sem KNone tt) s2 -> ts = kw "EXPORTS" :: t2 ++ kw "SEMICOLON" :: [] ->
  ph n_Exports ts next s (sem KExports (tt)) (s2).
Proof.
  intros; subst. eapply ph_rule with (j := 167%Z); [vm_compute; reflexivity|apply allowed_always; vm_compute; reflexivity| |]; [apply phs_token; [vm_compute; reflexivity|]; eapply phs_cons; [eassumption|]; apply phs_token; [vm_compute; reflexivity|]; apply phs_nil|reflexivity].
Qed.
Lemma r_168  (ts : list Lexer.token) (next : string) (s : state) : ts = kw "EXPORTS" :: kw "ALL" :: kw "SEMICOLON" :: [] ->
  ph n_Exports ts next s (sem KExports (tt)) (s).
Proof.
  intros; subst. eapply ph_rule with (j := 168%Z); [vm_compute; reflexivity|apply allowed_always; vm_compute; reflexivity| |]; [apply phs_token; [vm_compute; reflexivity|]; apply phs_token; [vm_compute; reflexivity|]; apply phs_token; [vm_compute; reflexivity|]; apply phs_nil|reflexivity].
Qed.
Lemma r_169  (ts : list Lexer.token) (next : string) (s : state) : ts = [] ->
  ph n_Exports ts next s (sem KExports (tt)) (s).
Proof.
  intros; subst. eapply ph_rule with (j := 169%Z); [vm_compute; reflexivity|apply allowed_always; vm_compute; reflexivity| |]; [apply phs_nil|reflexivity].
Qed.
Lemma r_170 (t1 : list Lexer.token) (x1 : denote KStrings) (s1 : state) (ts : list Lexer.token) (next : string) (s : state) : ph n_SymbolList t1 next s (sem KStrings x1) s1 -> ts = t1 ->
  ph n_SymbolsExported ts next s (sem KNone (tt)) (s1).
Proof.
  intros; subst. eapply ph_rule with (j := 170%Z); [vm_compute; reflexivity|apply allowed_always; vm_compute; reflexivity| |]; [rewrite <- (app_nil_r t1); eapply phs_cons; [eassumption|]; apply phs_nil|reflexivity].
Qed.
Lemma r_171  (ts : list Lexer.token) (next : string) (s : state) : ts = [] ->
  ph n_SymbolsExported ts next s (sem KNone (tt)) (s).
Proof.
  intros; subst. eapply ph_rule with (j := 171%Z); [vm_compute; reflexivity|apply allowed_always; vm_compute; reflexivity| |]; [apply phs_nil|reflexivity].
Qed.
Lemma r_172 (t2 : list Lexer.token) (x2 : denote KImports) (s2 : state) (ts : list Lexer.token) (next : string) (s : state) : ph n_SymbolsImported t2 "SEMICOLON" s (sem KImports x2) s2 -> ts = kw "IMPORTS" :: t2 ++ kw "SEMICOLON" :: [] ->
  ph n_Imports ts next s (sem KImports (x2)) (s2).
Proof.
  intros; subst. eapply ph_rule with (j := 172%Z); [vm_compute; reflexivity|apply allowed_always; vm_compute; reflexivity| |]; [apply phs_token; [vm_compute; reflexivity|]; eapply phs_cons; [eassumption|]; apply phs_token; [vm_compute; reflexivity|]; apply phs_nil|reflexivity].
Qed.
Lemma r_173  (ts : list Lexer.token) (next : string) (s : state) : ts = [] ->
  ph n_Imports ts next s (sem KImports (default_value (KImports))) (s).
Proof.
  intros; subst. eapply ph_rule with (j := 173%Z); [vm_compute; reflexivity|apply allowed_always; vm_compute; reflexivity| |]; [apply phs_nil|reflexivity].
Qed.
Lemma r_174 (t1 : list Lexer.token) (x1 : denote KImports) (s1 : state) (ts : list Lexer.token) (next : string) (s : state) : ph n_SymbolsFromModuleList t1 next s (sem KImports x1) s1 -> ts = t1 ->
  ph n_SymbolsImported ts next s (sem KImports (x1)) (s1).
Proof.
  intros; subst. eapply ph_rule with (j := 174%Z); [vm_compute; reflexivity|apply allowed_always; vm_compute; reflexivity| |]; [rewrite <- (app_nil_r t1); eapply phs_cons; [eassumption|]; apply phs_nil|reflexivity].
Qed.
Lemma r_175  (ts : list Lexer.token) (next : string) (s : state) : ts = [] ->
  ph n_SymbolsImported ts next s (sem KImports (default_value (KImports))) (s).
Proof.
  intros; subst. eapply ph_rule with (j := 175%Z); [vm_compute; reflexivity|apply allowed_always; vm_compute; reflexivity| |]; [apply phs_nil|reflexivity].
Qed.
Lemma r_176 (t1 : list Lexer.token) (x1 : denote KImport) (s1 : state) (ts : list Lexer.token) (next : string) (s : state) : ph n_SymbolsFromModule t1 next s (sem KImport x1) s1 -> ts = t1 ->
  ph n_SymbolsFromModuleList ts next s (sem KImports ([x1])) (s1).
Proof.
  intros; subst. eapply ph_rule with (j := 176%Z); [vm_compute; reflexivity|apply allowed_always; vm_compute; reflexivity| |]; [rewrite <- (app_nil_r t1); eapply phs_cons; [eassumption|]; apply phs_nil|reflexivity].
Qed.
Lemma r_177 (t1 : list Lexer.token) (x1 : denote KImports) (t2 : list Lexer.token) (x2 : denote KImport) (s1 : state) (s2 : state) (ts : list Lexer.token) (next : string) (s : state) : ph n_SymbolsFromModuleList t1 (nxt (t2) next) s (sem KImports x1) s1 -> ph n_SymbolsFromModule t2 next s1 (sem KImport x2) s2 -> ts = t1 ++ t2 ->
  ph n_SymbolsFromModuleList ts next s (sem KImports (x1 ++ [x2])) (s2).
Proof.
  intros; subst. eapply ph_rule with (j := 177%Z); [vm_compute; reflexivity|apply allowed_always; vm_compute; reflexivity| |]; [eapply phs_cons; [eassumption|]; rewrite <- (app_nil_r t2); eapply phs_cons; [eassumption|]; apply phs_nil|reflexivity].
Qed.
Lemma r_178 (t1 : list Lexer.token) (x1 : denote KStrings) (t3 : list Lexer.token) (x3 : denote KString) (s1 : state) (s3 : state) (ts : list Lexer.token) (next : string) (s : state) : ph n_SymbolList t1 "FROM" s (sem KStrings x1) s1 -> ph n_GlobalModuleReference t3 next s1 (sem KString x3) s3 -> ts = t1 ++ kw "FROM" :: t3 ->
  ph n_SymbolsFromModule ts next s (sem KImport (Import x3 (filter isupper_first x1) (filter (fun ref => negb (isupper_first ref)) x1))) (s3).
Proof.
  intros; subst. eapply ph_rule with (j := 178%Z); [vm_compute; reflexivity|apply allowed_always; vm_compute; reflexivity| |]; [eapply phs_cons; [eassumption|]; apply phs_token; [vm_compute; reflexivity|]; rewrite <- (app_nil_r t3); eapply phs_cons; [eassumption|]; apply phs_nil|reflexivity].
Qed.
Lemma r_179 (t1 : list Lexer.token) (x1 : denote KString) (s1 : state) (ts : list Lexer.token) (next : string) (s : state) : ph n_modulereference t1 next s (sem KString x1) s1 -> ts = t1 ->
  ph n_GlobalModuleReference ts next s (sem KString (x1)) (s1).
Proof.
  intros; subst. eapply ph_rule with (j := 179%Z); [vm_compute; reflexivity|apply allowed_always; vm_compute; reflexivity| |]; [rewrite <- (app_nil_r t1); eapply phs_cons; [eassumption|]; apply phs_nil|reflexivity].
Qed.
Lemma r_180 (t1 : list Lexer.token) (x1 : denote KString) (t2 : list Lexer.token) (x2 : denote KOidComps) (s1 : state) (s2 : state) (ts : list Lexer.token) (next : string) (s : state) : ph n_modulereference t1 (nxt (t2) next) s (sem KString x1) s1 -> ph n_ObjectIdentifierValue t2 next s1 (sem KOidComps x2) s2 -> ts = t1 ++ t2 ->
  ph n_GlobalModuleReference ts next s (sem KString (x1)) (s2).
Proof.
  intros; subst. eapply ph_rule with (j := 180%Z); [vm_compute; reflexivity|apply allowed_always; vm_compute; reflexivity| |]; [eapply phs_cons; [eassumption|]; rewrite <- (app_nil_r t2); eapply phs_cons; [eassumption|]; apply phs_nil|reflexivity].
Qed.
Lemma r_181 (t1 : list Lexer.token) (x1 : denote KString) (s1 : state) (ts : list Lexer.token) (next : string) (s : state) : ph n_Symbol t1 next s (sem KString x1) s1 -> ts = t1 ->
  ph n_SymbolList ts next s (sem KStrings ([x1])) (s1).
Proof.
  intros; subst. eapply ph_rule with (j := 181%Z); [vm_compute; reflexivity|apply allowed_always; vm_compute; reflexivity| |]; [rewrite <- (app_nil_r t1); eapply phs_cons; [eassumption|]; apply phs_nil|reflexivity].
Qed.
Lemma r_182 (t1 : list Lexer.token) (x1 : denote KStrings) (t3 : list Lexer.token) (x3 : denote KString) (s1 : state) (s3 : state) (ts : list Lexer.token) (next : string) (s : state) : ph n_SymbolList t1 "COMMA" s (sem KStrings x1) s1 -> ph n_Symbol t3 next s1 (sem KString x3) s3 -> ts = t1 ++ kw "COMMA" :: t3 ->
  ph n_SymbolList ts next s (sem KStrings (x1 ++ [x3])) (s3).
Proof.
  intros; subst. eapply ph_rule with (j := 182%Z); [vm_compute; reflexivity|apply allowed_always; vm_compute; reflexivity| |]; [eapply phs_cons; [eassumption|]; apply phs_token; [vm_compute; reflexivity|]; rewrite <- (app_nil_r t3); eapply phs_cons; [eassumption|]; apply phs_nil|reflexivity].
Qed.
Lemma r_183 (t1 : list Lexer.token) (x1 : denote KString) (s1 : state) (ts : list Lexer.token) (next : string) (s : state) : ph n_Reference t1 next s (sem KString x1) s1 -> ts = t1 ->
  ph n_Symbol ts next s (sem KString (x1)) (s1).
Proof.
  intros; subst. eapply ph_rule with (j := 183%Z); [vm_compute; reflexivity|apply allowed_always; vm_compute; reflexivity| |]; [rewrite <- (app_nil_r t1); eapply phs_cons; [eassumption|]; apply phs_nil|reflexivity].
Qed.
Lemma r_184 (t1 : list Lexer.token) (x1 : denote KString) (s1 : state) (ts : list Lexer.token) (next : string) (s : state) : ph n_typereference t1 next s (sem KString x1) s1 -> ts = t1 ->
  ph n_Reference ts next s (sem KString (x1)) (s1).
Proof.
  intros; subst. eapply ph_rule with (j := 184%Z); [vm_compute; reflexivity|apply allowed_always; vm_compute; reflexivity| |]; [rewrite <- (app_nil_r t1); eapply phs_cons; [eassumption|]; apply phs_nil|reflexivity].
Qed.
Lemma r_185 (t1 : list Lexer.token) (x1 : denote KString) (s1 : state) (ts : list Lexer.token) (next : string) (s : state) : ph n_typereference t1 "OPEN_BRACE" s (sem KString x1) s1 -> ts = t1 ++ kw "OPEN_BRACE" :: kw "CLOSE_BRACE" :: [] ->
  ph n_Reference ts next s (sem KString (x1)) (s1).
Proof.
  intros; subst. eapply ph_rule with (j := 185%Z); [vm_compute; reflexivity|apply allowed_always; vm_compute; reflexivity| |]; [eapply phs_cons; [eassumption|]; apply phs_token; [vm_compute; reflexivity|]; apply phs_token; [vm_compute; reflexivity|]; apply phs_nil|reflexivity].
Qed.
Lemma r_186 (t1 : list Lexer.token) (x1 : denote KString) (s1 : state) (ts : list Lexer.token) (next : string) (s : state) : ph n_valuereference t1 next s (sem KString x1) s1 -> ts = t1 ->
  ph n_Reference ts next s (sem KString (x1)) (s1).
Proof.
  intros; subst. eapply ph_rule with (j := 186%Z); [vm_compute; reflexivity|apply allowed_always; vm_compute; reflexivity| |]; [rewrite <- (app_nil_r t1); eapply phs_cons; [eassumption|]; apply phs_nil|reflexivity].
Qed.
Lemma r_187 (t1 : list Lexer.token) (x1 : denote KAssign) (s1 : state) (ts : list Lexer.token) (next : string) (s : state) : ph n_Assignment t1 next s (sem KAssign x1) s1 -> ts = t1 ->
  ph n_AssignmentList ts next s (sem KAssigns ([x1])) (s1).
Proof.
  intros; subst. eapply ph_rule with (j := 187%Z); [vm_compute; reflexivity|apply allowed_always; vm_compute; reflexivity| |]; [rewrite <- (app_nil_r t1); eapply phs_cons; [eassumption|]; apply phs_nil|reflexivity].
Qed.
Lemma r_188 (t1 : list Lexer.token) (x1 : denote KAssign) (t2 : list Lexer.token) (x2 : denote KAssigns) (s1 : state) (s2 : state) (ts : list Lexer.token) (next : string) (s : state) : ph n_Assignment t1 (nxt (t2) next) s (sem KAssign x1) s1 -> ph n_AssignmentList t2 next s1 (sem KAssigns x2) s2 -> ts = t1 ++ t2 ->
  ph n_AssignmentList ts next s (sem KAssigns (x2 ++ [x1])) (s2).
Proof.
  intros; subst. eapply ph_rule with (j := 188%Z); [vm_compute; reflexivity|apply allowed_always; vm_compute; reflexivity| |]; [eapply phs_cons; [eassumption|]; rewrite <- (app_nil_r t2); eapply phs_cons; [eassumption|]; apply phs_nil|reflexivity].
Qed.
Lemma r_189 (t1 : list Lexer.token) (x1 : denote KAssign) (s1 : state) (ts : list Lexer.token) (next : string) (s : state) : ph n_TypeAssignment t1 next s (sem KAssign x1) s1 -> ts = t1 ->
  ph n_Assignment ts next s (sem KAssign (x1)) (s1).
Proof.
  intros; subst. eapply ph_rule with (j := 189%Z); [vm_compute; reflexivity|apply allowed_always; vm_compute; reflexivity| |]; [rewrite <- (app_nil_r t1); eapply phs_cons; [eassumption|]; apply phs_nil|reflexivity].
Qed.
Lemma r_190 (t1 : list Lexer.token) (x1 : denote KAssign) (s1 : state) (ts : list Lexer.token) (next : string) (s : state) : ph n_ValueAssignment t1 next s (sem KAssign x1) s1 -> ts = t1 ->
  ph n_Assignment ts next s (sem KAssign (x1)) (s1).
Proof.
  intros; subst. eapply ph_rule with (j := 190%Z); [vm_compute; reflexivity|apply allowed_always; vm_compute; reflexivity| |]; [rewrite <- (app_nil_r t1); eapply phs_cons; [eassumption|]; apply phs_nil|reflexivity].
Qed.
Lemma r_191 (t1 : list Lexer.token) (x1 : denote KAssign) (s1 : state) (ts : list Lexer.token) (next : string) (s : state) : ph n_ObjectClassAssignment t1 next s (sem KAssign x1) s1 -> ts = t1 ->
  ph n_Assignment ts next s (sem KAssign (x1)) (s1).
Proof.
  intros; subst. eapply ph_rule with (j := 191%Z); [vm_compute; reflexivity|apply allowed_always; vm_compute; reflexivity| |]; [rewrite <- (app_nil_r t1); eapply phs_cons; [eassumption|]; apply phs_nil|reflexivity].
Qed.
Lemma r_192 (t1 : list Lexer.token) (x1 : denote KAssign) (s1 : state) (ts : list Lexer.token) (next : string) (s : state) : ph n_ValueSetTypeAssignment t1 next s (sem KAssign x1) s1 -> ts = t1 ->
  ph n_Assignment ts next s (sem KAssign (x1)) (s1).
Proof.
  intros; subst. eapply ph_rule with (j := 192%Z); [vm_compute; reflexivity|apply allowed_always; vm_compute; reflexivity| |]; [rewrite <- (app_nil_r t1); eapply phs_cons; [eassumption|]; apply phs_nil|reflexivity].
Qed.
Lemma r_193 (t1 : list Lexer.token) (x1 : denote KAssign) (s1 : state) (ts : list Lexer.token) (next : string) (s : state) : ph n_ObjectSetAssignment t1 next s (sem KAssign x1) s1 -> ts = t1 ->
  ph n_Assignment ts next s (sem KAssign (x1)) (s1).
Proof.
  intros; subst. eapply ph_rule with (j := 193%Z); [vm_compute; reflexivity|apply allowed_always; vm_compute; reflexivity| |]; [rewrite <- (app_nil_r t1); eapply phs_cons; [eassumption|]; apply phs_nil|reflexivity].
Qed.
Lemma r_194 (t1 : list Lexer.token) (x1 : denote KAssign) (s1 : state) (ts : list Lexer.token) (next : string) (s : state) : ph n_ParameterizedAssignment t1 next s (sem KAssign x1) s1 -> ts = t1 ->
  ph n_Assignment ts next s (sem KAssign (x1)) (s1).
Proof.
  intros; subst. eapply ph_rule with (j := 194%Z); [vm_compute; reflexivity|apply allowed_always; vm_compute; reflexivity| |]; [rewrite <- (app_nil_r t1); eapply phs_cons; [eassumption|]; apply phs_nil|reflexivity].
Qed.
Lemma r_195 (t1 : list Lexer.token) (x1 : denote KDefined) (s1 : state) (ts : list Lexer.token) (next : string) (s : state) : ph n_ExternalTypeReference t1 next s (sem KDefined x1) s1 -> ts = t1 ->
  ph n_DefinedType ts next s (sem KDefined (x1)) (s1).
Proof.
  intros; subst. eapply ph_rule with (j := 195%Z); [vm_compute; reflexivity|apply allowed_always; vm_compute; reflexivity| |]; [rewrite <- (app_nil_r t1); eapply phs_cons; [eassumption|]; apply phs_nil|reflexivity].
Qed.
Lemma r_196 (t1 : list Lexer.token) (x1 : denote KString) (s1 : state) (ts : list Lexer.token) (next : string) (s : state) : ph n_typereference t1 next s (sem KString x1) s1 -> ts = t1 ->
  ph n_DefinedType ts next s (sem KDefined (Defined None x1 [])) (s1).
Proof.
  intros; subst. eapply ph_rule with (j := 196%Z); [vm_compute; reflexivity|apply allowed_always; vm_compute; reflexivity| |]; [rewrite <- (app_nil_r t1); eapply phs_cons; [eassumption|]; apply phs_nil|reflexivity].
Qed.
Lemma r_197 (t1 : list Lexer.token) (x1 : denote KDefined) (s1 : state) (ts : list Lexer.token) (next : string) (s : state) : ph n_ParameterizedType t1 next s (sem KDefined x1) s1 -> ts = t1 ->
  ph n_DefinedType ts next s (sem KDefined (x1)) (s1).
Proof.
  intros; subst. eapply ph_rule with (j := 197%Z); [vm_compute; reflexivity|apply allowed_always; vm_compute; reflexivity| |]; [rewrite <- (app_nil_r t1); eapply phs_cons; [eassumption|]; apply phs_nil|reflexivity].
Qed.
Lemma r_198 (t1 : list Lexer.token) (x1 : denote KString) (s1 : state) (ts : list Lexer.token) (next : string) (s : state) : ph n_valuereference t1 next s (sem KString x1) s1 -> next <> "OPEN_BRACE" -> ts = t1 ->
  ph n_DefinedValue ts next s (sem KDefinedValue (x1)) (s1).
Proof.
  intros; subst. eapply ph_rule with (j := 198%Z); [vm_compute; reflexivity|apply allowed_before with (names := ["OPEN_BRACE"]); [vm_compute; reflexivity|vm_compute; reflexivity|cbn; intuition congruence]| |]; [rewrite <- (app_nil_r t1); eapply phs_cons; [eassumption|]; apply phs_nil|reflexivity].
Qed.
Lemma r_199 (t1 : list Lexer.token) (s1 : state) (ts : list Lexer.token) (next : string) (s : state) : ph n_ParameterizedValue t1 next s (sem KNone tt) s1 -> ts = t1 ->
  ph n_DefinedValue ts next s (sem KDefinedValue (default_value (KDefinedValue))) (s1).
Proof.
  intros; subst. eapply ph_rule with (j := 199%Z); [vm_compute; reflexivity|apply allowed_always; vm_compute; reflexivity| |]; [rewrite <- (app_nil_r t1); eapply phs_cons; [eassumption|]; apply phs_nil|reflexivity].
Qed.
Lemma r_200 (t1 : list Lexer.token) (x1 : denote KString) (t3 : list Lexer.token) (x3 : denote KTypes) (s1 : state) (s3 : state) (ts : list Lexer.token) (next : string) (s : state) : ph n_SimpleDefinedType t1 "OPEN_BRACE" s (sem KString x1) s1 -> ph n_ActualParameterList t3 "CLOSE_BRACE" s1 (sem KTypes x3) s3 -> ts = t1 ++ kw "OPEN_BRACE" :: t3 ++ kw "CLOSE_BRACE" :: [] ->
  ph n_ParameterizedType ts next s (sem KDefined (Defined None x1 x3)) (s3).
Proof.
  intros; subst. eapply ph_rule with (j := 200%Z); [vm_compute; reflexivity|apply allowed_always; vm_compute; reflexivity| |]; [eapply phs_cons; [eassumption|]; apply phs_token; [vm_compute; reflexivity|]; eapply phs_cons; [eassumption|]; apply phs_token; [vm_compute; reflexivity|]; apply phs_nil|reflexivity].
Qed.
Lemma r_202 (t1 : list Lexer.token) (x1 : denote KType) (s1 : state) (ts : list Lexer.token) (next : string) (s : state) : ph n_ActualParameter t1 next s (sem KType x1) s1 -> ts = t1 ->
  ph n_ActualParameterList ts next s (sem KTypes ([x1])) (s1).
Proof.
  intros; subst. eapply ph_rule with (j := 202%Z); [vm_compute; reflexivity|apply allowed_always; vm_compute; reflexivity| |]; [rewrite <- (app_nil_r t1); eapply phs_cons; [eassumption|]; apply phs_nil|reflexivity].
Qed.
Lemma r_204 (t1 : list Lexer.token) (x1 : denote KType) (s1 : state) (ts : list Lexer.token) (next : string) (s : state) : ph n_Type_1 t1 next s (sem KType x1) s1 -> ts = t1 ->
  ph n_ActualParameter ts next s (sem KType (x1)) (s1).
Proof.
  intros; subst. eapply ph_rule with (j := 204%Z); [vm_compute; reflexivity|apply allowed_always; vm_compute; reflexivity| |]; [rewrite <- (app_nil_r t1); eapply phs_cons; [eassumption|]; apply phs_nil|reflexivity].
Qed.
Lemma r_207 (t1 : list Lexer.token) (x1 : denote KString) (t3 : list Lexer.token) (x3 : denote KString) (s1 : state) (s3 : state) (ts : list Lexer.token) (next : string) (s : state) : ph n_typereference t1 "FULL_STOP" s (sem KString x1) s1 -> ph n_typereference t3 next s1 (sem KString x3) s3 -> ts = t1 ++ kw "FULL_STOP" :: t3 ->
  ph n_ExternalTypeReference ts next s (sem KDefined (Defined (Some x1) x3 [])) (s3).
Proof.
  intros; subst. eapply ph_rule with (j := 207%Z); [vm_compute; reflexivity|apply allowed_always; vm_compute; reflexivity| |]; [eapply phs_cons; [eassumption|]; apply phs_token; [vm_compute; reflexivity|]; rewrite <- (app_nil_r t3); eapply phs_cons; [eassumption|]; apply phs_nil|reflexivity].
Qed.
Lemma r_209 (t1 : list Lexer.token) (x1 : denote KString) (t3 : list Lexer.token) (x3 : denote KType) (s1 : state) (s3 : state) (ts : list Lexer.token) (next : string) (s : state) : ph n_typereference t1 "DEFINED_AS" s (sem KString x1) s1 -> ph n_Type t3 next s1 (sem KType x3) s3 -> ts = t1 ++ kw "DEFINED_AS" :: t3 ->
  ph n_TypeAssignment ts next s (sem KAssign (Assign x1 (AType x3) [])) (s3).
Proof.
  intros; subst. eapply ph_rule with (j := 209%Z); [vm_compute; reflexivity|apply allowed_always; vm_compute; reflexivity| |]; [eapply phs_cons; [eassumption|]; apply phs_token; [vm_compute; reflexivity|]; rewrite <- (app_nil_r t3); eapply phs_cons; [eassumption|]; apply phs_nil|reflexivity].
Qed.
Lemma r_210 (t1 : list Lexer.token) (x1 : denote KString) (t2 : list Lexer.token) (x2 : denote KType) (t4 : list Lexer.token) (x4 : denote KValue) (s1 : state) (s2 : state) (s4 : state) (ts : list Lexer.token) (next : string) (s : state) : ph n_valuereference t1 (nxt (t2 ++ kw "DEFINED_AS" :: t4) next) s (sem KString x1) s1 -> ph n_Type t2 "DEFINED_AS" s1 (sem KType x2) s2 -> ph n_Value t4 next s2 (sem KValue x4) s4 -> ts = t1 ++ t2 ++ kw "DEFINED_AS" :: t4 ->
  ph n_ValueAssignment ts next s (sem KAssign (Assign x1 (AValue x2 x4) [])) (s4).
Proof.
  intros; subst. eapply ph_rule with (j := 210%Z); [vm_compute; reflexivity|apply allowed_always; vm_compute; reflexivity| |]; [eapply phs_cons; [eassumption|]; eapply phs_cons; [eassumption|]; apply phs_token; [vm_compute; reflexivity|]; rewrite <- (app_nil_r t4); eapply phs_cons; [eassumption|]; apply phs_nil|reflexivity].
Qed.
Lemma r_212 (t1 : list Lexer.token) (x1 : denote KBuiltin) (s1 : state) (ts : list Lexer.token) (next : string) (s : state) : ph n_BuiltinType t1 next s (sem KBuiltin x1) s1 -> ts = t1 ->
  ph n_Type ts next s (sem KType (x1)) (s1).
Proof.
  intros; subst. eapply ph_rule with (j := 212%Z); [vm_compute; reflexivity|apply allowed_always; vm_compute; reflexivity| |]; [rewrite <- (app_nil_r t1); eapply phs_cons; [eassumption|]; apply phs_nil|reflexivity].
Qed.
Lemma r_213 (t1 : list Lexer.token) (x1 : denote KType) (s1 : state) (ts : list Lexer.token) (next : string) (s : state) : ph n_ConstrainedType t1 next s (sem KType x1) s1 -> ts = t1 ->
  ph n_Type ts next s (sem KType (x1)) (s1).
Proof.
  intros; subst. eapply ph_rule with (j := 213%Z); [vm_compute; reflexivity|apply allowed_always; vm_compute; reflexivity| |]; [rewrite <- (app_nil_r t1); eapply phs_cons; [eassumption|]; apply phs_nil|reflexivity].
Qed.
Lemma r_214 (t1 : list Lexer.token) (x1 : denote KDefined) (s1 : state) (ts : list Lexer.token) (next : string) (s : state) : ph n_DefinedType t1 next s (sem KDefined x1) s1 -> ts = t1 ->
  ph n_Type ts next s (sem KType (TRef x1)) (s1).
Proof.
  intros; subst. eapply ph_rule with (j := 214%Z); [vm_compute; reflexivity|apply allowed_always; vm_compute; reflexivity| |]; [rewrite <- (app_nil_r t1); eapply phs_cons; [eassumption|]; apply phs_nil|reflexivity].
Qed.
Lemma r_217  (ts : list Lexer.token) (next : string) (s : state) : ts = kw "ANY" :: [] ->
  ph n_BuiltinType ts next s (sem KBuiltin (TSimple Any)) (s).
Proof.
  intros; subst. eapply ph_rule with (j := 217%Z); [vm_compute; reflexivity|apply allowed_always; vm_compute; reflexivity| |]; [apply phs_token; [vm_compute; reflexivity|]; apply phs_nil|reflexivity].
Qed.
Lemma r_218 (t1 : list Lexer.token) (x1 : denote (KEmpty BitString)) (s1 : state) (ts : list Lexer.token) (next : string) (s : state) : ph n_BitStringType t1 next s (sem (KEmpty BitString) x1) s1 -> ts = t1 ->
  ph n_BuiltinType ts next s (sem KBuiltin (TSimple BitString)) (s1).
Proof.
  intros; subst. eapply ph_rule with (j := 218%Z); [vm_compute; reflexivity|apply allowed_always; vm_compute; reflexivity| |]; [rewrite <- (app_nil_r t1); eapply phs_cons; [eassumption|]; apply phs_nil|reflexivity].
Qed.
Lemma r_219 (t1 : list Lexer.token) (x1 : denote (KEmpty Boolean)) (s1 : state) (ts : list Lexer.token) (next : string) (s : state) : ph n_BooleanType t1 next s (sem (KEmpty Boolean) x1) s1 -> ts = t1 ->
  ph n_BuiltinType ts next s (sem KBuiltin (TSimple Boolean)) (s1).
Proof.
  intros; subst. eapply ph_rule with (j := 219%Z); [vm_compute; reflexivity|apply allowed_always; vm_compute; reflexivity| |]; [rewrite <- (app_nil_r t1); eapply phs_cons; [eassumption|]; apply phs_nil|reflexivity].
Qed.
Lemma r_220 (t1 : list Lexer.token) (x1 : denote KChar) (s1 : state) (ts : list Lexer.token) (next : string) (s : state) : ph n_CharacterStringType t1 next s (sem KChar x1) s1 -> ts = t1 ->
  ph n_BuiltinType ts next s (sem KBuiltin (TSimple (CharString x1))) (s1).
Proof.
  intros; subst. eapply ph_rule with (j := 220%Z); [vm_compute; reflexivity|apply allowed_always; vm_compute; reflexivity| |]; [rewrite <- (app_nil_r t1); eapply phs_cons; [eassumption|]; apply phs_nil|reflexivity].
Qed.
Lemma r_221 (t1 : list Lexer.token) (x1 : denote KChoice) (s1 : state) (ts : list Lexer.token) (next : string) (s : state) : ph n_ChoiceType t1 next s (sem KChoice x1) s1 -> ts = t1 ->
  ph n_BuiltinType ts next s (sem KBuiltin (TChoice x1)) (s1).
Proof.
  intros; subst. eapply ph_rule with (j := 221%Z); [vm_compute; reflexivity|apply allowed_always; vm_compute; reflexivity| |]; [rewrite <- (app_nil_r t1); eapply phs_cons; [eassumption|]; apply phs_nil|reflexivity].
Qed.
Lemma r_222 (t1 : list Lexer.token) (x1 : denote (KEmpty Date)) (s1 : state) (ts : list Lexer.token) (next : string) (s : state) : ph n_DateType t1 next s (sem (KEmpty Date) x1) s1 -> ts = t1 ->
  ph n_BuiltinType ts next s (sem KBuiltin (TSimple Date)) (s1).
Proof.
  intros; subst. eapply ph_rule with (j := 222%Z); [vm_compute; reflexivity|apply allowed_always; vm_compute; reflexivity| |]; [rewrite <- (app_nil_r t1); eapply phs_cons; [eassumption|]; apply phs_nil|reflexivity].
Qed.
Lemma r_223 (t1 : list Lexer.token) (x1 : denote (KEmpty DateTime)) (s1 : state) (ts : list Lexer.token) (next : string) (s : state) : ph n_DateTimeType t1 next s (sem (KEmpty DateTime) x1) s1 -> ts = t1 ->
  ph n_BuiltinType ts next s (sem KBuiltin (TSimple DateTime)) (s1).
Proof.
  intros; subst. eapply ph_rule with (j := 223%Z); [vm_compute; reflexivity|apply allowed_always; vm_compute; reflexivity| |]; [rewrite <- (app_nil_r t1); eapply phs_cons; [eassumption|]; apply phs_nil|reflexivity].
Qed.
Lemma r_224 (t1 : list Lexer.token) (x1 : denote (KEmpty Duration)) (s1 : state) (ts : list Lexer.token) (next : string) (s : state) : ph n_DurationType t1 next s (sem (KEmpty Duration) x1) s1 -> ts = t1 ->
  ph n_BuiltinType ts next s (sem KBuiltin (TSimple Duration)) (s1).
Proof.
  intros; subst. eapply ph_rule with (j := 224%Z); [vm_compute; reflexivity|apply allowed_always; vm_compute; reflexivity| |]; [rewrite <- (app_nil_r t1); eapply phs_cons; [eassumption|]; apply phs_nil|reflexivity].
Qed.
Lemma r_225 (t1 : list Lexer.token) (x1 : denote (KEmpty EmbeddedPDV)) (s1 : state) (ts : list Lexer.token) (next : string) (s : state) : ph n_EmbeddedPDVType t1 next s (sem (KEmpty EmbeddedPDV) x1) s1 -> ts = t1 ->
  ph n_BuiltinType ts next s (sem KBuiltin (TSimple EmbeddedPDV)) (s1).
Proof.
  intros; subst. eapply ph_rule with (j := 225%Z); [vm_compute; reflexivity|apply allowed_always; vm_compute; reflexivity| |]; [rewrite <- (app_nil_r t1); eapply phs_cons; [eassumption|]; apply phs_nil|reflexivity].
Qed.
Lemma r_226 (t1 : list Lexer.token) (x1 : denote KEnumerated) (s1 : state) (ts : list Lexer.token) (next : string) (s : state) : ph n_EnumeratedType t1 next s (sem KEnumerated x1) s1 -> ts = t1 ->
  ph n_BuiltinType ts next s (sem KBuiltin (TEnumerated (fst x1) (snd x1))) (s1).
Proof.
  intros; subst. eapply ph_rule with (j := 226%Z); [vm_compute; reflexivity|apply allowed_always; vm_compute; reflexivity| |]; [rewrite <- (app_nil_r t1); eapply phs_cons; [eassumption|]; apply phs_nil|reflexivity].
Qed.
Lemma r_227 (t1 : list Lexer.token) (x1 : denote (KEmpty External)) (s1 : state) (ts : list Lexer.token) (next : string) (s : state) : ph n_ExternalType t1 next s (sem (KEmpty External) x1) s1 -> ts = t1 ->
  ph n_BuiltinType ts next s (sem KBuiltin (TSimple External)) (s1).
Proof.
  intros; subst. eapply ph_rule with (j := 227%Z); [vm_compute; reflexivity|apply allowed_always; vm_compute; reflexivity| |]; [rewrite <- (app_nil_r t1); eapply phs_cons; [eassumption|]; apply phs_nil|reflexivity].
Qed.
Lemma r_228  (ts : list Lexer.token) (next : string) (s : state) : ts = kw "GeneralizedTime" :: [] ->
  ph n_BuiltinType ts next s (sem KBuiltin (TSimple GeneralizedTime)) (s).
Proof.
  intros; subst. eapply ph_rule with (j := 228%Z); [vm_compute; reflexivity|apply allowed_always; vm_compute; reflexivity| |]; [apply phs_token; [vm_compute; reflexivity|]; apply phs_nil|reflexivity].
Qed.
Lemma r_229 (t1 : list Lexer.token) (x1 : denote (KEmpty InstanceOf)) (s1 : state) (ts : list Lexer.token) (next : string) (s : state) : ph n_InstanceOfType t1 next s (sem (KEmpty InstanceOf) x1) s1 -> ts = t1 ->
  ph n_BuiltinType ts next s (sem KBuiltin (TSimple InstanceOf)) (s1).
Proof.
  intros; subst. eapply ph_rule with (j := 229%Z); [vm_compute; reflexivity|apply allowed_always; vm_compute; reflexivity| |]; [rewrite <- (app_nil_r t1); eapply phs_cons; [eassumption|]; apply phs_nil|reflexivity].
Qed.
Lemma r_230 (t1 : list Lexer.token) (x1 : denote KInteger) (s1 : state) (ts : list Lexer.token) (next : string) (s : state) : ph n_IntegerType t1 next s (sem KInteger x1) s1 -> ts = t1 ->
  ph n_BuiltinType ts next s (sem KBuiltin (TInteger x1)) (s1).
Proof.
  intros; subst. eapply ph_rule with (j := 230%Z); [vm_compute; reflexivity|apply allowed_always; vm_compute; reflexivity| |]; [rewrite <- (app_nil_r t1); eapply phs_cons; [eassumption|]; apply phs_nil|reflexivity].
Qed.
Lemma r_231 (t1 : list Lexer.token) (x1 : denote (KEmpty IRI)) (s1 : state) (ts : list Lexer.token) (next : string) (s : state) : ph n_IRIType t1 next s (sem (KEmpty IRI) x1) s1 -> ts = t1 ->
  ph n_BuiltinType ts next s (sem KBuiltin (TSimple IRI)) (s1).
Proof.
  intros; subst. eapply ph_rule with (j := 231%Z); [vm_compute; reflexivity|apply allowed_always; vm_compute; reflexivity| |]; [rewrite <- (app_nil_r t1); eapply phs_cons; [eassumption|]; apply phs_nil|reflexivity].
Qed.
Lemma r_232 (t1 : list Lexer.token) (x1 : denote (KEmpty Null)) (s1 : state) (ts : list Lexer.token) (next : string) (s : state) : ph n_NullType t1 next s (sem (KEmpty Null) x1) s1 -> ts = t1 ->
  ph n_BuiltinType ts next s (sem KBuiltin (TSimple Null)) (s1).
Proof.
  intros; subst. eapply ph_rule with (j := 232%Z); [vm_compute; reflexivity|apply allowed_always; vm_compute; reflexivity| |]; [rewrite <- (app_nil_r t1); eapply phs_cons; [eassumption|]; apply phs_nil|reflexivity].
Qed.
Lemma r_233 (t1 : list Lexer.token) (x1 : denote KField) (s1 : state) (ts : list Lexer.token) (next : string) (s : state) : ph n_ObjectClassFieldType t1 next s (sem KField x1) s1 -> ts = t1 ->
  ph n_BuiltinType ts next s (sem KBuiltin (TField (fst x1) (snd x1))) (s1).
Proof.
  intros; subst. eapply ph_rule with (j := 233%Z); [vm_compute; reflexivity|apply allowed_always; vm_compute; reflexivity| |]; [rewrite <- (app_nil_r t1); eapply phs_cons; [eassumption|]; apply phs_nil|reflexivity].
Qed.
Lemma r_234  (ts : list Lexer.token) (next : string) (s : state) : ts = kw "ObjectDescriptor" :: [] ->
  ph n_BuiltinType ts next s (sem KBuiltin (TSimple ObjectDescriptor)) (s).
Proof.
  intros; subst. eapply ph_rule with (j := 234%Z); [vm_compute; reflexivity|apply allowed_always; vm_compute; reflexivity| |]; [apply phs_token; [vm_compute; reflexivity|]; apply phs_nil|reflexivity].
Qed.
Lemma r_235 (t1 : list Lexer.token) (x1 : denote (KEmpty ObjectIdentifier)) (s1 : state) (ts : list Lexer.token) (next : string) (s : state) : ph n_ObjectIdentifierType t1 next s (sem (KEmpty ObjectIdentifier) x1) s1 -> ts = t1 ->
  ph n_BuiltinType ts next s (sem KBuiltin (TSimple ObjectIdentifier)) (s1).
Proof.
  intros; subst. eapply ph_rule with (j := 235%Z); [vm_compute; reflexivity|apply allowed_always; vm_compute; reflexivity| |]; [rewrite <- (app_nil_r t1); eapply phs_cons; [eassumption|]; apply phs_nil|reflexivity].
Qed.
Lemma r_236 (t1 : list Lexer.token) (x1 : denote (KEmpty OctetString)) (s1 : state) (ts : list Lexer.token) (next : string) (s : state) : ph n_OctetStringType t1 next s (sem (KEmpty OctetString) x1) s1 -> ts = t1 ->
  ph n_BuiltinType ts next s (sem KBuiltin (TSimple OctetString)) (s1).
Proof.
  intros; subst. eapply ph_rule with (j := 236%Z); [vm_compute; reflexivity|apply allowed_always; vm_compute; reflexivity| |]; [rewrite <- (app_nil_r t1); eapply phs_cons; [eassumption|]; apply phs_nil|reflexivity].
Qed.
Lemma r_237 (t1 : list Lexer.token) (x1 : denote (KEmpty Real)) (s1 : state) (ts : list Lexer.token) (next : string) (s : state) : ph n_RealType t1 next s (sem (KEmpty Real) x1) s1 -> ts = t1 ->
  ph n_BuiltinType ts next s (sem KBuiltin (TSimple Real)) (s1).
Proof.
  intros; subst. eapply ph_rule with (j := 237%Z); [vm_compute; reflexivity|apply allowed_always; vm_compute; reflexivity| |]; [rewrite <- (app_nil_r t1); eapply phs_cons; [eassumption|]; apply phs_nil|reflexivity].
Qed.
Lemma r_238 (t1 : list Lexer.token) (x1 : denote (KEmpty RelativeIRI)) (s1 : state) (ts : list Lexer.token) (next : string) (s : state) : ph n_RelativeIRIType t1 next s (sem (KEmpty RelativeIRI) x1) s1 -> ts = t1 ->
  ph n_BuiltinType ts next s (sem KBuiltin (TSimple RelativeIRI)) (s1).
Proof.
  intros; subst. eapply ph_rule with (j := 238%Z); [vm_compute; reflexivity|apply allowed_always; vm_compute; reflexivity| |]; [rewrite <- (app_nil_r t1); eapply phs_cons; [eassumption|]; apply phs_nil|reflexivity].
Qed.
Lemma r_239 (t1 : list Lexer.token) (x1 : denote (KEmpty RelativeOID)) (s1 : state) (ts : list Lexer.token) (next : string) (s : state) : ph n_RelativeOIDType t1 next s (sem (KEmpty RelativeOID) x1) s1 -> ts = t1 ->
  ph n_BuiltinType ts next s (sem KBuiltin (TSimple RelativeOID)) (s1).
Proof.
  intros; subst. eapply ph_rule with (j := 239%Z); [vm_compute; reflexivity|apply allowed_always; vm_compute; reflexivity| |]; [rewrite <- (app_nil_r t1); eapply phs_cons; [eassumption|]; apply phs_nil|reflexivity].
Qed.
Lemma r_240 (t1 : list Lexer.token) (x1 : denote KSequence) (s1 : state) (ts : list Lexer.token) (next : string) (s : state) : ph n_SequenceType t1 next s (sem KSequence x1) s1 -> ts = t1 ->
  ph n_BuiltinType ts next s (sem KBuiltin (TRecord false (fst x1) (snd x1))) (s1).
Proof.
  intros; subst. eapply ph_rule with (j := 240%Z); [vm_compute; reflexivity|apply allowed_always; vm_compute; reflexivity| |]; [rewrite <- (app_nil_r t1); eapply phs_cons; [eassumption|]; apply phs_nil|reflexivity].
Qed.
Lemma r_241 (t1 : list Lexer.token) (x1 : denote KSequenceOf) (s1 : state) (ts : list Lexer.token) (next : string) (s : state) : ph n_SequenceOfType t1 next s (sem KSequenceOf x1) s1 -> ts = t1 ->
  ph n_BuiltinType ts next s (sem KBuiltin (TListOf false (fst x1) (snd x1))) (s1).
Proof.
  intros; subst. eapply ph_rule with (j := 241%Z); [vm_compute; reflexivity|apply allowed_always; vm_compute; reflexivity| |]; [rewrite <- (app_nil_r t1); eapply phs_cons; [eassumption|]; apply phs_nil|reflexivity].
Qed.
Lemma r_242 (t1 : list Lexer.token) (x1 : denote KSet) (s1 : state) (ts : list Lexer.token) (next : string) (s : state) : ph n_SetType t1 next s (sem KSet x1) s1 -> ts = t1 ->
  ph n_BuiltinType ts next s (sem KBuiltin (TRecord true (fst x1) (snd x1))) (s1).
Proof.
  intros; subst. eapply ph_rule with (j := 242%Z); [vm_compute; reflexivity|apply allowed_always; vm_compute; reflexivity| |]; [rewrite <- (app_nil_r t1); eapply phs_cons; [eassumption|]; apply phs_nil|reflexivity].
Qed.
Lemma r_243 (t1 : list Lexer.token) (x1 : denote KSetOf) (s1 : state) (ts : list Lexer.token) (next : string) (s : state) : ph n_SetOfType t1 next s (sem KSetOf x1) s1 -> ts = t1 ->
  ph n_BuiltinType ts next s (sem KBuiltin (TListOf true (fst x1) (snd x1))) (s1).
Proof.
  intros; subst. eapply ph_rule with (j := 243%Z); [vm_compute; reflexivity|apply allowed_always; vm_compute; reflexivity| |]; [rewrite <- (app_nil_r t1); eapply phs_cons; [eassumption|]; apply phs_nil|reflexivity].
Qed.
Lemma r_244 (t1 : list Lexer.token) (x1 : denote KPrefixed) (s1 : state) (ts : list Lexer.token) (next : string) (s : state) : ph n_PrefixedType t1 next s (sem KPrefixed x1) s1 -> ts = t1 ->
  ph n_BuiltinType ts next s (sem KBuiltin (TTagged (fst (fst x1)) (snd (fst x1)) (snd x1))) (s1).
Proof.
  intros; subst. eapply ph_rule with (j := 244%Z); [vm_compute; reflexivity|apply allowed_always; vm_compute; reflexivity| |]; [rewrite <- (app_nil_r t1); eapply phs_cons; [eassumption|]; apply phs_nil|reflexivity].
Qed.
Lemma r_245 (t1 : list Lexer.token) (x1 : denote (KEmpty Time)) (s1 : state) (ts : list Lexer.token) (next : string) (s : state) : ph n_TimeType t1 next s (sem (KEmpty Time) x1) s1 -> ts = t1 ->
  ph n_BuiltinType ts next s (sem KBuiltin (TSimple Time)) (s1).
Proof.
  intros; subst. eapply ph_rule with (j := 245%Z); [vm_compute; reflexivity|apply allowed_always; vm_compute; reflexivity| |]; [rewrite <- (app_nil_r t1); eapply phs_cons; [eassumption|]; apply phs_nil|reflexivity].
Qed.
Lemma r_246 (t1 : list Lexer.token) (x1 : denote (KEmpty TimeOfDay)) (s1 : state) (ts : list Lexer.token) (next : string) (s : state) : ph n_TimeOfDayType t1 next s (sem (KEmpty TimeOfDay) x1) s1 -> ts = t1 ->
  ph n_BuiltinType ts next s (sem KBuiltin (TSimple TimeOfDay)) (s1).
Proof.
  intros; subst. eapply ph_rule with (j := 246%Z); [vm_compute; reflexivity|apply allowed_always; vm_compute; reflexivity| |]; [rewrite <- (app_nil_r t1); eapply phs_cons; [eassumption|]; apply phs_nil|reflexivity].
Qed.
Lemma r_247  (ts : list Lexer.token) (next : string) (s : state) : ts = kw "UTCTime" :: [] ->
  ph n_BuiltinType ts next s (sem KBuiltin (TSimple UTCTime)) (s).
Proof.
  intros; subst. eapply ph_rule with (j := 247%Z); [vm_compute; reflexivity|apply allowed_always; vm_compute; reflexivity| |]; [apply phs_token; [vm_compute; reflexivity|]; apply phs_nil|reflexivity].
Qed.
Lemma r_248 (t1 : list Lexer.token) (x1 : denote KString) (t2 : list Lexer.token) (x2 : denote KType) (s1 : state) (s2 : state) (ts : list Lexer.token) (next : string) (s : state) : ph n_identifier t1 (nxt (t2) next) s (sem KString x1) s1 -> ph n_Type t2 next s1 (sem KType x2) s2 -> next <> "OPEN_PARENTHESIS" -> ts = t1 ++ t2 ->
  ph n_NamedType ts next s (sem KNamedType ((x1, x2))) (s2).
Proof.
  intros; subst. eapply ph_rule with (j := 248%Z); [vm_compute; reflexivity|apply allowed_before with (names := ["OPEN_PARENTHESIS"]); [vm_compute; reflexivity|vm_compute; reflexivity|cbn; intuition congruence]| |]; [eapply phs_cons; [eassumption|]; rewrite <- (app_nil_r t2); eapply phs_cons; [eassumption|]; apply phs_nil|reflexivity].
Qed.
Lemma r_249 (t1 : list Lexer.token) (x1 : denote KBool) (s1 : state) (ts : list Lexer.token) (next : string) (s : state) : ph n_BooleanValue t1 next s (sem KBool x1) s1 -> ts = t1 ->
  ph n_ValueWithoutTypeIdentifier ts next s (sem KValue (default_value (KValue))) (s1).
Proof.
  intros; subst. eapply ph_rule with (j := 249%Z); [vm_compute; reflexivity|apply allowed_always; vm_compute; reflexivity| |]; [rewrite <- (app_nil_r t1); eapply phs_cons; [eassumption|]; apply phs_nil|reflexivity].
Qed.
Lemma r_250 (t1 : list Lexer.token) (s1 : state) (ts : list Lexer.token) (next : string) (s : state) : ph n_IRIValue t1 next s (sem KNone tt) s1 -> ts = t1 ->
  ph n_ValueWithoutTypeIdentifier ts next s (sem KValue (default_value (KValue))) (s1).
Proof.
  intros; subst. eapply ph_rule with (j := 250%Z); [vm_compute; reflexivity|apply allowed_always; vm_compute; reflexivity| |]; [rewrite <- (app_nil_r t1); eapply phs_cons; [eassumption|]; apply phs_nil|reflexivity].
Qed.
Lemma r_251  (ts : list Lexer.token) (next : string) (s : state) : ts = kw "ASN_NULL" :: [] ->
  ph n_ValueWithoutTypeIdentifier ts next s (sem KValue (default_value (KValue))) (s).
Proof.
  intros; subst. eapply ph_rule with (j := 251%Z); [vm_compute; reflexivity|apply allowed_always; vm_compute; reflexivity| |]; [apply phs_token; [vm_compute; reflexivity|]; apply phs_nil|reflexivity].
Qed.
Lemma r_252 (t1 : list Lexer.token) (x1 : denote KTime) (s1 : state) (ts : list Lexer.token) (next : string) (s : state) : ph n_TimeValue t1 next s (sem KTime x1) s1 -> ts = t1 ->
  ph n_ValueWithoutTypeIdentifier ts next s (sem KValue (default_value (KValue))) (s1).
Proof.
  intros; subst. eapply ph_rule with (j := 252%Z); [vm_compute; reflexivity|apply allowed_always; vm_compute; reflexivity| |]; [rewrite <- (app_nil_r t1); eapply phs_cons; [eassumption|]; apply phs_nil|reflexivity].
Qed.
Lemma r_253 (a1 : list Z) (ts : list Lexer.token) (next : string) (s : state) : ts = Lexer.Token "bstring" (PText a1) :: [] ->
  ph n_ValueWithoutTypeIdentifier ts next s (sem KValue (VBits (string_of a1))) (s).
Proof.
  intros; subst. eapply ph_rule with (j := 253%Z); [vm_compute; reflexivity|apply allowed_always; vm_compute; reflexivity| |]; [apply phs_token; [vm_compute; reflexivity|]; apply phs_nil|reflexivity].
Qed.
Lemma r_254 (a1 : list Z) (ts : list Lexer.token) (next : string) (s : state) : ts = Lexer.Token "hstring" (PText a1) :: [] ->
  ph n_ValueWithoutTypeIdentifier ts next s (sem KValue (VHex (string_of a1))) (s).
Proof.
  intros; subst. eapply ph_rule with (j := 254%Z); [vm_compute; reflexivity|apply allowed_always; vm_compute; reflexivity| |]; [apply phs_token; [vm_compute; reflexivity|]; apply phs_nil|reflexivity].
Qed.
Lemma r_255 (a1 : list Z) (ts : list Lexer.token) (next : string) (s : state) : ts = Lexer.Token "cstring" (PText a1) :: [] ->
  ph n_ValueWithoutTypeIdentifier ts next s (sem KValue (VChars (string_of a1))) (s).
Proof.
  intros; subst. eapply ph_rule with (j := 255%Z); [vm_compute; reflexivity|apply allowed_always; vm_compute; reflexivity| |]; [apply phs_token; [vm_compute; reflexivity|]; apply phs_nil|reflexivity].
Qed.
Lemma r_257 (t1 : list Lexer.token) (x1 : denote KDefinedValue) (s1 : state) (ts : list Lexer.token) (next : string) (s : state) : ph n_DefinedValue t1 next s (sem KDefinedValue x1) s1 -> ts = t1 ->
  ph n_ValueWithoutTypeIdentifier ts next s (sem KValue (VDefined x1)) (s1).
Proof.
  intros; subst. eapply ph_rule with (j := 257%Z); [vm_compute; reflexivity|apply allowed_always; vm_compute; reflexivity| |]; [rewrite <- (app_nil_r t1); eapply phs_cons; [eassumption|]; apply phs_nil|reflexivity].
Qed.
Lemma r_258 (a1 : string) (a3 : Z) (ts : list Lexer.token) (next : string) (s : state) : ts = Lexer.Token "GENERIC_IDENTIFIER_LOWERCASE" (PName a1) :: kw "OPEN_PARENTHESIS" :: Lexer.Token "number" (PInteger a3) :: kw "CLOSE_PARENTHESIS" :: [] ->
  ph n_ValueWithoutTypeIdentifier ts next s (sem KValue (VNamed a1 a3)) (s).
Proof.
  intros; subst. eapply ph_rule with (j := 258%Z); [vm_compute; reflexivity|apply allowed_always; vm_compute; reflexivity| |]; [apply phs_token; [vm_compute; reflexivity|]; apply phs_token; [vm_compute; reflexivity|]; apply phs_token; [vm_compute; reflexivity|]; apply phs_token; [vm_compute; reflexivity|]; apply phs_nil|reflexivity].
Qed.
Lemma r_259  (ts : list Lexer.token) (next : string) (s : state) : ts = kw "COLON" :: [] ->
  ph n_ValueWithoutTypeIdentifier ts next s (sem KValue (default_value (KValue))) (s).
Proof.
  intros; subst. eapply ph_rule with (j := 259%Z); [vm_compute; reflexivity|apply allowed_always; vm_compute; reflexivity| |]; [apply phs_token; [vm_compute; reflexivity|]; apply phs_nil|reflexivity].
Qed.
Lemma r_260 (t1 : list Lexer.token) (x1 : denote KInt64) (s1 : state) (ts : list Lexer.token) (next : string) (s : state) : ph n_SignedNumber t1 next s (sem KInt64 x1) s1 -> ts = t1 ->
  ph n_ValueWithoutTypeIdentifier ts next s (sem KValue (VInt x1)) (s1).
Proof.
  intros; subst. eapply ph_rule with (j := 260%Z); [vm_compute; reflexivity|apply allowed_always; vm_compute; reflexivity| |]; [rewrite <- (app_nil_r t1); eapply phs_cons; [eassumption|]; apply phs_nil|reflexivity].
Qed.
Lemma r_261 (a1 : list Z) (ts : list Lexer.token) (next : string) (s : state) : ts = Lexer.Token "realnumber" (PText a1) :: [] ->
  ph n_ValueWithoutTypeIdentifier ts next s (sem KValue (VReal (string_of a1))) (s).
Proof.
  intros; subst. eapply ph_rule with (j := 261%Z); [vm_compute; reflexivity|apply allowed_always; vm_compute; reflexivity| |]; [apply phs_token; [vm_compute; reflexivity|]; apply phs_nil|reflexivity].
Qed.
Lemma r_268 (t2 : list Lexer.token) (x2 : denote KValues) (s2 : state) (ts : list Lexer.token) (next : string) (s : state) : ph n_SequenceOfValues t2 "CLOSE_BRACE" s (sem KValues x2) s2 -> ts = kw "OPEN_BRACE" :: t2 ++ kw "CLOSE_BRACE" :: [] ->
  ph n_ValueWithoutTypeIdentifier ts next s (sem KValue (VList x2)) (s2).
Proof.
  intros; subst. eapply ph_rule with (j := 268%Z); [vm_compute; reflexivity|apply allowed_always; vm_compute; reflexivity| |]; [apply phs_token; [vm_compute; reflexivity|]; eapply phs_cons; [eassumption|]; apply phs_token; [vm_compute; reflexivity|]; apply phs_nil|reflexivity].
Qed.
Lemma r_274 (t1 : list Lexer.token) (x1 : denote KValue) (s1 : state) (ts : list Lexer.token) (next : string) (s : state) : ph n_ValueWithoutTypeIdentifier t1 next s (sem KValue x1) s1 -> ts = t1 ->
  ph n_Value ts next s (sem KValue (x1)) (s1).
Proof.
  intros; subst. eapply ph_rule with (j := 274%Z); [vm_compute; reflexivity|apply allowed_always; vm_compute; reflexivity| |]; [rewrite <- (app_nil_r t1); eapply phs_cons; [eassumption|]; apply phs_nil|reflexivity].
Qed.
Lemma r_275 (a1 : string) (ts : list Lexer.token) (next : string) (s : state) : ts = Lexer.Token "GENERIC_IDENTIFIER_UPPERCASE" (PName a1) :: [] ->
  ph n_Value ts next s (sem KValue (VString a1)) (s).
Proof.
  intros; subst. eapply ph_rule with (j := 275%Z); [vm_compute; reflexivity|apply allowed_always; vm_compute; reflexivity| |]; [apply phs_token; [vm_compute; reflexivity|]; apply phs_nil|reflexivity].
Qed.
Lemma r_282 (t1 : list Lexer.token) (x1 : denote KValue) (s1 : state) (ts : list Lexer.token) (next : string) (s : state) : ph n_Value t1 next s (sem KValue x1) s1 -> next <> "COLON" -> ts = t1 ->
  ph n_SequenceOfValues ts next s (sem KValues ([x1])) (s1).
Proof.
  intros; subst. eapply ph_rule with (j := 282%Z); [vm_compute; reflexivity|apply allowed_before with (names := ["COLON"]); [vm_compute; reflexivity|vm_compute; reflexivity|cbn; intuition congruence]| |]; [rewrite <- (app_nil_r t1); eapply phs_cons; [eassumption|]; apply phs_nil|reflexivity].
Qed.
Lemma r_283 (t1 : list Lexer.token) (x1 : denote KValues) (t2 : list Lexer.token) (x2 : denote KValue) (s1 : state) (s2 : state) (ts : list Lexer.token) (next : string) (s : state) : ph n_SequenceOfValues t1 (nxt (t2) next) s (sem KValues x1) s1 -> ph n_Value t2 next s1 (sem KValue x2) s2 -> next <> "COLON" -> ts = t1 ++ t2 ->
  ph n_SequenceOfValues ts next s (sem KValues (x1 ++ [x2])) (s2).
Proof.
  intros; subst. eapply ph_rule with (j := 283%Z); [vm_compute; reflexivity|apply allowed_before with (names := ["COLON"]); [vm_compute; reflexivity|vm_compute; reflexivity|cbn; intuition congruence]| |]; [eapply phs_cons; [eassumption|]; rewrite <- (app_nil_r t2); eapply phs_cons; [eassumption|]; apply phs_nil|reflexivity].
Qed.
Lemma r_284  (ts : list Lexer.token) (next : string) (s : state) : ts = kw "BOOLEAN" :: [] ->
  ph n_BooleanType ts next s (sem (KEmpty Boolean) (tt)) (s).
Proof.
  intros; subst. eapply ph_rule with (j := 284%Z); [vm_compute; reflexivity|apply allowed_always; vm_compute; reflexivity| |]; [apply phs_token; [vm_compute; reflexivity|]; apply phs_nil|reflexivity].
Qed.
Lemma r_285  (ts : list Lexer.token) (next : string) (s : state) : ts = kw "TRUE" :: [] ->
  ph n_BooleanValue ts next s (sem KBool (true)) (s).
Proof.
  intros; subst. eapply ph_rule with (j := 285%Z); [vm_compute; reflexivity|apply allowed_always; vm_compute; reflexivity| |]; [apply phs_token; [vm_compute; reflexivity|]; apply phs_nil|reflexivity].
Qed.
Lemma r_286  (ts : list Lexer.token) (next : string) (s : state) : ts = kw "FALSE" :: [] ->
  ph n_BooleanValue ts next s (sem KBool (false)) (s).
Proof.
  intros; subst. eapply ph_rule with (j := 286%Z); [vm_compute; reflexivity|apply allowed_always; vm_compute; reflexivity| |]; [apply phs_token; [vm_compute; reflexivity|]; apply phs_nil|reflexivity].
Qed.
Lemma r_287  (ts : list Lexer.token) (next : string) (s : state) : ts = kw "INTEGER" :: [] ->
  ph n_IntegerType ts next s (sem KInteger ([])) (s).
Proof.
  intros; subst. eapply ph_rule with (j := 287%Z); [vm_compute; reflexivity|apply allowed_always; vm_compute; reflexivity| |]; [apply phs_token; [vm_compute; reflexivity|]; apply phs_nil|reflexivity].
Qed.
Lemma r_288 (t3 : list Lexer.token) (x3 : denote KNamedNumbers) (s3 : state) (ts : list Lexer.token) (next : string) (s : state) : ph n_NamedNumberList t3 "CLOSE_BRACE" s (sem KNamedNumbers x3) s3 -> ts = kw "INTEGER" :: kw "OPEN_BRACE" :: t3 ++ kw "CLOSE_BRACE" :: [] ->
  ph n_IntegerType ts next s (sem KInteger (x3)) (s3).
Proof.
  intros; subst. eapply ph_rule with (j := 288%Z); [vm_compute; reflexivity|apply allowed_always; vm_compute; reflexivity| |]; [apply phs_token; [vm_compute; reflexivity|]; apply phs_token; [vm_compute; reflexivity|]; eapply phs_cons; [eassumption|]; apply phs_token; [vm_compute; reflexivity|]; apply phs_nil|reflexivity].
Qed.
Lemma r_289 (t1 : list Lexer.token) (x1 : denote KNamedNumber) (s1 : state) (ts : list Lexer.token) (next : string) (s : state) : ph n_NamedNumber t1 next s (sem KNamedNumber x1) s1 -> ts = t1 ->
  ph n_NamedNumberList ts next s (sem KNamedNumbers ([x1])) (s1).
Proof.
  intros; subst. eapply ph_rule with (j := 289%Z); [vm_compute; reflexivity|apply allowed_always; vm_compute; reflexivity| |]; [rewrite <- (app_nil_r t1); eapply phs_cons; [eassumption|]; apply phs_nil|reflexivity].
Qed.
Lemma r_290 (t1 : list Lexer.token) (x1 : denote KNamedNumbers) (t3 : list Lexer.token) (x3 : denote KNamedNumber) (s1 : state) (s3 : state) (ts : list Lexer.token) (next : string) (s : state) : ph n_NamedNumberList t1 "COMMA" s (sem KNamedNumbers x1) s1 -> ph n_NamedNumber t3 next s1 (sem KNamedNumber x3) s3 -> ts = t1 ++ kw "COMMA" :: t3 ->
  ph n_NamedNumberList ts next s (sem KNamedNumbers (x1 ++ [x3])) (s3).
Proof.
  intros; subst. eapply ph_rule with (j := 290%Z); [vm_compute; reflexivity|apply allowed_always; vm_compute; reflexivity| |]; [eapply phs_cons; [eassumption|]; apply phs_token; [vm_compute; reflexivity|]; rewrite <- (app_nil_r t3); eapply phs_cons; [eassumption|]; apply phs_nil|reflexivity].
Qed.
Lemma r_291 (t1 : list Lexer.token) (x1 : denote KString) (t3 : list Lexer.token) (x3 : denote KInt64) (s1 : state) (s3 : state) (ts : list Lexer.token) (next : string) (s : state) : ph n_identifier t1 "OPEN_PARENTHESIS" s (sem KString x1) s1 -> ph n_SignedNumber t3 "CLOSE_PARENTHESIS" s1 (sem KInt64 x3) s3 -> ts = t1 ++ kw "OPEN_PARENTHESIS" :: t3 ++ kw "CLOSE_PARENTHESIS" :: [] ->
  ph n_NamedNumber ts next s (sem KNamedNumber ((x1, x3))) (s3).
Proof.
  intros; subst. eapply ph_rule with (j := 291%Z); [vm_compute; reflexivity|apply allowed_always; vm_compute; reflexivity| |]; [eapply phs_cons; [eassumption|]; apply phs_token; [vm_compute; reflexivity|]; eapply phs_cons; [eassumption|]; apply phs_token; [vm_compute; reflexivity|]; apply phs_nil|reflexivity].
Qed.
Lemma r_292 (t1 : list Lexer.token) (x1 : denote KString) (t3 : list Lexer.token) (x3 : denote KDefinedValue) (s1 : state) (s3 : state) (ts : list Lexer.token) (next : string) (s : state) : ph n_identifier t1 "OPEN_PARENTHESIS" s (sem KString x1) s1 -> ph n_DefinedValue t3 "CLOSE_PARENTHESIS" s1 (sem KDefinedValue x3) s3 -> ts = t1 ++ kw "OPEN_PARENTHESIS" :: t3 ++ kw "CLOSE_PARENTHESIS" :: [] ->
  ph n_NamedNumber ts next s (sem KNamedNumber ((x1, 0%Z))) (s3).
Proof.
  intros; subst. eapply ph_rule with (j := 292%Z); [vm_compute; reflexivity|apply allowed_always; vm_compute; reflexivity| |]; [eapply phs_cons; [eassumption|]; apply phs_token; [vm_compute; reflexivity|]; eapply phs_cons; [eassumption|]; apply phs_token; [vm_compute; reflexivity|]; apply phs_nil|reflexivity].
Qed.
Lemma r_293 (a1 : Z) (ts : list Lexer.token) (next : string) (s : state) : ts = Lexer.Token "number" (PInteger a1) :: [] ->
  ph n_SignedNumber ts next s (sem KInt64 (a1)) (s).
Proof.
  intros; subst. eapply ph_rule with (j := 293%Z); [vm_compute; reflexivity|apply allowed_always; vm_compute; reflexivity| |]; [apply phs_token; [vm_compute; reflexivity|]; apply phs_nil|reflexivity].
Qed.
Lemma r_294 (a1 : Z) (ts : list Lexer.token) (next : string) (s : state) : ts = Lexer.Token "negativenumber" (PInteger a1) :: [] ->
  ph n_SignedNumber ts next s (sem KInt64 (a1)) (s).
Proof.
  intros; subst. eapply ph_rule with (j := 294%Z); [vm_compute; reflexivity|apply allowed_always; vm_compute; reflexivity| |]; [apply phs_token; [vm_compute; reflexivity|]; apply phs_nil|reflexivity].
Qed.
Lemma r_295 (t3 : list Lexer.token) (x3 : denote KEnumerated) (s3 : state) (ts : list Lexer.token) (next : string) (s : state) : ph n_Enumerations t3 "CLOSE_BRACE" s (sem KEnumerated x3) s3 -> ts = kw "ENUMERATED" :: kw "OPEN_BRACE" :: t3 ++ kw "CLOSE_BRACE" :: [] ->
  ph n_EnumeratedType ts next s (sem KEnumerated (x3)) (s3).
Proof.
  intros; subst. eapply ph_rule with (j := 295%Z); [vm_compute; reflexivity|apply allowed_always; vm_compute; reflexivity| |]; [apply phs_token; [vm_compute; reflexivity|]; apply phs_token; [vm_compute; reflexivity|]; eapply phs_cons; [eassumption|]; apply phs_token; [vm_compute; reflexivity|]; apply phs_nil|reflexivity].
Qed.
Lemma r_296 (t1 : list Lexer.token) (x1 : denote KEnumerated) (s1 : state) (ts : list Lexer.token) (next : string) (s : state) : ph n_Enumeration t1 next s (sem KEnumerated x1) s1 -> ts = t1 ->
  ph n_Enumerations ts next s (sem KEnumerated ((fst x1, false))) (s1).
Proof.
  intros; subst. eapply ph_rule with (j := 296%Z); [vm_compute; reflexivity|apply allowed_always; vm_compute; reflexivity| |]; [rewrite <- (app_nil_r t1); eapply phs_cons; [eassumption|]; apply phs_nil|reflexivity].
Qed.
Lemma r_297 (t1 : list Lexer.token) (x1 : denote KEnumerated) (t4 : list Lexer.token) (s1 : state) (s4 : state) (ts : list Lexer.token) (next : string) (s : state) : ph n_Enumeration t1 "COMMA" s (sem KEnumerated x1) s1 -> ph n_ExceptionSpec t4 next s1 (sem KNone tt) s4 -> ts = t1 ++ kw "COMMA" :: kw "ELIPSIS" :: t4 ->
  ph n_Enumerations ts next s (sem KEnumerated ((fst x1, true))) (s4).
Proof.
  intros; subst. eapply ph_rule with (j := 297%Z); [vm_compute; reflexivity|apply allowed_always; vm_compute; reflexivity| |]; [eapply phs_cons; [eassumption|]; apply phs_token; [vm_compute; reflexivity|]; apply phs_token; [vm_compute; reflexivity|]; rewrite <- (app_nil_r t4); eapply phs_cons; [eassumption|]; apply phs_nil|reflexivity].
Qed.
Lemma r_298 (t1 : list Lexer.token) (x1 : denote KEnumerated) (t4 : list Lexer.token) (t6 : list Lexer.token) (x6 : denote KEnumerated) (s1 : state) (s4 : state) (s6 : state) (ts : list Lexer.token) (next : string) (s : state) : ph n_Enumeration t1 "COMMA" s (sem KEnumerated x1) s1 -> ph n_ExceptionSpec t4 "COMMA" s1 (sem KNone tt) s4 -> ph n_Enumeration t6 next s4 (sem KEnumerated x6) s6 -> ts = t1 ++ kw "COMMA" :: kw "ELIPSIS" :: t4 ++ kw "COMMA" :: t6 ->
  ph n_Enumerations ts next s (sem KEnumerated ((fst x1 ++ fst x6, true))) (s6).
Proof.
  intros; subst. eapply ph_rule with (j := 298%Z); [vm_compute; reflexivity|apply allowed_always; vm_compute; reflexivity| |]; [eapply phs_cons; [eassumption|]; apply phs_token; [vm_compute; reflexivity|]; apply phs_token; [vm_compute; reflexivity|]; eapply phs_cons; [eassumption|]; apply phs_token; [vm_compute; reflexivity|]; rewrite <- (app_nil_r t6); eapply phs_cons; [eassumption|]; apply phs_nil|reflexivity].
Qed.
Lemma r_299 (t2 : list Lexer.token) (s2 : state) (ts : list Lexer.token) (next : string) (s : state) : ph n_ExceptionSpec t2 next s (sem KNone tt) s2 -> ts = kw "ELIPSIS" :: t2 ->
  ph n_Enumerations ts next s (sem KEnumerated (default_value (KEnumerated))) (s2).
Proof.
  intros; subst. eapply ph_rule with (j := 299%Z); [vm_compute; reflexivity|apply allowed_always; vm_compute; reflexivity| |]; [apply phs_token; [vm_compute; reflexivity|]; rewrite <- (app_nil_r t2); eapply phs_cons; [eassumption|]; apply phs_nil|reflexivity].
Qed.
Lemma r_300 (t1 : list Lexer.token) (x1 : denote KEnumValue) (s1 : state) (ts : list Lexer.token) (next : string) (s : state) : ph n_EnumerationItem t1 next s (sem KEnumValue x1) s1 -> ts = t1 ->
  ph n_Enumeration ts next s (sem KEnumerated (([x1], false))) (s1).
Proof.
  intros; subst. eapply ph_rule with (j := 300%Z); [vm_compute; reflexivity|apply allowed_always; vm_compute; reflexivity| |]; [rewrite <- (app_nil_r t1); eapply phs_cons; [eassumption|]; apply phs_nil|reflexivity].
Qed.
Lemma r_301 (t1 : list Lexer.token) (x1 : denote KEnumerated) (t3 : list Lexer.token) (x3 : denote KEnumValue) (s1 : state) (s3 : state) (ts : list Lexer.token) (next : string) (s : state) : ph n_Enumeration t1 "COMMA" s (sem KEnumerated x1) s1 -> ph n_EnumerationItem t3 next s1 (sem KEnumValue x3) s3 -> ts = t1 ++ kw "COMMA" :: t3 ->
  ph n_Enumeration ts next s (sem KEnumerated ((fst x1 ++ [x3], snd x1))) (s3).
Proof.
  intros; subst. eapply ph_rule with (j := 301%Z); [vm_compute; reflexivity|apply allowed_always; vm_compute; reflexivity| |]; [eapply phs_cons; [eassumption|]; apply phs_token; [vm_compute; reflexivity|]; rewrite <- (app_nil_r t3); eapply phs_cons; [eassumption|]; apply phs_nil|reflexivity].
Qed.
Lemma r_302 (t1 : list Lexer.token) (x1 : denote KString) (s1 : state) (ts : list Lexer.token) (next : string) (s : state) : ph n_identifier t1 next s (sem KString x1) s1 -> ts = t1 ->
  ph n_EnumerationItem ts next s (sem KEnumValue ((x1, None))) (s1).
Proof.
  intros; subst. eapply ph_rule with (j := 302%Z); [vm_compute; reflexivity|apply allowed_always; vm_compute; reflexivity| |]; [rewrite <- (app_nil_r t1); eapply phs_cons; [eassumption|]; apply phs_nil|reflexivity].
Qed.
Lemma r_303 (t1 : list Lexer.token) (x1 : denote KNamedNumber) (s1 : state) (ts : list Lexer.token) (next : string) (s : state) : ph n_NamedNumber t1 next s (sem KNamedNumber x1) s1 -> ts = t1 ->
  ph n_EnumerationItem ts next s (sem KEnumValue ((fst x1, Some (snd x1)))) (s1).
Proof.
  intros; subst. eapply ph_rule with (j := 303%Z); [vm_compute; reflexivity|apply allowed_always; vm_compute; reflexivity| |]; [rewrite <- (app_nil_r t1); eapply phs_cons; [eassumption|]; apply phs_nil|reflexivity].
Qed.
Lemma r_304  (ts : list Lexer.token) (next : string) (s : state) : ts = kw "REAL" :: [] ->
  ph n_RealType ts next s (sem (KEmpty Real) (tt)) (s).
Proof.
  intros; subst. eapply ph_rule with (j := 304%Z); [vm_compute; reflexivity|apply allowed_always; vm_compute; reflexivity| |]; [apply phs_token; [vm_compute; reflexivity|]; apply phs_nil|reflexivity].
Qed.
Lemma r_305  (ts : list Lexer.token) (next : string) (s : state) : ts = kw "BIT" :: kw "STRING" :: [] ->
  ph n_BitStringType ts next s (sem (KEmpty BitString) (tt)) (s).
Proof.
  intros; subst. eapply ph_rule with (j := 305%Z); [vm_compute; reflexivity|apply allowed_always; vm_compute; reflexivity| |]; [apply phs_token; [vm_compute; reflexivity|]; apply phs_token; [vm_compute; reflexivity|]; apply phs_nil|reflexivity].
Qed.
Lemma r_306 (t4 : list Lexer.token) (s4 : state) (ts : list Lexer.token) (next : string) (s : state) : ph n_NamedBitList t4 "CLOSE_BRACE" s (sem KNone tt) s4 -> ts = kw "BIT" :: kw "STRING" :: kw "OPEN_BRACE" :: t4 ++ kw "CLOSE_BRACE" :: [] ->
  ph n_BitStringType ts next s (sem (KEmpty BitString) (tt)) (s4).
Proof.
  intros; subst. eapply ph_rule with (j := 306%Z); [vm_compute; reflexivity|apply allowed_always; vm_compute; reflexivity| |]; [apply phs_token; [vm_compute; reflexivity|]; apply phs_token; [vm_compute; reflexivity|]; apply phs_token; [vm_compute; reflexivity|]; eapply phs_cons; [eassumption|]; apply phs_token; [vm_compute; reflexivity|]; apply phs_nil|reflexivity].
Qed.
Lemma r_307 (t1 : list Lexer.token) (s1 : state) (ts : list Lexer.token) (next : string) (s : state) : ph n_NamedBit t1 next s (sem KNone tt) s1 -> ts = t1 ->
  ph n_NamedBitList ts next s (sem KNone (tt)) (s1).
Proof.
  intros; subst. eapply ph_rule with (j := 307%Z); [vm_compute; reflexivity|apply allowed_always; vm_compute; reflexivity| |]; [rewrite <- (app_nil_r t1); eapply phs_cons; [eassumption|]; apply phs_nil|reflexivity].
Qed.
Lemma r_308 (t1 : list Lexer.token) (t3 : list Lexer.token) (s1 : state) (s3 : state) (ts : list Lexer.token) (next : string) (s : state) : ph n_NamedBitList t1 "COMMA" s (sem KNone tt) s1 -> ph n_NamedBit t3 next s1 (sem KNone tt) s3 -> ts = t1 ++ kw "COMMA" :: t3 ->
  ph n_NamedBitList ts next s (sem KNone (tt)) (s3).
Proof.
  intros; subst. eapply ph_rule with (j := 308%Z); [vm_compute; reflexivity|apply allowed_always; vm_compute; reflexivity| |]; [eapply phs_cons; [eassumption|]; apply phs_token; [vm_compute; reflexivity|]; rewrite <- (app_nil_r t3); eapply phs_cons; [eassumption|]; apply phs_nil|reflexivity].
Qed.
Lemma r_309 (t1 : list Lexer.token) (x1 : denote KString) (a3 : Z) (s1 : state) (ts : list Lexer.token) (next : string) (s : state) : ph n_identifier t1 "OPEN_PARENTHESIS" s (sem KString x1) s1 -> ts = t1 ++ kw "OPEN_PARENTHESIS" :: Lexer.Token "number" (PInteger a3) :: kw "CLOSE_PARENTHESIS" :: [] ->
  ph n_NamedBit ts next s (sem KNone (tt)) (s1).
Proof.
  intros; subst. eapply ph_rule with (j := 309%Z); [vm_compute; reflexivity|apply allowed_always; vm_compute; reflexivity| |]; [eapply phs_cons; [eassumption|]; apply phs_token; [vm_compute; reflexivity|]; apply phs_token; [vm_compute; reflexivity|]; apply phs_token; [vm_compute; reflexivity|]; apply phs_nil|reflexivity].
Qed.
Lemma r_310 (t1 : list Lexer.token) (x1 : denote KString) (t3 : list Lexer.token) (x3 : denote KDefinedValue) (s1 : state) (s3 : state) (ts : list Lexer.token) (next : string) (s : state) : ph n_identifier t1 "OPEN_PARENTHESIS" s (sem KString x1) s1 -> ph n_DefinedValue t3 "CLOSE_PARENTHESIS" s1 (sem KDefinedValue x3) s3 -> ts = t1 ++ kw "OPEN_PARENTHESIS" :: t3 ++ kw "CLOSE_PARENTHESIS" :: [] ->
  ph n_NamedBit ts next s (sem KNone (tt)) (s3).
Proof.
  intros; subst. eapply ph_rule with (j := 310%Z); [vm_compute; reflexivity|apply allowed_always; vm_compute; reflexivity| |]; [eapply phs_cons; [eassumption|]; apply phs_token; [vm_compute; reflexivity|]; eapply phs_cons; [eassumption|]; apply phs_token; [vm_compute; reflexivity|]; apply phs_nil|reflexivity].
Qed.
Lemma r_311  (ts : list Lexer.token) (next : string) (s : state) : ts = kw "OCTET" :: kw "STRING" :: [] ->
  ph n_OctetStringType ts next s (sem (KEmpty OctetString) (tt)) (s).
Proof.
  intros; subst. eapply ph_rule with (j := 311%Z); [vm_compute; reflexivity|apply allowed_always; vm_compute; reflexivity| |]; [apply phs_token; [vm_compute; reflexivity|]; apply phs_token; [vm_compute; reflexivity|]; apply phs_nil|reflexivity].
Qed.
Lemma r_312  (ts : list Lexer.token) (next : string) (s : state) : ts = kw "ASN_NULL" :: [] ->
  ph n_NullType ts next s (sem (KEmpty Null) (tt)) (s).
Proof.
  intros; subst. eapply ph_rule with (j := 312%Z); [vm_compute; reflexivity|apply allowed_always; vm_compute; reflexivity| |]; [apply phs_token; [vm_compute; reflexivity|]; apply phs_nil|reflexivity].
Qed.
Lemma r_313  (ts : list Lexer.token) (next : string) (s : state) : ts = kw "SEQUENCE" :: kw "OPEN_BRACE" :: kw "CLOSE_BRACE" :: [] ->
  ph n_SequenceType ts next s (sem KSequence (([], false))) (s).
Proof.
  intros; subst. eapply ph_rule with (j := 313%Z); [vm_compute; reflexivity|apply allowed_always; vm_compute; reflexivity| |]; [apply phs_token; [vm_compute; reflexivity|]; apply phs_token; [vm_compute; reflexivity|]; apply phs_token; [vm_compute; reflexivity|]; apply phs_nil|reflexivity].
Qed.
Lemma r_314 (t3 : list Lexer.token) (x3 : denote KCollection) (s3 : state) (ts : list Lexer.token) (next : string) (s : state) : ph n_ComponentTypeLists t3 "CLOSE_BRACE" s (sem KCollection x3) s3 -> ts = kw "SEQUENCE" :: kw "OPEN_BRACE" :: t3 ++ kw "CLOSE_BRACE" :: [] ->
  ph n_SequenceType ts next s (sem KSequence (x3)) (s3).
Proof.
  intros; subst. eapply ph_rule with (j := 314%Z); [vm_compute; reflexivity|apply allowed_always; vm_compute; reflexivity| |]; [apply phs_token; [vm_compute; reflexivity|]; apply phs_token; [vm_compute; reflexivity|]; eapply phs_cons; [eassumption|]; apply phs_token; [vm_compute; reflexivity|]; apply phs_nil|reflexivity].
Qed.
Lemma r_315 (t1 : list Lexer.token) (x1 : denote KComps) (s1 : state) (ts : list Lexer.token) (next : string) (s : state) : ph n_ComponentTypeList t1 next s (sem KComps x1) s1 -> ts = t1 ->
  ph n_ComponentTypeLists ts next s (sem KCollection ((x1, false))) (s1).
Proof.
  intros; subst. eapply ph_rule with (j := 315%Z); [vm_compute; reflexivity|apply allowed_always; vm_compute; reflexivity| |]; [rewrite <- (app_nil_r t1); eapply phs_cons; [eassumption|]; apply phs_nil|reflexivity].
Qed.
Lemma r_316 (t1 : list Lexer.token) (x1 : denote KComps) (t4 : list Lexer.token) (s1 : state) (s4 : state) (ts : list Lexer.token) (next : string) (s : state) : ph n_ComponentTypeList t1 "COMMA" s (sem KComps x1) s1 -> ph n_ExceptionSpec t4 next s1 (sem KNone tt) s4 -> ts = t1 ++ kw "COMMA" :: kw "ELIPSIS" :: t4 ->
  ph n_ComponentTypeLists ts next s (sem KCollection ((x1, true))) (s4).
Proof.
  intros; subst. eapply ph_rule with (j := 316%Z); [vm_compute; reflexivity|apply allowed_always; vm_compute; reflexivity| |]; [eapply phs_cons; [eassumption|]; apply phs_token; [vm_compute; reflexivity|]; apply phs_token; [vm_compute; reflexivity|]; rewrite <- (app_nil_r t4); eapply phs_cons; [eassumption|]; apply phs_nil|reflexivity].
Qed.
Lemma r_317 (t1 : list Lexer.token) (x1 : denote KComps) (t4 : list Lexer.token) (t6 : list Lexer.token) (x6 : denote KComps) (s1 : state) (s4 : state) (s6 : state) (ts : list Lexer.token) (next : string) (s : state) : ph n_ComponentTypeList t1 "COMMA" s (sem KComps x1) s1 -> ph n_ExceptionSpec t4 "COMMA" s1 (sem KNone tt) s4 -> ph n_ComponentTypeList t6 next s4 (sem KComps x6) s6 -> ts = t1 ++ kw "COMMA" :: kw "ELIPSIS" :: t4 ++ kw "COMMA" :: t6 ->
  ph n_ComponentTypeLists ts next s (sem KCollection ((x1 ++ x6, true))) (s6).
Proof.
  intros; subst. eapply ph_rule with (j := 317%Z); [vm_compute; reflexivity|apply allowed_always; vm_compute; reflexivity| |]; [eapply phs_cons; [eassumption|]; apply phs_token; [vm_compute; reflexivity|]; apply phs_token; [vm_compute; reflexivity|]; eapply phs_cons; [eassumption|]; apply phs_token; [vm_compute; reflexivity|]; rewrite <- (app_nil_r t6); eapply phs_cons; [eassumption|]; apply phs_nil|reflexivity].
Qed.
Lemma r_318 (t1 : list Lexer.token) (x1 : denote KComps) (t4 : list Lexer.token) (t6 : list Lexer.token) (x6 : denote KComps) (s1 : state) (s4 : state) (s6 : state) (ts : list Lexer.token) (next : string) (s : state) : ph n_ComponentTypeList t1 "COMMA" s (sem KComps x1) s1 -> ph n_ExceptionSpec t4 "COMMA" s1 (sem KNone tt) s4 -> ph n_ComponentTypeList t6 "COMMA" s4 (sem KComps x6) s6 -> ts = t1 ++ kw "COMMA" :: kw "ELIPSIS" :: t4 ++ kw "COMMA" :: t6 ++ kw "COMMA" :: kw "ELIPSIS" :: [] ->
  ph n_ComponentTypeLists ts next s (sem KCollection ((x1 ++ x6, true))) (s6).
Proof.
  intros; subst. eapply ph_rule with (j := 318%Z); [vm_compute; reflexivity|apply allowed_always; vm_compute; reflexivity| |]; [eapply phs_cons; [eassumption|]; apply phs_token; [vm_compute; reflexivity|]; apply phs_token; [vm_compute; reflexivity|]; eapply phs_cons; [eassumption|]; apply phs_token; [vm_compute; reflexivity|]; eapply phs_cons; [eassumption|]; apply phs_token; [vm_compute; reflexivity|]; apply phs_token; [vm_compute; reflexivity|]; apply phs_nil|reflexivity].
Qed.
Lemma r_319 (t1 : list Lexer.token) (x1 : denote KComps) (t4 : list Lexer.token) (t6 : list Lexer.token) (x6 : denote KComps) (t10 : list Lexer.token) (x10 : denote KComps) (s1 : state) (s4 : state) (s6 : state) (s10 : state) (ts : list Lexer.token) (next : string) (s : state) : ph n_ComponentTypeList t1 "COMMA" s (sem KComps x1) s1 -> ph n_ExceptionSpec t4 "COMMA" s1 (sem KNone tt) s4 -> ph n_ComponentTypeList t6 "COMMA" s4 (sem KComps x6) s6 -> ph n_ComponentTypeList t10 next s6 (sem KComps x10) s10 -> ts = t1 ++ kw "COMMA" :: kw "ELIPSIS" :: t4 ++ kw "COMMA" :: t6 ++ kw "COMMA" :: kw "ELIPSIS" :: kw "COMMA" :: t10 ->
  ph n_ComponentTypeLists ts next s (sem KCollection ((x1 ++ x6 ++ x10, true))) (s10).
Proof.
  intros; subst. eapply ph_rule with (j := 319%Z); [vm_compute; reflexivity|apply allowed_always; vm_compute; reflexivity| |]; [eapply phs_cons; [eassumption|]; apply phs_token; [vm_compute; reflexivity|]; apply phs_token; [vm_compute; reflexivity|]; eapply phs_cons; [eassumption|]; apply phs_token; [vm_compute; reflexivity|]; eapply phs_cons; [eassumption|]; apply phs_token; [vm_compute; reflexivity|]; apply phs_token; [vm_compute; reflexivity|]; apply phs_token; [vm_compute; reflexivity|]; rewrite <- (app_nil_r t10); eapply phs_cons; [eassumption|]; apply phs_nil|reflexivity].
Qed.
Lemma r_320 (t2 : list Lexer.token) (t4 : list Lexer.token) (x4 : denote KComps) (s2 : state) (s4 : state) (ts : list Lexer.token) (next : string) (s : state) : ph n_ExceptionSpec t2 "COMMA" s (sem KNone tt) s2 -> ph n_ComponentTypeList t4 next s2 (sem KComps x4) s4 -> ts = kw "ELIPSIS" :: t2 ++ kw "COMMA" :: t4 ->
  ph n_ComponentTypeLists ts next s (sem KCollection ((x4, true))) (s4).
Proof.
  intros; subst. eapply ph_rule with (j := 320%Z); [vm_compute; reflexivity|apply allowed_always; vm_compute; reflexivity| |]; [apply phs_token; [vm_compute; reflexivity|]; eapply phs_cons; [eassumption|]; apply phs_token; [vm_compute; reflexivity|]; rewrite <- (app_nil_r t4); eapply phs_cons; [eassumption|]; apply phs_nil|reflexivity].
Qed.
Lemma r_321 (t2 : list Lexer.token) (t4 : list Lexer.token) (x4 : denote KComps) (s2 : state) (s4 : state) (ts : list Lexer.token) (next : string) (s : state) : ph n_ExceptionSpec t2 "COMMA" s (sem KNone tt) s2 -> ph n_ComponentTypeList t4 "COMMA" s2 (sem KComps x4) s4 -> ts = kw "ELIPSIS" :: t2 ++ kw "COMMA" :: t4 ++ kw "COMMA" :: kw "ELIPSIS" :: [] ->
  ph n_ComponentTypeLists ts next s (sem KCollection ((x4, true))) (s4).
Proof.
  intros; subst. eapply ph_rule with (j := 321%Z); [vm_compute; reflexivity|apply allowed_always; vm_compute; reflexivity| |]; [apply phs_token; [vm_compute; reflexivity|]; eapply phs_cons; [eassumption|]; apply phs_token; [vm_compute; reflexivity|]; eapply phs_cons; [eassumption|]; apply phs_token; [vm_compute; reflexivity|]; apply phs_token; [vm_compute; reflexivity|]; apply phs_nil|reflexivity].
Qed.
Lemma r_322 (t2 : list Lexer.token) (s2 : state) (ts : list Lexer.token) (next : string) (s : state) : ph n_ExceptionSpec t2 next s (sem KNone tt) s2 -> ts = kw "ELIPSIS" :: t2 ->
  ph n_ComponentTypeLists ts next s (sem KCollection (([], true))) (s2).
Proof.
  intros; subst. eapply ph_rule with (j := 322%Z); [vm_compute; reflexivity|apply allowed_always; vm_compute; reflexivity| |]; [apply phs_token; [vm_compute; reflexivity|]; rewrite <- (app_nil_r t2); eapply phs_cons; [eassumption|]; apply phs_nil|reflexivity].
Qed.
Lemma r_323 (t2 : list Lexer.token) (s2 : state) (ts : list Lexer.token) (next : string) (s : state) : ph n_ExceptionSpec t2 "COMMA" s (sem KNone tt) s2 -> ts = kw "ELIPSIS" :: t2 ++ kw "COMMA" :: kw "ELIPSIS" :: [] ->
  ph n_ComponentTypeLists ts next s (sem KCollection (([], true))) (s2).
Proof.
  intros; subst. eapply ph_rule with (j := 323%Z); [vm_compute; reflexivity|apply allowed_always; vm_compute; reflexivity| |]; [apply phs_token; [vm_compute; reflexivity|]; eapply phs_cons; [eassumption|]; apply phs_token; [vm_compute; reflexivity|]; apply phs_token; [vm_compute; reflexivity|]; apply phs_nil|reflexivity].
Qed.
Lemma r_324 (t1 : list Lexer.token) (x1 : denote KComp) (s1 : state) (ts : list Lexer.token) (next : string) (s : state) : ph n_ComponentType t1 next s (sem KComp x1) s1 -> ts = t1 ->
  ph n_ComponentTypeList ts next s (sem KComps ([x1])) (s1).
Proof.
  intros; subst. eapply ph_rule with (j := 324%Z); [vm_compute; reflexivity|apply allowed_always; vm_compute; reflexivity| |]; [rewrite <- (app_nil_r t1); eapply phs_cons; [eassumption|]; apply phs_nil|reflexivity].
Qed.
Lemma r_325 (t1 : list Lexer.token) (x1 : denote KComps) (t3 : list Lexer.token) (x3 : denote KComp) (s1 : state) (s3 : state) (ts : list Lexer.token) (next : string) (s : state) : ph n_ComponentTypeList t1 "COMMA" s (sem KComps x1) s1 -> ph n_ComponentType t3 next s1 (sem KComp x3) s3 -> ts = t1 ++ kw "COMMA" :: t3 ->
  ph n_ComponentTypeList ts next s (sem KComps (x1 ++ [x3])) (s3).
Proof.
  intros; subst. eapply ph_rule with (j := 325%Z); [vm_compute; reflexivity|apply allowed_always; vm_compute; reflexivity| |]; [eapply phs_cons; [eassumption|]; apply phs_token; [vm_compute; reflexivity|]; rewrite <- (app_nil_r t3); eapply phs_cons; [eassumption|]; apply phs_nil|reflexivity].
Qed.
Lemma r_326 (t1 : list Lexer.token) (x1 : denote KType) (s1 : state) (ts : list Lexer.token) (next : string) (s : state) : ph n_Type t1 next s (sem KType x1) s1 -> ts = t1 ->
  ph n_ComponentType ts next s (sem KComp (Comp (anon_name (st_anon s1)) x1 false None None)) (State (st_modules s1) (st_anon s1 + 1)%Z).
Proof.
  intros; subst. eapply ph_rule with (j := 326%Z); [vm_compute; reflexivity|apply allowed_always; vm_compute; reflexivity| |]; [rewrite <- (app_nil_r t1); eapply phs_cons; [eassumption|]; apply phs_nil|reflexivity].
Qed.
Lemma r_327 (t1 : list Lexer.token) (x1 : denote KType) (s1 : state) (ts : list Lexer.token) (next : string) (s : state) : ph n_Type t1 "OPTIONAL" s (sem KType x1) s1 -> ts = t1 ++ kw "OPTIONAL" :: [] ->
  ph n_ComponentType ts next s (sem KComp (Comp (anon_name (st_anon s1)) x1 true None None)) (State (st_modules s1) (st_anon s1 + 1)%Z).
Proof.
  intros; subst. eapply ph_rule with (j := 327%Z); [vm_compute; reflexivity|apply allowed_always; vm_compute; reflexivity| |]; [eapply phs_cons; [eassumption|]; apply phs_token; [vm_compute; reflexivity|]; apply phs_nil|reflexivity].
Qed.
Lemma r_328 (t1 : list Lexer.token) (x1 : denote KType) (t3 : list Lexer.token) (x3 : denote KValue) (s1 : state) (s3 : state) (ts : list Lexer.token) (next : string) (s : state) : ph n_Type t1 "DEFAULT" s (sem KType x1) s1 -> ph n_SingleValue t3 next s1 (sem KValue x3) s3 -> ts = t1 ++ kw "DEFAULT" :: t3 ->
  ph n_ComponentType ts next s (sem KComp (Comp (anon_name (st_anon s3)) x1 false (Some x3) None)) (State (st_modules s3) (st_anon s3 + 1)%Z).
Proof.
  intros; subst. eapply ph_rule with (j := 328%Z); [vm_compute; reflexivity|apply allowed_always; vm_compute; reflexivity| |]; [eapply phs_cons; [eassumption|]; apply phs_token; [vm_compute; reflexivity|]; rewrite <- (app_nil_r t3); eapply phs_cons; [eassumption|]; apply phs_nil|reflexivity].
Qed.
Lemma r_329 (t1 : list Lexer.token) (x1 : denote KNamedType) (s1 : state) (ts : list Lexer.token) (next : string) (s : state) : ph n_NamedType t1 next s (sem KNamedType x1) s1 -> ts = t1 ->
  ph n_ComponentType ts next s (sem KComp (Comp (fst x1) (snd x1) false None None)) (s1).
Proof.
  intros; subst. eapply ph_rule with (j := 329%Z); [vm_compute; reflexivity|apply allowed_always; vm_compute; reflexivity| |]; [rewrite <- (app_nil_r t1); eapply phs_cons; [eassumption|]; apply phs_nil|reflexivity].
Qed.
Lemma r_330 (t1 : list Lexer.token) (x1 : denote KNamedType) (s1 : state) (ts : list Lexer.token) (next : string) (s : state) : ph n_NamedType t1 "OPTIONAL" s (sem KNamedType x1) s1 -> ts = t1 ++ kw "OPTIONAL" :: [] ->
  ph n_ComponentType ts next s (sem KComp (Comp (fst x1) (snd x1) true None None)) (s1).
Proof.
  intros; subst. eapply ph_rule with (j := 330%Z); [vm_compute; reflexivity|apply allowed_always; vm_compute; reflexivity| |]; [eapply phs_cons; [eassumption|]; apply phs_token; [vm_compute; reflexivity|]; apply phs_nil|reflexivity].
Qed.
Lemma r_331 (t1 : list Lexer.token) (x1 : denote KNamedType) (t3 : list Lexer.token) (x3 : denote KValue) (s1 : state) (s3 : state) (ts : list Lexer.token) (next : string) (s : state) : ph n_NamedType t1 "DEFAULT" s (sem KNamedType x1) s1 -> ph n_SingleValue t3 next s1 (sem KValue x3) s3 -> ts = t1 ++ kw "DEFAULT" :: t3 ->
  ph n_ComponentType ts next s (sem KComp (Comp (fst x1) (snd x1) false (Some x3) None)) (s3).
Proof.
  intros; subst. eapply ph_rule with (j := 331%Z); [vm_compute; reflexivity|apply allowed_always; vm_compute; reflexivity| |]; [eapply phs_cons; [eassumption|]; apply phs_token; [vm_compute; reflexivity|]; rewrite <- (app_nil_r t3); eapply phs_cons; [eassumption|]; apply phs_nil|reflexivity].
Qed.
Lemma r_332 (t3 : list Lexer.token) (x3 : denote KType) (s3 : state) (ts : list Lexer.token) (next : string) (s : state) : ph n_Type t3 next s (sem KType x3) s3 -> ts = kw "COMPONENTS" :: kw "OF" :: t3 ->
  ph n_ComponentType ts next s (sem KComp (Comp "" any_type false None (Some x3))) (s3).
Proof.
  intros; subst. eapply ph_rule with (j := 332%Z); [vm_compute; reflexivity|apply allowed_always; vm_compute; reflexivity| |]; [apply phs_token; [vm_compute; reflexivity|]; apply phs_token; [vm_compute; reflexivity|]; rewrite <- (app_nil_r t3); eapply phs_cons; [eassumption|]; apply phs_nil|reflexivity].
Qed.
Lemma r_333 (t3 : list Lexer.token) (x3 : denote KType) (s3 : state) (ts : list Lexer.token) (next : string) (s : state) : ph n_Type t3 next s (sem KType x3) s3 -> next <> "OPEN_PARENTHESIS" -> ts = kw "SEQUENCE" :: kw "OF" :: t3 ->
  ph n_SequenceOfType ts next s (sem KSequenceOf ((None, x3))) (s3).
Proof.
  intros; subst. eapply ph_rule with (j := 333%Z); [vm_compute; reflexivity|apply allowed_before with (names := ["OPEN_PARENTHESIS"]); [vm_compute; reflexivity|vm_compute; reflexivity|cbn; intuition congruence]| |]; [apply phs_token; [vm_compute; reflexivity|]; apply phs_token; [vm_compute; reflexivity|]; rewrite <- (app_nil_r t3); eapply phs_cons; [eassumption|]; apply phs_nil|reflexivity].
Qed.
Lemma r_334 (t3 : list Lexer.token) (x3 : denote KNamedType) (s3 : state) (ts : list Lexer.token) (next : string) (s : state) : ph n_NamedType t3 next s (sem KNamedType x3) s3 -> ts = kw "SEQUENCE" :: kw "OF" :: t3 ->
  ph n_SequenceOfType ts next s (sem KSequenceOf ((Some (fst x3), snd x3))) (s3).
Proof.
  intros; subst. eapply ph_rule with (j := 334%Z); [vm_compute; reflexivity|apply allowed_always; vm_compute; reflexivity| |]; [apply phs_token; [vm_compute; reflexivity|]; apply phs_token; [vm_compute; reflexivity|]; rewrite <- (app_nil_r t3); eapply phs_cons; [eassumption|]; apply phs_nil|reflexivity].
Qed.
Lemma r_335  (ts : list Lexer.token) (next : string) (s : state) : ts = kw "SET" :: kw "OPEN_BRACE" :: kw "CLOSE_BRACE" :: [] ->
  ph n_SetType ts next s (sem KSet (([], false))) (s).
Proof.
  intros; subst. eapply ph_rule with (j := 335%Z); [vm_compute; reflexivity|apply allowed_always; vm_compute; reflexivity| |]; [apply phs_token; [vm_compute; reflexivity|]; apply phs_token; [vm_compute; reflexivity|]; apply phs_token; [vm_compute; reflexivity|]; apply phs_nil|reflexivity].
Qed.
Lemma r_336 (t3 : list Lexer.token) (x3 : denote KCollection) (s3 : state) (ts : list Lexer.token) (next : string) (s : state) : ph n_ComponentTypeLists t3 "CLOSE_BRACE" s (sem KCollection x3) s3 -> ts = kw "SET" :: kw "OPEN_BRACE" :: t3 ++ kw "CLOSE_BRACE" :: [] ->
  ph n_SetType ts next s (sem KSet (x3)) (s3).
Proof.
  intros; subst. eapply ph_rule with (j := 336%Z); [vm_compute; reflexivity|apply allowed_always; vm_compute; reflexivity| |]; [apply phs_token; [vm_compute; reflexivity|]; apply phs_token; [vm_compute; reflexivity|]; eapply phs_cons; [eassumption|]; apply phs_token; [vm_compute; reflexivity|]; apply phs_nil|reflexivity].
Qed.
Lemma r_337 (t3 : list Lexer.token) (x3 : denote KType) (s3 : state) (ts : list Lexer.token) (next : string) (s : state) : ph n_Type t3 next s (sem KType x3) s3 -> next <> "OPEN_PARENTHESIS" -> ts = kw "SET" :: kw "OF" :: t3 ->
  ph n_SetOfType ts next s (sem KSetOf ((None, x3))) (s3).
Proof.
  intros; subst. eapply ph_rule with (j := 337%Z); [vm_compute; reflexivity|apply allowed_before with (names := ["OPEN_PARENTHESIS"]); [vm_compute; reflexivity|vm_compute; reflexivity|cbn; intuition congruence]| |]; [apply phs_token; [vm_compute; reflexivity|]; apply phs_token; [vm_compute; reflexivity|]; rewrite <- (app_nil_r t3); eapply phs_cons; [eassumption|]; apply phs_nil|reflexivity].
Qed.
Lemma r_338 (t3 : list Lexer.token) (x3 : denote KNamedType) (s3 : state) (ts : list Lexer.token) (next : string) (s : state) : ph n_NamedType t3 next s (sem KNamedType x3) s3 -> ts = kw "SET" :: kw "OF" :: t3 ->
  ph n_SetOfType ts next s (sem KSetOf ((Some (fst x3), snd x3))) (s3).
Proof.
  intros; subst. eapply ph_rule with (j := 338%Z); [vm_compute; reflexivity|apply allowed_always; vm_compute; reflexivity| |]; [apply phs_token; [vm_compute; reflexivity|]; apply phs_token; [vm_compute; reflexivity|]; rewrite <- (app_nil_r t3); eapply phs_cons; [eassumption|]; apply phs_nil|reflexivity].
Qed.
Lemma r_339 (t3 : list Lexer.token) (x3 : denote KNamedTypes) (s3 : state) (ts : list Lexer.token) (next : string) (s : state) : ph n_AlternativeTypeLists t3 "CLOSE_BRACE" s (sem KNamedTypes x3) s3 -> ts = kw "CHOICE" :: kw "OPEN_BRACE" :: t3 ++ kw "CLOSE_BRACE" :: [] ->
  ph n_ChoiceType ts next s (sem KChoice (x3)) (s3).
Proof.
  intros; subst. eapply ph_rule with (j := 339%Z); [vm_compute; reflexivity|apply allowed_always; vm_compute; reflexivity| |]; [apply phs_token; [vm_compute; reflexivity|]; apply phs_token; [vm_compute; reflexivity|]; eapply phs_cons; [eassumption|]; apply phs_token; [vm_compute; reflexivity|]; apply phs_nil|reflexivity].
Qed.
Lemma r_340 (t1 : list Lexer.token) (x1 : denote KNamedTypes) (s1 : state) (ts : list Lexer.token) (next : string) (s : state) : ph n_RootAlternativeTypeList t1 next s (sem KNamedTypes x1) s1 -> ts = t1 ->
  ph n_AlternativeTypeLists ts next s (sem KNamedTypes (x1)) (s1).
Proof.
  intros; subst. eapply ph_rule with (j := 340%Z); [vm_compute; reflexivity|apply allowed_always; vm_compute; reflexivity| |]; [rewrite <- (app_nil_r t1); eapply phs_cons; [eassumption|]; apply phs_nil|reflexivity].
Qed.
Lemma r_341 (t1 : list Lexer.token) (x1 : denote KNamedTypes) (s1 : state) (ts : list Lexer.token) (next : string) (s : state) : ph n_AlternativeTypeList t1 next s (sem KNamedTypes x1) s1 -> ts = t1 ->
  ph n_RootAlternativeTypeList ts next s (sem KNamedTypes (x1)) (s1).
Proof.
  intros; subst. eapply ph_rule with (j := 341%Z); [vm_compute; reflexivity|apply allowed_always; vm_compute; reflexivity| |]; [rewrite <- (app_nil_r t1); eapply phs_cons; [eassumption|]; apply phs_nil|reflexivity].
Qed.
Lemma r_342 (t1 : list Lexer.token) (x1 : denote KNamedTypes) (s1 : state) (ts : list Lexer.token) (next : string) (s : state) : ph n_AlternativeTypeList t1 "COMMA" s (sem KNamedTypes x1) s1 -> ts = t1 ++ kw "COMMA" :: kw "ELIPSIS" :: [] ->
  ph n_RootAlternativeTypeList ts next s (sem KNamedTypes (x1)) (s1).
Proof.
  intros; subst. eapply ph_rule with (j := 342%Z); [vm_compute; reflexivity|apply allowed_always; vm_compute; reflexivity| |]; [eapply phs_cons; [eassumption|]; apply phs_token; [vm_compute; reflexivity|]; apply phs_token; [vm_compute; reflexivity|]; apply phs_nil|reflexivity].
Qed.
Lemma r_343 (t1 : list Lexer.token) (x1 : denote KNamedTypes) (t5 : list Lexer.token) (x5 : denote KNamedTypes) (s1 : state) (s5 : state) (ts : list Lexer.token) (next : string) (s : state) : ph n_AlternativeTypeList t1 "COMMA" s (sem KNamedTypes x1) s1 -> ph n_AlternativeTypeList t5 next s1 (sem KNamedTypes x5) s5 -> ts = t1 ++ kw "COMMA" :: kw "ELIPSIS" :: kw "COMMA" :: t5 ->
  ph n_RootAlternativeTypeList ts next s (sem KNamedTypes (x5 ++ x1)) (s5).
Proof.
  intros; subst. eapply ph_rule with (j := 343%Z); [vm_compute; reflexivity|apply allowed_always; vm_compute; reflexivity| |]; [eapply phs_cons; [eassumption|]; apply phs_token; [vm_compute; reflexivity|]; apply phs_token; [vm_compute; reflexivity|]; apply phs_token; [vm_compute; reflexivity|]; rewrite <- (app_nil_r t5); eapply phs_cons; [eassumption|]; apply phs_nil|reflexivity].
Qed.
Lemma r_344 (t1 : list Lexer.token) (x1 : denote KNamedType) (s1 : state) (ts : list Lexer.token) (next : string) (s : state) : ph n_NamedType t1 next s (sem KNamedType x1) s1 -> ts = t1 ->
  ph n_AlternativeTypeList ts next s (sem KNamedTypes ([x1])) (s1).
Proof.
  intros; subst. eapply ph_rule with (j := 344%Z); [vm_compute; reflexivity|apply allowed_always; vm_compute; reflexivity| |]; [rewrite <- (app_nil_r t1); eapply phs_cons; [eassumption|]; apply phs_nil|reflexivity].
Qed.
Lemma r_345 (t1 : list Lexer.token) (x1 : denote KNamedTypes) (t3 : list Lexer.token) (x3 : denote KNamedType) (s1 : state) (s3 : state) (ts : list Lexer.token) (next : string) (s : state) : ph n_AlternativeTypeList t1 "COMMA" s (sem KNamedTypes x1) s1 -> ph n_NamedType t3 next s1 (sem KNamedType x3) s3 -> ts = t1 ++ kw "COMMA" :: t3 ->
  ph n_AlternativeTypeList ts next s (sem KNamedTypes (x1 ++ [x3])) (s3).
Proof.
  intros; subst. eapply ph_rule with (j := 345%Z); [vm_compute; reflexivity|apply allowed_always; vm_compute; reflexivity| |]; [eapply phs_cons; [eassumption|]; apply phs_token; [vm_compute; reflexivity|]; rewrite <- (app_nil_r t3); eapply phs_cons; [eassumption|]; apply phs_nil|reflexivity].
Qed.
Lemma r_346 (t1 : list Lexer.token) (x1 : denote KString) (t3 : list Lexer.token) (x3 : denote KType) (s1 : state) (s3 : state) (ts : list Lexer.token) (next : string) (s : state) : ph n_identifier t1 "LESS_THAN" s (sem KString x1) s1 -> ph n_Type t3 next s1 (sem KType x3) s3 -> next <> "OPEN_PARENTHESIS" -> ts = t1 ++ kw "LESS_THAN" :: t3 ->
  ph n_SelectionType ts next s (sem KNone (tt)) (s3).
Proof.
  intros; subst. eapply ph_rule with (j := 346%Z); [vm_compute; reflexivity|apply allowed_before with (names := ["OPEN_PARENTHESIS"]); [vm_compute; reflexivity|vm_compute; reflexivity|cbn; intuition congruence]| |]; [eapply phs_cons; [eassumption|]; apply phs_token; [vm_compute; reflexivity|]; rewrite <- (app_nil_r t3); eapply phs_cons; [eassumption|]; apply phs_nil|reflexivity].
Qed.
Lemma r_347 (t1 : list Lexer.token) (x1 : denote KTagged) (s1 : state) (ts : list Lexer.token) (next : string) (s : state) : ph n_TaggedType t1 next s (sem KTagged x1) s1 -> ts = t1 ->
  ph n_PrefixedType ts next s (sem KPrefixed (x1)) (s1).
Proof.
  intros; subst. eapply ph_rule with (j := 347%Z); [vm_compute; reflexivity|apply allowed_always; vm_compute; reflexivity| |]; [rewrite <- (app_nil_r t1); eapply phs_cons; [eassumption|]; apply phs_nil|reflexivity].
Qed.
Lemma r_348 (t1 : list Lexer.token) (x1 : denote KTag) (t2 : list Lexer.token) (x2 : denote KType) (s1 : state) (s2 : state) (ts : list Lexer.token) (next : string) (s : state) : ph n_Tag t1 (nxt (t2) next) s (sem KTag x1) s1 -> ph n_Type t2 next s1 (sem KType x2) s2 -> next <> "OPEN_PARENTHESIS" -> ts = t1 ++ t2 ->
  ph n_TaggedType ts next s (sem KTagged ((x1, Automatic, x2))) (s2).
Proof.
  intros; subst. eapply ph_rule with (j := 348%Z); [vm_compute; reflexivity|apply allowed_before with (names := ["OPEN_PARENTHESIS"]); [vm_compute; reflexivity|vm_compute; reflexivity|cbn; intuition congruence]| |]; [eapply phs_cons; [eassumption|]; rewrite <- (app_nil_r t2); eapply phs_cons; [eassumption|]; apply phs_nil|reflexivity].
Qed.
Lemma r_349 (t1 : list Lexer.token) (x1 : denote KTag) (t3 : list Lexer.token) (x3 : denote KType) (s1 : state) (s3 : state) (ts : list Lexer.token) (next : string) (s : state) : ph n_Tag t1 "IMPLICIT" s (sem KTag x1) s1 -> ph n_Type t3 next s1 (sem KType x3) s3 -> next <> "OPEN_PARENTHESIS" -> ts = t1 ++ kw "IMPLICIT" :: t3 ->
  ph n_TaggedType ts next s (sem KTagged ((x1, Implicit, x3))) (s3).
Proof.
  intros; subst. eapply ph_rule with (j := 349%Z); [vm_compute; reflexivity|apply allowed_before with (names := ["OPEN_PARENTHESIS"]); [vm_compute; reflexivity|vm_compute; reflexivity|cbn; intuition congruence]| |]; [eapply phs_cons; [eassumption|]; apply phs_token; [vm_compute; reflexivity|]; rewrite <- (app_nil_r t3); eapply phs_cons; [eassumption|]; apply phs_nil|reflexivity].
Qed.
Lemma r_350 (t1 : list Lexer.token) (x1 : denote KTag) (t3 : list Lexer.token) (x3 : denote KType) (s1 : state) (s3 : state) (ts : list Lexer.token) (next : string) (s : state) : ph n_Tag t1 "EXPLICIT" s (sem KTag x1) s1 -> ph n_Type t3 next s1 (sem KType x3) s3 -> next <> "OPEN_PARENTHESIS" -> ts = t1 ++ kw "EXPLICIT" :: t3 ->
  ph n_TaggedType ts next s (sem KTagged ((x1, Explicit, x3))) (s3).
Proof.
  intros; subst. eapply ph_rule with (j := 350%Z); [vm_compute; reflexivity|apply allowed_before with (names := ["OPEN_PARENTHESIS"]); [vm_compute; reflexivity|vm_compute; reflexivity|cbn; intuition congruence]| |]; [eapply phs_cons; [eassumption|]; apply phs_token; [vm_compute; reflexivity|]; rewrite <- (app_nil_r t3); eapply phs_cons; [eassumption|]; apply phs_nil|reflexivity].
Qed.
Lemma r_351 (t2 : list Lexer.token) (t3 : list Lexer.token) (x3 : denote KClass) (t4 : list Lexer.token) (x4 : denote KInt) (s2 : state) (s3 : state) (s4 : state) (ts : list Lexer.token) (next : string) (s : state) : ph n_EncodingReference t2 (nxt (t3 ++ t4 ++ kw "CLOSE_SQUARE_BRACKET" :: []) next) s (sem KNone tt) s2 -> ph n_Class t3 (nxt (t4 ++ kw "CLOSE_SQUARE_BRACKET" :: []) next) s2 (sem KClass x3) s3 -> ph n_ClassNumber t4 "CLOSE_SQUARE_BRACKET" s3 (sem KInt x4) s4 -> ts = kw "OPEN_SQUARE_BRACKET" :: t2 ++ t3 ++ t4 ++ kw "CLOSE_SQUARE_BRACKET" :: [] ->
  ph n_Tag ts next s (sem KTag ((x3, x4))) (s4).
Proof.
  intros; subst. eapply ph_rule with (j := 351%Z); [vm_compute; reflexivity|apply allowed_always; vm_compute; reflexivity| |]; [apply phs_token; [vm_compute; reflexivity|]; eapply phs_cons; [eassumption|]; eapply phs_cons; [eassumption|]; eapply phs_cons; [eassumption|]; apply phs_token; [vm_compute; reflexivity|]; apply phs_nil|reflexivity].
Qed.
Lemma r_352  (ts : list Lexer.token) (next : string) (s : state) : ts = kw "encodingreference" :: kw "COLON" :: [] ->
  ph n_EncodingReference ts next s (sem KNone (tt)) (s).
Proof.
  intros; subst. eapply ph_rule with (j := 352%Z); [vm_compute; reflexivity|apply allowed_always; vm_compute; reflexivity| |]; [apply phs_token; [vm_compute; reflexivity|]; apply phs_token; [vm_compute; reflexivity|]; apply phs_nil|reflexivity].
Qed.
Lemma r_353  (ts : list Lexer.token) (next : string) (s : state) : ts = [] ->
  ph n_EncodingReference ts next s (sem KNone (tt)) (s).
Proof.
  intros; subst. eapply ph_rule with (j := 353%Z); [vm_compute; reflexivity|apply allowed_always; vm_compute; reflexivity| |]; [apply phs_nil|reflexivity].
Qed.
Lemma r_354 (a1 : Z) (ts : list Lexer.token) (next : string) (s : state) : ts = Lexer.Token "number" (PInteger a1) :: [] ->
  ph n_ClassNumber ts next s (sem KInt (to_int a1)) (s).
Proof.
  intros; subst. eapply ph_rule with (j := 354%Z); [vm_compute; reflexivity|apply allowed_always; vm_compute; reflexivity| |]; [apply phs_token; [vm_compute; reflexivity|]; apply phs_nil|reflexivity].
Qed.
Lemma r_355 (t1 : list Lexer.token) (x1 : denote KDefinedValue) (s1 : state) (ts : list Lexer.token) (next : string) (s : state) : ph n_DefinedValue t1 next s (sem KDefinedValue x1) s1 -> ts = t1 ->
  ph n_ClassNumber ts next s (sem KInt (default_value (KInt))) (s1).
Proof.
  intros; subst. eapply ph_rule with (j := 355%Z); [vm_compute; reflexivity|apply allowed_always; vm_compute; reflexivity| |]; [rewrite <- (app_nil_r t1); eapply phs_cons; [eassumption|]; apply phs_nil|reflexivity].
Qed.
Lemma r_356  (ts : list Lexer.token) (next : string) (s : state) : ts = kw "UNIVERSAL" :: [] ->
  ph n_Class ts next s (sem KClass (universal)) (s).
Proof.
  intros; subst. eapply ph_rule with (j := 356%Z); [vm_compute; reflexivity|apply allowed_always; vm_compute; reflexivity| |]; [apply phs_token; [vm_compute; reflexivity|]; apply phs_nil|reflexivity].
Qed.
Lemma r_357  (ts : list Lexer.token) (next : string) (s : state) : ts = kw "APPLICATION" :: [] ->
  ph n_Class ts next s (sem KClass (application)) (s).
Proof.
  intros; subst. eapply ph_rule with (j := 357%Z); [vm_compute; reflexivity|apply allowed_always; vm_compute; reflexivity| |]; [apply phs_token; [vm_compute; reflexivity|]; apply phs_nil|reflexivity].
Qed.
Lemma r_358  (ts : list Lexer.token) (next : string) (s : state) : ts = kw "PRIVATE" :: [] ->
  ph n_Class ts next s (sem KClass (private_)) (s).
Proof.
  intros; subst. eapply ph_rule with (j := 358%Z); [vm_compute; reflexivity|apply allowed_always; vm_compute; reflexivity| |]; [apply phs_token; [vm_compute; reflexivity|]; apply phs_nil|reflexivity].
Qed.
Lemma r_359  (ts : list Lexer.token) (next : string) (s : state) : ts = [] ->
  ph n_Class ts next s (sem KClass (context_specific)) (s).
Proof.
  intros; subst. eapply ph_rule with (j := 359%Z); [vm_compute; reflexivity|apply allowed_always; vm_compute; reflexivity| |]; [apply phs_nil|reflexivity].
Qed.
Lemma r_360  (ts : list Lexer.token) (next : string) (s : state) : ts = kw "OBJECT" :: kw "IDENTIFIER" :: [] ->
  ph n_ObjectIdentifierType ts next s (sem (KEmpty ObjectIdentifier) (tt)) (s).
Proof.
  intros; subst. eapply ph_rule with (j := 360%Z); [vm_compute; reflexivity|apply allowed_always; vm_compute; reflexivity| |]; [apply phs_token; [vm_compute; reflexivity|]; apply phs_token; [vm_compute; reflexivity|]; apply phs_nil|reflexivity].
Qed.
Lemma r_361 (t2 : list Lexer.token) (x2 : denote KOidComps) (s2 : state) (ts : list Lexer.token) (next : string) (s : state) : ph n_ObjIdComponentsList t2 "CLOSE_BRACE" s (sem KOidComps x2) s2 -> ts = kw "OPEN_BRACE" :: t2 ++ kw "CLOSE_BRACE" :: [] ->
  ph n_ObjectIdentifierValue ts next s (sem KOidComps (rev x2)) (s2).
Proof.
  intros; subst. eapply ph_rule with (j := 361%Z); [vm_compute; reflexivity|apply allowed_always; vm_compute; reflexivity| |]; [apply phs_token; [vm_compute; reflexivity|]; eapply phs_cons; [eassumption|]; apply phs_token; [vm_compute; reflexivity|]; apply phs_nil|reflexivity].
Qed.
Lemma r_363 (t1 : list Lexer.token) (x1 : denote KOidComp) (s1 : state) (ts : list Lexer.token) (next : string) (s : state) : ph n_ObjIdComponents t1 next s (sem KOidComp x1) s1 -> ts = t1 ->
  ph n_ObjIdComponentsList ts next s (sem KOidComps ([x1])) (s1).
Proof.
  intros; subst. eapply ph_rule with (j := 363%Z); [vm_compute; reflexivity|apply allowed_always; vm_compute; reflexivity| |]; [rewrite <- (app_nil_r t1); eapply phs_cons; [eassumption|]; apply phs_nil|reflexivity].
Qed.
Lemma r_364 (t1 : list Lexer.token) (x1 : denote KOidComp) (t2 : list Lexer.token) (x2 : denote KOidComps) (s1 : state) (s2 : state) (ts : list Lexer.token) (next : string) (s : state) : ph n_ObjIdComponents t1 (nxt (t2) next) s (sem KOidComp x1) s1 -> ph n_ObjIdComponentsList t2 next s1 (sem KOidComps x2) s2 -> ts = t1 ++ t2 ->
  ph n_ObjIdComponentsList ts next s (sem KOidComps (x2 ++ [x1])) (s2).
Proof.
  intros; subst. eapply ph_rule with (j := 364%Z); [vm_compute; reflexivity|apply allowed_always; vm_compute; reflexivity| |]; [eapply phs_cons; [eassumption|]; rewrite <- (app_nil_r t2); eapply phs_cons; [eassumption|]; apply phs_nil|reflexivity].
Qed.
Lemma r_365 (t1 : list Lexer.token) (x1 : denote KOidComp) (s1 : state) (ts : list Lexer.token) (next : string) (s : state) : ph n_NameForm t1 next s (sem KOidComp x1) s1 -> ts = t1 ->
  ph n_ObjIdComponents ts next s (sem KOidComp (x1)) (s1).
Proof.
  intros; subst. eapply ph_rule with (j := 365%Z); [vm_compute; reflexivity|apply allowed_always; vm_compute; reflexivity| |]; [rewrite <- (app_nil_r t1); eapply phs_cons; [eassumption|]; apply phs_nil|reflexivity].
Qed.
Lemma r_366 (t1 : list Lexer.token) (x1 : denote KOidComp) (s1 : state) (ts : list Lexer.token) (next : string) (s : state) : ph n_NumberForm t1 next s (sem KOidComp x1) s1 -> ts = t1 ->
  ph n_ObjIdComponents ts next s (sem KOidComp (x1)) (s1).
Proof.
  intros; subst. eapply ph_rule with (j := 366%Z); [vm_compute; reflexivity|apply allowed_always; vm_compute; reflexivity| |]; [rewrite <- (app_nil_r t1); eapply phs_cons; [eassumption|]; apply phs_nil|reflexivity].
Qed.
Lemma r_367 (t1 : list Lexer.token) (x1 : denote KOidComp) (s1 : state) (ts : list Lexer.token) (next : string) (s : state) : ph n_NameAndNumberForm t1 next s (sem KOidComp x1) s1 -> ts = t1 ->
  ph n_ObjIdComponents ts next s (sem KOidComp (x1)) (s1).
Proof.
  intros; subst. eapply ph_rule with (j := 367%Z); [vm_compute; reflexivity|apply allowed_always; vm_compute; reflexivity| |]; [rewrite <- (app_nil_r t1); eapply phs_cons; [eassumption|]; apply phs_nil|reflexivity].
Qed.
Lemma r_368 (t1 : list Lexer.token) (x1 : denote KString) (s1 : state) (ts : list Lexer.token) (next : string) (s : state) : ph n_identifier t1 next s (sem KString x1) s1 -> ts = t1 ->
  ph n_NameForm ts next s (sem KOidComp ((Some x1, None))) (s1).
Proof.
  intros; subst. eapply ph_rule with (j := 368%Z); [vm_compute; reflexivity|apply allowed_always; vm_compute; reflexivity| |]; [rewrite <- (app_nil_r t1); eapply phs_cons; [eassumption|]; apply phs_nil|reflexivity].
Qed.
Lemma r_369 (a1 : Z) (ts : list Lexer.token) (next : string) (s : state) : ts = Lexer.Token "number" (PInteger a1) :: [] ->
  ph n_NumberForm ts next s (sem KOidComp ((None, Some a1))) (s).
Proof.
  intros; subst. eapply ph_rule with (j := 369%Z); [vm_compute; reflexivity|apply allowed_always; vm_compute; reflexivity| |]; [apply phs_token; [vm_compute; reflexivity|]; apply phs_nil|reflexivity].
Qed.
Lemma r_371 (t1 : list Lexer.token) (x1 : denote KString) (t3 : list Lexer.token) (x3 : denote KOidComp) (s1 : state) (s3 : state) (ts : list Lexer.token) (next : string) (s : state) : ph n_identifier t1 "OPEN_PARENTHESIS" s (sem KString x1) s1 -> ph n_NumberForm t3 "CLOSE_PARENTHESIS" s1 (sem KOidComp x3) s3 -> ts = t1 ++ kw "OPEN_PARENTHESIS" :: t3 ++ kw "CLOSE_PARENTHESIS" :: [] ->
  ph n_NameAndNumberForm ts next s (sem KOidComp ((Some x1, snd x3))) (s3).
Proof.
  intros; subst. eapply ph_rule with (j := 371%Z); [vm_compute; reflexivity|apply allowed_always; vm_compute; reflexivity| |]; [eapply phs_cons; [eassumption|]; apply phs_token; [vm_compute; reflexivity|]; eapply phs_cons; [eassumption|]; apply phs_token; [vm_compute; reflexivity|]; apply phs_nil|reflexivity].
Qed.
Lemma r_372  (ts : list Lexer.token) (next : string) (s : state) : ts = kw "RELATIVE_OID" :: [] ->
  ph n_RelativeOIDType ts next s (sem (KEmpty RelativeOID) (tt)) (s).
Proof.
  intros; subst. eapply ph_rule with (j := 372%Z); [vm_compute; reflexivity|apply allowed_always; vm_compute; reflexivity| |]; [apply phs_token; [vm_compute; reflexivity|]; apply phs_nil|reflexivity].
Qed.
Lemma r_373  (ts : list Lexer.token) (next : string) (s : state) : ts = kw "OID_IRI" :: [] ->
  ph n_IRIType ts next s (sem (KEmpty IRI) (tt)) (s).
Proof.
  intros; subst. eapply ph_rule with (j := 373%Z); [vm_compute; reflexivity|apply allowed_always; vm_compute; reflexivity| |]; [apply phs_token; [vm_compute; reflexivity|]; apply phs_nil|reflexivity].
Qed.
Lemma r_380  (ts : list Lexer.token) (next : string) (s : state) : ts = kw "RELATIVE_OID_IRI" :: [] ->
  ph n_RelativeIRIType ts next s (sem (KEmpty RelativeIRI) (tt)) (s).
Proof.
  intros; subst. eapply ph_rule with (j := 380%Z); [vm_compute; reflexivity|apply allowed_always; vm_compute; reflexivity| |]; [apply phs_token; [vm_compute; reflexivity|]; apply phs_nil|reflexivity].
Qed.
Lemma r_381  (ts : list Lexer.token) (next : string) (s : state) : ts = kw "EMBEDDED" :: kw "PDV" :: [] ->
  ph n_EmbeddedPDVType ts next s (sem (KEmpty EmbeddedPDV) (tt)) (s).
Proof.
  intros; subst. eapply ph_rule with (j := 381%Z); [vm_compute; reflexivity|apply allowed_always; vm_compute; reflexivity| |]; [apply phs_token; [vm_compute; reflexivity|]; apply phs_token; [vm_compute; reflexivity|]; apply phs_nil|reflexivity].
Qed.
Lemma r_382  (ts : list Lexer.token) (next : string) (s : state) : ts = kw "EXTERNAL" :: [] ->
  ph n_ExternalType ts next s (sem (KEmpty External) (tt)) (s).
Proof.
  intros; subst. eapply ph_rule with (j := 382%Z); [vm_compute; reflexivity|apply allowed_always; vm_compute; reflexivity| |]; [apply phs_token; [vm_compute; reflexivity|]; apply phs_nil|reflexivity].
Qed.
Lemma r_383  (ts : list Lexer.token) (next : string) (s : state) : ts = kw "TIME" :: [] ->
  ph n_TimeType ts next s (sem (KEmpty Time) (tt)) (s).
Proof.
  intros; subst. eapply ph_rule with (j := 383%Z); [vm_compute; reflexivity|apply allowed_always; vm_compute; reflexivity| |]; [apply phs_token; [vm_compute; reflexivity|]; apply phs_nil|reflexivity].
Qed.
Lemma r_384  (ts : list Lexer.token) (next : string) (s : state) : ts = kw "tstring" :: [] ->
  ph n_TimeValue ts next s (sem KTime (default_value (KTime))) (s).
Proof.
  intros; subst. eapply ph_rule with (j := 384%Z); [vm_compute; reflexivity|apply allowed_always; vm_compute; reflexivity| |]; [apply phs_token; [vm_compute; reflexivity|]; apply phs_nil|reflexivity].
Qed.
Lemma r_385  (ts : list Lexer.token) (next : string) (s : state) : ts = kw "DATE" :: [] ->
  ph n_DateType ts next s (sem (KEmpty Date) (tt)) (s).
Proof.
  intros; subst. eapply ph_rule with (j := 385%Z); [vm_compute; reflexivity|apply allowed_always; vm_compute; reflexivity| |]; [apply phs_token; [vm_compute; reflexivity|]; apply phs_nil|reflexivity].
Qed.
Lemma r_386  (ts : list Lexer.token) (next : string) (s : state) : ts = kw "TIME_OF_DAY" :: [] ->
  ph n_TimeOfDayType ts next s (sem (KEmpty TimeOfDay) (tt)) (s).
Proof.
  intros; subst. eapply ph_rule with (j := 386%Z); [vm_compute; reflexivity|apply allowed_always; vm_compute; reflexivity| |]; [apply phs_token; [vm_compute; reflexivity|]; apply phs_nil|reflexivity].
Qed.
Lemma r_387  (ts : list Lexer.token) (next : string) (s : state) : ts = kw "DATE_TIME" :: [] ->
  ph n_DateTimeType ts next s (sem (KEmpty DateTime) (tt)) (s).
Proof.
  intros; subst. eapply ph_rule with (j := 387%Z); [vm_compute; reflexivity|apply allowed_always; vm_compute; reflexivity| |]; [apply phs_token; [vm_compute; reflexivity|]; apply phs_nil|reflexivity].
Qed.
Lemma r_388  (ts : list Lexer.token) (next : string) (s : state) : ts = kw "DURATION" :: [] ->
  ph n_DurationType ts next s (sem (KEmpty Duration) (tt)) (s).
Proof.
  intros; subst. eapply ph_rule with (j := 388%Z); [vm_compute; reflexivity|apply allowed_always; vm_compute; reflexivity| |]; [apply phs_token; [vm_compute; reflexivity|]; apply phs_nil|reflexivity].
Qed.
Lemma r_389 (t1 : list Lexer.token) (x1 : denote KChar) (s1 : state) (ts : list Lexer.token) (next : string) (s : state) : ph n_RestrictedCharacterStringType t1 next s (sem KChar x1) s1 -> ts = t1 ->
  ph n_CharacterStringType ts next s (sem KChar (x1)) (s1).
Proof.
  intros; subst. eapply ph_rule with (j := 389%Z); [vm_compute; reflexivity|apply allowed_always; vm_compute; reflexivity| |]; [rewrite <- (app_nil_r t1); eapply phs_cons; [eassumption|]; apply phs_nil|reflexivity].
Qed.
Lemma r_390 (t1 : list Lexer.token) (x1 : denote KChar) (s1 : state) (ts : list Lexer.token) (next : string) (s : state) : ph n_UnrestrictedCharacterStringType t1 next s (sem KChar x1) s1 -> ts = t1 ->
  ph n_CharacterStringType ts next s (sem KChar (x1)) (s1).
Proof.
  intros; subst. eapply ph_rule with (j := 390%Z); [vm_compute; reflexivity|apply allowed_always; vm_compute; reflexivity| |]; [rewrite <- (app_nil_r t1); eapply phs_cons; [eassumption|]; apply phs_nil|reflexivity].
Qed.
Lemma r_391  (ts : list Lexer.token) (next : string) (s : state) : ts = kw "BMPString" :: [] ->
  ph n_RestrictedCharacterStringType ts next s (sem KChar (bmp_string)) (s).
Proof.
  intros; subst. eapply ph_rule with (j := 391%Z); [vm_compute; reflexivity|apply allowed_always; vm_compute; reflexivity| |]; [apply phs_token; [vm_compute; reflexivity|]; apply phs_nil|reflexivity].
Qed.
Lemma r_392  (ts : list Lexer.token) (next : string) (s : state) : ts = kw "GeneralString" :: [] ->
  ph n_RestrictedCharacterStringType ts next s (sem KChar (general_string)) (s).
Proof.
  intros; subst. eapply ph_rule with (j := 392%Z); [vm_compute; reflexivity|apply allowed_always; vm_compute; reflexivity| |]; [apply phs_token; [vm_compute; reflexivity|]; apply phs_nil|reflexivity].
Qed.
Lemma r_393  (ts : list Lexer.token) (next : string) (s : state) : ts = kw "GraphicString" :: [] ->
  ph n_RestrictedCharacterStringType ts next s (sem KChar (graphic_string)) (s).
Proof.
  intros; subst. eapply ph_rule with (j := 393%Z); [vm_compute; reflexivity|apply allowed_always; vm_compute; reflexivity| |]; [apply phs_token; [vm_compute; reflexivity|]; apply phs_nil|reflexivity].
Qed.
Lemma r_394  (ts : list Lexer.token) (next : string) (s : state) : ts = kw "IA5String" :: [] ->
  ph n_RestrictedCharacterStringType ts next s (sem KChar (ia5_string)) (s).
Proof.
  intros; subst. eapply ph_rule with (j := 394%Z); [vm_compute; reflexivity|apply allowed_always; vm_compute; reflexivity| |]; [apply phs_token; [vm_compute; reflexivity|]; apply phs_nil|reflexivity].
Qed.
Lemma r_395  (ts : list Lexer.token) (next : string) (s : state) : ts = kw "ISO646String" :: [] ->
  ph n_RestrictedCharacterStringType ts next s (sem KChar (iso646_string)) (s).
Proof.
  intros; subst. eapply ph_rule with (j := 395%Z); [vm_compute; reflexivity|apply allowed_always; vm_compute; reflexivity| |]; [apply phs_token; [vm_compute; reflexivity|]; apply phs_nil|reflexivity].
Qed.
Lemma r_396  (ts : list Lexer.token) (next : string) (s : state) : ts = kw "NumericString" :: [] ->
  ph n_RestrictedCharacterStringType ts next s (sem KChar (numeric_string)) (s).
Proof.
  intros; subst. eapply ph_rule with (j := 396%Z); [vm_compute; reflexivity|apply allowed_always; vm_compute; reflexivity| |]; [apply phs_token; [vm_compute; reflexivity|]; apply phs_nil|reflexivity].
Qed.
Lemma r_397  (ts : list Lexer.token) (next : string) (s : state) : ts = kw "PrintableString" :: [] ->
  ph n_RestrictedCharacterStringType ts next s (sem KChar (printable_string)) (s).
Proof.
  intros; subst. eapply ph_rule with (j := 397%Z); [vm_compute; reflexivity|apply allowed_always; vm_compute; reflexivity| |]; [apply phs_token; [vm_compute; reflexivity|]; apply phs_nil|reflexivity].
Qed.
Lemma r_398  (ts : list Lexer.token) (next : string) (s : state) : ts = kw "TeletexString" :: [] ->
  ph n_RestrictedCharacterStringType ts next s (sem KChar (teletex_string)) (s).
Proof.
  intros; subst. eapply ph_rule with (j := 398%Z); [vm_compute; reflexivity|apply allowed_always; vm_compute; reflexivity| |]; [apply phs_token; [vm_compute; reflexivity|]; apply phs_nil|reflexivity].
Qed.
Lemma r_399  (ts : list Lexer.token) (next : string) (s : state) : ts = kw "T61String" :: [] ->
  ph n_RestrictedCharacterStringType ts next s (sem KChar (t61_string)) (s).
Proof.
  intros; subst. eapply ph_rule with (j := 399%Z); [vm_compute; reflexivity|apply allowed_always; vm_compute; reflexivity| |]; [apply phs_token; [vm_compute; reflexivity|]; apply phs_nil|reflexivity].
Qed.
Lemma r_400  (ts : list Lexer.token) (next : string) (s : state) : ts = kw "UniversalString" :: [] ->
  ph n_RestrictedCharacterStringType ts next s (sem KChar (universal_string)) (s).
Proof.
  intros; subst. eapply ph_rule with (j := 400%Z); [vm_compute; reflexivity|apply allowed_always; vm_compute; reflexivity| |]; [apply phs_token; [vm_compute; reflexivity|]; apply phs_nil|reflexivity].
Qed.
Lemma r_401  (ts : list Lexer.token) (next : string) (s : state) : ts = kw "UTF8String" :: [] ->
  ph n_RestrictedCharacterStringType ts next s (sem KChar (utf8_string)) (s).
Proof.
  intros; subst. eapply ph_rule with (j := 401%Z); [vm_compute; reflexivity|apply allowed_always; vm_compute; reflexivity| |]; [apply phs_token; [vm_compute; reflexivity|]; apply phs_nil|reflexivity].
Qed.
Lemma r_402  (ts : list Lexer.token) (next : string) (s : state) : ts = kw "VideotexString" :: [] ->
  ph n_RestrictedCharacterStringType ts next s (sem KChar (videotex_string)) (s).
Proof.
  intros; subst. eapply ph_rule with (j := 402%Z); [vm_compute; reflexivity|apply allowed_always; vm_compute; reflexivity| |]; [apply phs_token; [vm_compute; reflexivity|]; apply phs_nil|reflexivity].
Qed.
Lemma r_403  (ts : list Lexer.token) (next : string) (s : state) : ts = kw "VisibleString" :: [] ->
  ph n_RestrictedCharacterStringType ts next s (sem KChar (visible_string)) (s).
Proof.
  intros; subst. eapply ph_rule with (j := 403%Z); [vm_compute; reflexivity|apply allowed_always; vm_compute; reflexivity| |]; [apply phs_token; [vm_compute; reflexivity|]; apply phs_nil|reflexivity].
Qed.
Lemma r_404  (ts : list Lexer.token) (next : string) (s : state) : ts = kw "CHARACTER" :: kw "STRING" :: [] ->
  ph n_UnrestrictedCharacterStringType ts next s (sem KChar (character_string)) (s).
Proof.
  intros; subst. eapply ph_rule with (j := 404%Z); [vm_compute; reflexivity|apply allowed_always; vm_compute; reflexivity| |]; [apply phs_token; [vm_compute; reflexivity|]; apply phs_token; [vm_compute; reflexivity|]; apply phs_nil|reflexivity].
Qed.
Lemma r_405 (t1 : list Lexer.token) (x1 : denote KType) (t2 : list Lexer.token) (s1 : state) (s2 : state) (ts : list Lexer.token) (next : string) (s : state) : ph n_Type t1 (nxt (t2) next) s (sem KType x1) s1 -> ph n_Constraint t2 next s1 (sem KNone tt) s2 -> ts = t1 ++ t2 ->
  ph n_ConstrainedType ts next s (sem KType (x1)) (s2).
Proof.
  intros; subst. eapply ph_rule with (j := 405%Z); [vm_compute; reflexivity|apply allowed_always; vm_compute; reflexivity| |]; [eapply phs_cons; [eassumption|]; rewrite <- (app_nil_r t2); eapply phs_cons; [eassumption|]; apply phs_nil|reflexivity].
Qed.
Lemma r_406 (t1 : list Lexer.token) (x1 : denote KType) (s1 : state) (ts : list Lexer.token) (next : string) (s : state) : ph n_TypeWithConstraint t1 next s (sem KType x1) s1 -> ts = t1 ->
  ph n_ConstrainedType ts next s (sem KType (x1)) (s1).
Proof.
  intros; subst. eapply ph_rule with (j := 406%Z); [vm_compute; reflexivity|apply allowed_always; vm_compute; reflexivity| |]; [rewrite <- (app_nil_r t1); eapply phs_cons; [eassumption|]; apply phs_nil|reflexivity].
Qed.
Lemma r_407 (t2 : list Lexer.token) (t4 : list Lexer.token) (x4 : denote KType) (s2 : state) (s4 : state) (ts : list Lexer.token) (next : string) (s : state) : ph n_Constraint t2 "OF" s (sem KNone tt) s2 -> ph n_Type t4 next s2 (sem KType x4) s4 -> next <> "OPEN_PARENTHESIS" -> ts = kw "SET" :: t2 ++ kw "OF" :: t4 ->
  ph n_TypeWithConstraint ts next s (sem KType (TListOf true None x4)) (s4).
Proof.
  intros; subst. eapply ph_rule with (j := 407%Z); [vm_compute; reflexivity|apply allowed_before with (names := ["OPEN_PARENTHESIS"]); [vm_compute; reflexivity|vm_compute; reflexivity|cbn; intuition congruence]| |]; [apply phs_token; [vm_compute; reflexivity|]; eapply phs_cons; [eassumption|]; apply phs_token; [vm_compute; reflexivity|]; rewrite <- (app_nil_r t4); eapply phs_cons; [eassumption|]; apply phs_nil|reflexivity].
Qed.
Lemma r_408 (t2 : list Lexer.token) (t4 : list Lexer.token) (x4 : denote KType) (s2 : state) (s4 : state) (ts : list Lexer.token) (next : string) (s : state) : ph n_SizeConstraint t2 "OF" s (sem KNone tt) s2 -> ph n_Type t4 next s2 (sem KType x4) s4 -> next <> "OPEN_PARENTHESIS" -> ts = kw "SET" :: t2 ++ kw "OF" :: t4 ->
  ph n_TypeWithConstraint ts next s (sem KType (TListOf true None x4)) (s4).
Proof.
  intros; subst. eapply ph_rule with (j := 408%Z); [vm_compute; reflexivity|apply allowed_before with (names := ["OPEN_PARENTHESIS"]); [vm_compute; reflexivity|vm_compute; reflexivity|cbn; intuition congruence]| |]; [apply phs_token; [vm_compute; reflexivity|]; eapply phs_cons; [eassumption|]; apply phs_token; [vm_compute; reflexivity|]; rewrite <- (app_nil_r t4); eapply phs_cons; [eassumption|]; apply phs_nil|reflexivity].
Qed.
Lemma r_409 (t2 : list Lexer.token) (t4 : list Lexer.token) (x4 : denote KType) (s2 : state) (s4 : state) (ts : list Lexer.token) (next : string) (s : state) : ph n_Constraint t2 "OF" s (sem KNone tt) s2 -> ph n_Type t4 next s2 (sem KType x4) s4 -> next <> "OPEN_PARENTHESIS" -> ts = kw "SEQUENCE" :: t2 ++ kw "OF" :: t4 ->
  ph n_TypeWithConstraint ts next s (sem KType (TListOf false None x4)) (s4).
Proof.
  intros; subst. eapply ph_rule with (j := 409%Z); [vm_compute; reflexivity|apply allowed_before with (names := ["OPEN_PARENTHESIS"]); [vm_compute; reflexivity|vm_compute; reflexivity|cbn; intuition congruence]| |]; [apply phs_token; [vm_compute; reflexivity|]; eapply phs_cons; [eassumption|]; apply phs_token; [vm_compute; reflexivity|]; rewrite <- (app_nil_r t4); eapply phs_cons; [eassumption|]; apply phs_nil|reflexivity].
Qed.
Lemma r_410 (t2 : list Lexer.token) (t4 : list Lexer.token) (x4 : denote KType) (s2 : state) (s4 : state) (ts : list Lexer.token) (next : string) (s : state) : ph n_SizeConstraint t2 "OF" s (sem KNone tt) s2 -> ph n_Type t4 next s2 (sem KType x4) s4 -> next <> "OPEN_PARENTHESIS" -> ts = kw "SEQUENCE" :: t2 ++ kw "OF" :: t4 ->
  ph n_TypeWithConstraint ts next s (sem KType (TListOf false None x4)) (s4).
Proof.
  intros; subst. eapply ph_rule with (j := 410%Z); [vm_compute; reflexivity|apply allowed_before with (names := ["OPEN_PARENTHESIS"]); [vm_compute; reflexivity|vm_compute; reflexivity|cbn; intuition congruence]| |]; [apply phs_token; [vm_compute; reflexivity|]; eapply phs_cons; [eassumption|]; apply phs_token; [vm_compute; reflexivity|]; rewrite <- (app_nil_r t4); eapply phs_cons; [eassumption|]; apply phs_nil|reflexivity].
Qed.
Lemma r_411 (t2 : list Lexer.token) (t4 : list Lexer.token) (x4 : denote KNamedType) (s2 : state) (s4 : state) (ts : list Lexer.token) (next : string) (s : state) : ph n_Constraint t2 "OF" s (sem KNone tt) s2 -> ph n_NamedType t4 next s2 (sem KNamedType x4) s4 -> ts = kw "SET" :: t2 ++ kw "OF" :: t4 ->
  ph n_TypeWithConstraint ts next s (sem KType (TListOf true (Some (fst x4)) (snd x4))) (s4).
Proof.
  intros; subst. eapply ph_rule with (j := 411%Z); [vm_compute; reflexivity|apply allowed_always; vm_compute; reflexivity| |]; [apply phs_token; [vm_compute; reflexivity|]; eapply phs_cons; [eassumption|]; apply phs_token; [vm_compute; reflexivity|]; rewrite <- (app_nil_r t4); eapply phs_cons; [eassumption|]; apply phs_nil|reflexivity].
Qed.
Lemma r_412 (t2 : list Lexer.token) (t4 : list Lexer.token) (x4 : denote KNamedType) (s2 : state) (s4 : state) (ts : list Lexer.token) (next : string) (s : state) : ph n_SizeConstraint t2 "OF" s (sem KNone tt) s2 -> ph n_NamedType t4 next s2 (sem KNamedType x4) s4 -> ts = kw "SET" :: t2 ++ kw "OF" :: t4 ->
  ph n_TypeWithConstraint ts next s (sem KType (TListOf true (Some (fst x4)) (snd x4))) (s4).
Proof.
  intros; subst. eapply ph_rule with (j := 412%Z); [vm_compute; reflexivity|apply allowed_always; vm_compute; reflexivity| |]; [apply phs_token; [vm_compute; reflexivity|]; eapply phs_cons; [eassumption|]; apply phs_token; [vm_compute; reflexivity|]; rewrite <- (app_nil_r t4); eapply phs_cons; [eassumption|]; apply phs_nil|reflexivity].
Qed.
Lemma r_413 (t2 : list Lexer.token) (t4 : list Lexer.token) (x4 : denote KNamedType) (s2 : state) (s4 : state) (ts : list Lexer.token) (next : string) (s : state) : ph n_Constraint t2 "OF" s (sem KNone tt) s2 -> ph n_NamedType t4 next s2 (sem KNamedType x4) s4 -> ts = kw "SEQUENCE" :: t2 ++ kw "OF" :: t4 ->
  ph n_TypeWithConstraint ts next s (sem KType (TListOf false (Some (fst x4)) (snd x4))) (s4).
Proof.
  intros; subst. eapply ph_rule with (j := 413%Z); [vm_compute; reflexivity|apply allowed_always; vm_compute; reflexivity| |]; [apply phs_token; [vm_compute; reflexivity|]; eapply phs_cons; [eassumption|]; apply phs_token; [vm_compute; reflexivity|]; rewrite <- (app_nil_r t4); eapply phs_cons; [eassumption|]; apply phs_nil|reflexivity].
Qed.
Lemma r_414 (t2 : list Lexer.token) (t4 : list Lexer.token) (x4 : denote KNamedType) (s2 : state) (s4 : state) (ts : list Lexer.token) (next : string) (s : state) : ph n_SizeConstraint t2 "OF" s (sem KNone tt) s2 -> ph n_NamedType t4 next s2 (sem KNamedType x4) s4 -> ts = kw "SEQUENCE" :: t2 ++ kw "OF" :: t4 ->
  ph n_TypeWithConstraint ts next s (sem KType (TListOf false (Some (fst x4)) (snd x4))) (s4).
Proof.
  intros; subst. eapply ph_rule with (j := 414%Z); [vm_compute; reflexivity|apply allowed_always; vm_compute; reflexivity| |]; [apply phs_token; [vm_compute; reflexivity|]; eapply phs_cons; [eassumption|]; apply phs_token; [vm_compute; reflexivity|]; rewrite <- (app_nil_r t4); eapply phs_cons; [eassumption|]; apply phs_nil|reflexivity].
Qed.
Lemma r_415 (t2 : list Lexer.token) (t3 : list Lexer.token) (s2 : state) (s3 : state) (ts : list Lexer.token) (next : string) (s : state) : ph n_ConstraintSpec t2 (nxt (t3 ++ kw "CLOSE_PARENTHESIS" :: []) next) s (sem KNone tt) s2 -> ph n_ExceptionSpec t3 "CLOSE_PARENTHESIS" s2 (sem KNone tt) s3 -> ts = kw "OPEN_PARENTHESIS" :: t2 ++ t3 ++ kw "CLOSE_PARENTHESIS" :: [] ->
  ph n_Constraint ts next s (sem KNone (tt)) (s3).
Proof.
  intros; subst. eapply ph_rule with (j := 415%Z); [vm_compute; reflexivity|apply allowed_always; vm_compute; reflexivity| |]; [apply phs_token; [vm_compute; reflexivity|]; eapply phs_cons; [eassumption|]; eapply phs_cons; [eassumption|]; apply phs_token; [vm_compute; reflexivity|]; apply phs_nil|reflexivity].
Qed.
Lemma r_416 (t1 : list Lexer.token) (s1 : state) (ts : list Lexer.token) (next : string) (s : state) : ph n_SubtypeConstraint t1 next s (sem KNone tt) s1 -> ts = t1 ->
  ph n_ConstraintSpec ts next s (sem KNone (tt)) (s1).
Proof.
  intros; subst. eapply ph_rule with (j := 416%Z); [vm_compute; reflexivity|apply allowed_always; vm_compute; reflexivity| |]; [rewrite <- (app_nil_r t1); eapply phs_cons; [eassumption|]; apply phs_nil|reflexivity].
Qed.
Lemma r_417 (t1 : list Lexer.token) (s1 : state) (ts : list Lexer.token) (next : string) (s : state) : ph n_GeneralConstraint t1 next s (sem KNone tt) s1 -> ts = t1 ->
  ph n_ConstraintSpec ts next s (sem KNone (tt)) (s1).
Proof.
  intros; subst. eapply ph_rule with (j := 417%Z); [vm_compute; reflexivity|apply allowed_always; vm_compute; reflexivity| |]; [rewrite <- (app_nil_r t1); eapply phs_cons; [eassumption|]; apply phs_nil|reflexivity].
Qed.
Lemma r_418 (t1 : list Lexer.token) (s1 : state) (ts : list Lexer.token) (next : string) (s : state) : ph n_ElementSetSpecs t1 next s (sem KNone tt) s1 -> ts = t1 ->
  ph n_SubtypeConstraint ts next s (sem KNone (tt)) (s1).
Proof.
  intros; subst. eapply ph_rule with (j := 418%Z); [vm_compute; reflexivity|apply allowed_always; vm_compute; reflexivity| |]; [rewrite <- (app_nil_r t1); eapply phs_cons; [eassumption|]; apply phs_nil|reflexivity].
Qed.
Lemma r_419 (t1 : list Lexer.token) (s1 : state) (ts : list Lexer.token) (next : string) (s : state) : ph n_ElementSetSpec t1 next s (sem KNone tt) s1 -> ts = t1 ->
  ph n_ElementSetSpecs ts next s (sem KNone (tt)) (s1).
Proof.
  intros; subst. eapply ph_rule with (j := 419%Z); [vm_compute; reflexivity|apply allowed_always; vm_compute; reflexivity| |]; [rewrite <- (app_nil_r t1); eapply phs_cons; [eassumption|]; apply phs_nil|reflexivity].
Qed.
Lemma r_420 (t1 : list Lexer.token) (s1 : state) (ts : list Lexer.token) (next : string) (s : state) : ph n_ElementSetSpec t1 "COMMA" s (sem KNone tt) s1 -> ts = t1 ++ kw "COMMA" :: kw "ELIPSIS" :: [] ->
  ph n_ElementSetSpecs ts next s (sem KNone (tt)) (s1).
Proof.
  intros; subst. eapply ph_rule with (j := 420%Z); [vm_compute; reflexivity|apply allowed_always; vm_compute; reflexivity| |]; [eapply phs_cons; [eassumption|]; apply phs_token; [vm_compute; reflexivity|]; apply phs_token; [vm_compute; reflexivity|]; apply phs_nil|reflexivity].
Qed.
Lemma r_421 (t1 : list Lexer.token) (t5 : list Lexer.token) (s1 : state) (s5 : state) (ts : list Lexer.token) (next : string) (s : state) : ph n_ElementSetSpec t1 "COMMA" s (sem KNone tt) s1 -> ph n_ElementSetSpec t5 next s1 (sem KNone tt) s5 -> ts = t1 ++ kw "COMMA" :: kw "ELIPSIS" :: kw "COMMA" :: t5 ->
  ph n_ElementSetSpecs ts next s (sem KNone (tt)) (s5).
Proof.
  intros; subst. eapply ph_rule with (j := 421%Z); [vm_compute; reflexivity|apply allowed_always; vm_compute; reflexivity| |]; [eapply phs_cons; [eassumption|]; apply phs_token; [vm_compute; reflexivity|]; apply phs_token; [vm_compute; reflexivity|]; apply phs_token; [vm_compute; reflexivity|]; rewrite <- (app_nil_r t5); eapply phs_cons; [eassumption|]; apply phs_nil|reflexivity].
Qed.
Lemma r_422 (t1 : list Lexer.token) (s1 : state) (ts : list Lexer.token) (next : string) (s : state) : ph n_Unions t1 next s (sem KNone tt) s1 -> ts = t1 ->
  ph n_ElementSetSpec ts next s (sem KNone (tt)) (s1).
Proof.
  intros; subst. eapply ph_rule with (j := 422%Z); [vm_compute; reflexivity|apply allowed_always; vm_compute; reflexivity| |]; [rewrite <- (app_nil_r t1); eapply phs_cons; [eassumption|]; apply phs_nil|reflexivity].
Qed.
Lemma r_423 (t2 : list Lexer.token) (s2 : state) (ts : list Lexer.token) (next : string) (s : state) : ph n_Exclusions t2 next s (sem KNone tt) s2 -> ts = kw "ALL" :: t2 ->
  ph n_ElementSetSpec ts next s (sem KNone (tt)) (s2).
Proof.
  intros; subst. eapply ph_rule with (j := 423%Z); [vm_compute; reflexivity|apply allowed_always; vm_compute; reflexivity| |]; [apply phs_token; [vm_compute; reflexivity|]; rewrite <- (app_nil_r t2); eapply phs_cons; [eassumption|]; apply phs_nil|reflexivity].
Qed.
Lemma r_424 (t1 : list Lexer.token) (s1 : state) (ts : list Lexer.token) (next : string) (s : state) : ph n_Intersections t1 next s (sem KNone tt) s1 -> ts = t1 ->
  ph n_Unions ts next s (sem KNone (tt)) (s1).
Proof.
  intros; subst. eapply ph_rule with (j := 424%Z); [vm_compute; reflexivity|apply allowed_always; vm_compute; reflexivity| |]; [rewrite <- (app_nil_r t1); eapply phs_cons; [eassumption|]; apply phs_nil|reflexivity].
Qed.
Lemma r_425 (t1 : list Lexer.token) (t2 : list Lexer.token) (t3 : list Lexer.token) (s1 : state) (s2 : state) (s3 : state) (ts : list Lexer.token) (next : string) (s : state) : ph n_UElems t1 (nxt (t2 ++ t3) next) s (sem KNone tt) s1 -> ph n_UnionMark t2 (nxt (t3) next) s1 (sem KNone tt) s2 -> ph n_Intersections t3 next s2 (sem KNone tt) s3 -> ts = t1 ++ t2 ++ t3 ->
  ph n_Unions ts next s (sem KNone (tt)) (s3).
Proof.
  intros; subst. eapply ph_rule with (j := 425%Z); [vm_compute; reflexivity|apply allowed_always; vm_compute; reflexivity| |]; [eapply phs_cons; [eassumption|]; eapply phs_cons; [eassumption|]; rewrite <- (app_nil_r t3); eapply phs_cons; [eassumption|]; apply phs_nil|reflexivity].
Qed.
Lemma r_426 (t1 : list Lexer.token) (s1 : state) (ts : list Lexer.token) (next : string) (s : state) : ph n_Unions t1 next s (sem KNone tt) s1 -> ts = t1 ->
  ph n_UElems ts next s (sem KNone (tt)) (s1).
Proof.
  intros; subst. eapply ph_rule with (j := 426%Z); [vm_compute; reflexivity|apply allowed_always; vm_compute; reflexivity| |]; [rewrite <- (app_nil_r t1); eapply phs_cons; [eassumption|]; apply phs_nil|reflexivity].
Qed.
Lemma r_427 (t1 : list Lexer.token) (s1 : state) (ts : list Lexer.token) (next : string) (s : state) : ph n_IntersectionElements t1 next s (sem KNone tt) s1 -> ts = t1 ->
  ph n_Intersections ts next s (sem KNone (tt)) (s1).
Proof.
  intros; subst. eapply ph_rule with (j := 427%Z); [vm_compute; reflexivity|apply allowed_always; vm_compute; reflexivity| |]; [rewrite <- (app_nil_r t1); eapply phs_cons; [eassumption|]; apply phs_nil|reflexivity].
Qed.
Lemma r_428 (t1 : list Lexer.token) (t2 : list Lexer.token) (t3 : list Lexer.token) (s1 : state) (s2 : state) (s3 : state) (ts : list Lexer.token) (next : string) (s : state) : ph n_IElems t1 (nxt (t2 ++ t3) next) s (sem KNone tt) s1 -> ph n_IntersectionMark t2 (nxt (t3) next) s1 (sem KNone tt) s2 -> ph n_IntersectionElements t3 next s2 (sem KNone tt) s3 -> ts = t1 ++ t2 ++ t3 ->
  ph n_Intersections ts next s (sem KNone (tt)) (s3).
Proof.
  intros; subst. eapply ph_rule with (j := 428%Z); [vm_compute; reflexivity|apply allowed_always; vm_compute; reflexivity| |]; [eapply phs_cons; [eassumption|]; eapply phs_cons; [eassumption|]; rewrite <- (app_nil_r t3); eapply phs_cons; [eassumption|]; apply phs_nil|reflexivity].
Qed.
Lemma r_429 (t1 : list Lexer.token) (s1 : state) (ts : list Lexer.token) (next : string) (s : state) : ph n_Intersections t1 next s (sem KNone tt) s1 -> ts = t1 ->
  ph n_IElems ts next s (sem KNone (tt)) (s1).
Proof.
  intros; subst. eapply ph_rule with (j := 429%Z); [vm_compute; reflexivity|apply allowed_always; vm_compute; reflexivity| |]; [rewrite <- (app_nil_r t1); eapply phs_cons; [eassumption|]; apply phs_nil|reflexivity].
Qed.
Lemma r_430 (t1 : list Lexer.token) (s1 : state) (ts : list Lexer.token) (next : string) (s : state) : ph n_Elements t1 next s (sem KNone tt) s1 -> ts = t1 ->
  ph n_IntersectionElements ts next s (sem KNone (tt)) (s1).
Proof.
  intros; subst. eapply ph_rule with (j := 430%Z); [vm_compute; reflexivity|apply allowed_always; vm_compute; reflexivity| |]; [rewrite <- (app_nil_r t1); eapply phs_cons; [eassumption|]; apply phs_nil|reflexivity].
Qed.
Lemma r_431 (t1 : list Lexer.token) (t2 : list Lexer.token) (s1 : state) (s2 : state) (ts : list Lexer.token) (next : string) (s : state) : ph n_Elems t1 (nxt (t2) next) s (sem KNone tt) s1 -> ph n_Exclusions t2 next s1 (sem KNone tt) s2 -> ts = t1 ++ t2 ->
  ph n_IntersectionElements ts next s (sem KNone (tt)) (s2).
Proof.
  intros; subst. eapply ph_rule with (j := 431%Z); [vm_compute; reflexivity|apply allowed_always; vm_compute; reflexivity| |]; [eapply phs_cons; [eassumption|]; rewrite <- (app_nil_r t2); eapply phs_cons; [eassumption|]; apply phs_nil|reflexivity].
Qed.
Lemma r_432 (t1 : list Lexer.token) (s1 : state) (ts : list Lexer.token) (next : string) (s : state) : ph n_Elements t1 next s (sem KNone tt) s1 -> ts = t1 ->
  ph n_Elems ts next s (sem KNone (tt)) (s1).
Proof.
  intros; subst. eapply ph_rule with (j := 432%Z); [vm_compute; reflexivity|apply allowed_always; vm_compute; reflexivity| |]; [rewrite <- (app_nil_r t1); eapply phs_cons; [eassumption|]; apply phs_nil|reflexivity].
Qed.
Lemma r_433 (t2 : list Lexer.token) (s2 : state) (ts : list Lexer.token) (next : string) (s : state) : ph n_Elements t2 next s (sem KNone tt) s2 -> ts = kw "EXCEPT" :: t2 ->
  ph n_Exclusions ts next s (sem KNone (tt)) (s2).
Proof.
  intros; subst. eapply ph_rule with (j := 433%Z); [vm_compute; reflexivity|apply allowed_always; vm_compute; reflexivity| |]; [apply phs_token; [vm_compute; reflexivity|]; rewrite <- (app_nil_r t2); eapply phs_cons; [eassumption|]; apply phs_nil|reflexivity].
Qed.
Lemma r_434  (ts : list Lexer.token) (next : string) (s : state) : ts = kw "VERTICAL_LINE" :: [] ->
  ph n_UnionMark ts next s (sem KNone (tt)) (s).
Proof.
  intros; subst. eapply ph_rule with (j := 434%Z); [vm_compute; reflexivity|apply allowed_always; vm_compute; reflexivity| |]; [apply phs_token; [vm_compute; reflexivity|]; apply phs_nil|reflexivity].
Qed.
Lemma r_435  (ts : list Lexer.token) (next : string) (s : state) : ts = kw "UNION" :: [] ->
  ph n_UnionMark ts next s (sem KNone (tt)) (s).
Proof.
  intros; subst. eapply ph_rule with (j := 435%Z); [vm_compute; reflexivity|apply allowed_always; vm_compute; reflexivity| |]; [apply phs_token; [vm_compute; reflexivity|]; apply phs_nil|reflexivity].
Qed.
Lemma r_436  (ts : list Lexer.token) (next : string) (s : state) : ts = kw "ACCENT" :: [] ->
  ph n_IntersectionMark ts next s (sem KNone (tt)) (s).
Proof.
  intros; subst. eapply ph_rule with (j := 436%Z); [vm_compute; reflexivity|apply allowed_always; vm_compute; reflexivity| |]; [apply phs_token; [vm_compute; reflexivity|]; apply phs_nil|reflexivity].
Qed.
Lemma r_437  (ts : list Lexer.token) (next : string) (s : state) : ts = kw "INTERSECTION" :: [] ->
  ph n_IntersectionMark ts next s (sem KNone (tt)) (s).
Proof.
  intros; subst. eapply ph_rule with (j := 437%Z); [vm_compute; reflexivity|apply allowed_always; vm_compute; reflexivity| |]; [apply phs_token; [vm_compute; reflexivity|]; apply phs_nil|reflexivity].
Qed.
Lemma r_438 (t1 : list Lexer.token) (s1 : state) (ts : list Lexer.token) (next : string) (s : state) : ph n_SubtypeElements t1 next s (sem KNone tt) s1 -> ts = t1 ->
  ph n_Elements ts next s (sem KNone (tt)) (s1).
Proof.
  intros; subst. eapply ph_rule with (j := 438%Z); [vm_compute; reflexivity|apply allowed_always; vm_compute; reflexivity| |]; [rewrite <- (app_nil_r t1); eapply phs_cons; [eassumption|]; apply phs_nil|reflexivity].
Qed.
Lemma r_439 (t2 : list Lexer.token) (s2 : state) (ts : list Lexer.token) (next : string) (s : state) : ph n_ElementSetSpecs t2 "CLOSE_PARENTHESIS" s (sem KNone tt) s2 -> ts = kw "OPEN_PARENTHESIS" :: t2 ++ kw "CLOSE_PARENTHESIS" :: [] ->
  ph n_Elements ts next s (sem KNone (tt)) (s2).
Proof.
  intros; subst. eapply ph_rule with (j := 439%Z); [vm_compute; reflexivity|apply allowed_always; vm_compute; reflexivity| |]; [apply phs_token; [vm_compute; reflexivity|]; eapply phs_cons; [eassumption|]; apply phs_token; [vm_compute; reflexivity|]; apply phs_nil|reflexivity].
Qed.
Lemma r_440 (t1 : list Lexer.token) (x1 : denote KValue) (s1 : state) (ts : list Lexer.token) (next : string) (s : state) : ph n_SingleValue_1 t1 next s (sem KValue x1) s1 -> ts = t1 ->
  ph n_SubtypeElements ts next s (sem KNone (tt)) (s1).
Proof.
  intros; subst. eapply ph_rule with (j := 440%Z); [vm_compute; reflexivity|apply allowed_always; vm_compute; reflexivity| |]; [rewrite <- (app_nil_r t1); eapply phs_cons; [eassumption|]; apply phs_nil|reflexivity].
Qed.
Lemma r_441 (t1 : list Lexer.token) (s1 : state) (ts : list Lexer.token) (next : string) (s : state) : ph n_ContainedSubtype t1 next s (sem KNone tt) s1 -> ts = t1 ->
  ph n_SubtypeElements ts next s (sem KNone (tt)) (s1).
Proof.
  intros; subst. eapply ph_rule with (j := 441%Z); [vm_compute; reflexivity|apply allowed_always; vm_compute; reflexivity| |]; [rewrite <- (app_nil_r t1); eapply phs_cons; [eassumption|]; apply phs_nil|reflexivity].
Qed.
Lemma r_442 (t1 : list Lexer.token) (s1 : state) (ts : list Lexer.token) (next : string) (s : state) : ph n_ValueRange t1 next s (sem KNone tt) s1 -> ts = t1 ->
  ph n_SubtypeElements ts next s (sem KNone (tt)) (s1).
Proof.
  intros; subst. eapply ph_rule with (j := 442%Z); [vm_compute; reflexivity|apply allowed_always; vm_compute; reflexivity| |]; [rewrite <- (app_nil_r t1); eapply phs_cons; [eassumption|]; apply phs_nil|reflexivity].
Qed.
Lemma r_443 (t1 : list Lexer.token) (s1 : state) (ts : list Lexer.token) (next : string) (s : state) : ph n_PermittedAlphabet t1 next s (sem KNone tt) s1 -> ts = t1 ->
  ph n_SubtypeElements ts next s (sem KNone (tt)) (s1).
Proof.
  intros; subst. eapply ph_rule with (j := 443%Z); [vm_compute; reflexivity|apply allowed_always; vm_compute; reflexivity| |]; [rewrite <- (app_nil_r t1); eapply phs_cons; [eassumption|]; apply phs_nil|reflexivity].
Qed.
Lemma r_444 (t1 : list Lexer.token) (s1 : state) (ts : list Lexer.token) (next : string) (s : state) : ph n_SizeConstraint t1 next s (sem KNone tt) s1 -> ts = t1 ->
  ph n_SubtypeElements ts next s (sem KNone (tt)) (s1).
Proof.
  intros; subst. eapply ph_rule with (j := 444%Z); [vm_compute; reflexivity|apply allowed_always; vm_compute; reflexivity| |]; [rewrite <- (app_nil_r t1); eapply phs_cons; [eassumption|]; apply phs_nil|reflexivity].
Qed.
Lemma r_446 (t1 : list Lexer.token) (s1 : state) (ts : list Lexer.token) (next : string) (s : state) : ph n_InnerTypeConstraints t1 next s (sem KNone tt) s1 -> ts = t1 ->
  ph n_SubtypeElements ts next s (sem KNone (tt)) (s1).
Proof.
  intros; subst. eapply ph_rule with (j := 446%Z); [vm_compute; reflexivity|apply allowed_always; vm_compute; reflexivity| |]; [rewrite <- (app_nil_r t1); eapply phs_cons; [eassumption|]; apply phs_nil|reflexivity].
Qed.
Lemma r_447 (t1 : list Lexer.token) (s1 : state) (ts : list Lexer.token) (next : string) (s : state) : ph n_PatternConstraint t1 next s (sem KNone tt) s1 -> ts = t1 ->
  ph n_SubtypeElements ts next s (sem KNone (tt)) (s1).
Proof.
  intros; subst. eapply ph_rule with (j := 447%Z); [vm_compute; reflexivity|apply allowed_always; vm_compute; reflexivity| |]; [rewrite <- (app_nil_r t1); eapply phs_cons; [eassumption|]; apply phs_nil|reflexivity].
Qed.
Lemma r_448 (t1 : list Lexer.token) (s1 : state) (ts : list Lexer.token) (next : string) (s : state) : ph n_PropertySettings t1 next s (sem KNone tt) s1 -> ts = t1 ->
  ph n_SubtypeElements ts next s (sem KNone (tt)) (s1).
Proof.
  intros; subst. eapply ph_rule with (j := 448%Z); [vm_compute; reflexivity|apply allowed_always; vm_compute; reflexivity| |]; [rewrite <- (app_nil_r t1); eapply phs_cons; [eassumption|]; apply phs_nil|reflexivity].
Qed.
Lemma r_449 (t1 : list Lexer.token) (x1 : denote KBool) (s1 : state) (ts : list Lexer.token) (next : string) (s : state) : ph n_BooleanValue t1 next s (sem KBool x1) s1 -> ts = t1 ->
  ph n_SingleValue ts next s (sem KValue (VBoolean x1)) (s1).
Proof.
  intros; subst. eapply ph_rule with (j := 449%Z); [vm_compute; reflexivity|apply allowed_always; vm_compute; reflexivity| |]; [rewrite <- (app_nil_r t1); eapply phs_cons; [eassumption|]; apply phs_nil|reflexivity].
Qed.
Lemma r_450  (ts : list Lexer.token) (next : string) (s : state) : ts = kw "ASN_NULL" :: [] ->
  ph n_SingleValue ts next s (sem KValue (VNull)) (s).
Proof.
  intros; subst. eapply ph_rule with (j := 450%Z); [vm_compute; reflexivity|apply allowed_always; vm_compute; reflexivity| |]; [apply phs_token; [vm_compute; reflexivity|]; apply phs_nil|reflexivity].
Qed.
Lemma r_451 (t1 : list Lexer.token) (x1 : denote KTime) (s1 : state) (ts : list Lexer.token) (next : string) (s : state) : ph n_TimeValue t1 next s (sem KTime x1) s1 -> ts = t1 ->
  ph n_SingleValue ts next s (sem KValue (VTime x1)) (s1).
Proof.
  intros; subst. eapply ph_rule with (j := 451%Z); [vm_compute; reflexivity|apply allowed_always; vm_compute; reflexivity| |]; [rewrite <- (app_nil_r t1); eapply phs_cons; [eassumption|]; apply phs_nil|reflexivity].
Qed.
Lemma r_452 (a1 : list Z) (ts : list Lexer.token) (next : string) (s : state) : ts = Lexer.Token "bstring" (PText a1) :: [] ->
  ph n_SingleValue ts next s (sem KValue (VString (string_of a1))) (s).
Proof.
  intros; subst. eapply ph_rule with (j := 452%Z); [vm_compute; reflexivity|apply allowed_always; vm_compute; reflexivity| |]; [apply phs_token; [vm_compute; reflexivity|]; apply phs_nil|reflexivity].
Qed.
Lemma r_453 (a1 : list Z) (ts : list Lexer.token) (next : string) (s : state) : ts = Lexer.Token "hstring" (PText a1) :: [] ->
  ph n_SingleValue ts next s (sem KValue (VString (string_of a1))) (s).
Proof.
  intros; subst. eapply ph_rule with (j := 453%Z); [vm_compute; reflexivity|apply allowed_always; vm_compute; reflexivity| |]; [apply phs_token; [vm_compute; reflexivity|]; apply phs_nil|reflexivity].
Qed.
Lemma r_454 (a1 : list Z) (ts : list Lexer.token) (next : string) (s : state) : ts = Lexer.Token "cstring" (PText a1) :: [] ->
  ph n_SingleValue ts next s (sem KValue (VString (string_of a1))) (s).
Proof.
  intros; subst. eapply ph_rule with (j := 454%Z); [vm_compute; reflexivity|apply allowed_always; vm_compute; reflexivity| |]; [apply phs_token; [vm_compute; reflexivity|]; apply phs_nil|reflexivity].
Qed.
Lemma r_455 (a1 : string) (ts : list Lexer.token) (next : string) (s : state) : ts = Lexer.Token "GENERIC_IDENTIFIER_UPPERCASE" (PName a1) :: [] ->
  ph n_SingleValue ts next s (sem KValue (VString a1)) (s).
Proof.
  intros; subst. eapply ph_rule with (j := 455%Z); [vm_compute; reflexivity|apply allowed_always; vm_compute; reflexivity| |]; [apply phs_token; [vm_compute; reflexivity|]; apply phs_nil|reflexivity].
Qed.
Lemma r_456 (t1 : list Lexer.token) (x1 : denote KDefinedValue) (s1 : state) (ts : list Lexer.token) (next : string) (s : state) : ph n_DefinedValue t1 next s (sem KDefinedValue x1) s1 -> ts = t1 ->
  ph n_SingleValue ts next s (sem KValue (VDefined x1)) (s1).
Proof.
  intros; subst. eapply ph_rule with (j := 456%Z); [vm_compute; reflexivity|apply allowed_always; vm_compute; reflexivity| |]; [rewrite <- (app_nil_r t1); eapply phs_cons; [eassumption|]; apply phs_nil|reflexivity].
Qed.
Lemma r_457 (t1 : list Lexer.token) (x1 : denote KInt64) (s1 : state) (ts : list Lexer.token) (next : string) (s : state) : ph n_SignedNumber t1 next s (sem KInt64 x1) s1 -> ts = t1 ->
  ph n_SingleValue ts next s (sem KValue (VInt x1)) (s1).
Proof.
  intros; subst. eapply ph_rule with (j := 457%Z); [vm_compute; reflexivity|apply allowed_always; vm_compute; reflexivity| |]; [rewrite <- (app_nil_r t1); eapply phs_cons; [eassumption|]; apply phs_nil|reflexivity].
Qed.
Lemma r_458 (a1 : list Z) (ts : list Lexer.token) (next : string) (s : state) : ts = Lexer.Token "realnumber" (PText a1) :: [] ->
  ph n_SingleValue ts next s (sem KValue (VReal (string_of a1))) (s).
Proof.
  intros; subst. eapply ph_rule with (j := 458%Z); [vm_compute; reflexivity|apply allowed_always; vm_compute; reflexivity| |]; [apply phs_token; [vm_compute; reflexivity|]; apply phs_nil|reflexivity].
Qed.
Lemma r_460  (ts : list Lexer.token) (next : string) (s : state) : ts = kw "INCLUDES" :: [] ->
  ph n_Includes ts next s (sem KNone (tt)) (s).
Proof.
  intros; subst. eapply ph_rule with (j := 460%Z); [vm_compute; reflexivity|apply allowed_always; vm_compute; reflexivity| |]; [apply phs_token; [vm_compute; reflexivity|]; apply phs_nil|reflexivity].
Qed.
Lemma r_461 (t1 : list Lexer.token) (t3 : list Lexer.token) (s1 : state) (s3 : state) (ts : list Lexer.token) (next : string) (s : state) : ph n_LowerEndpoint t1 "RANGE" s (sem KNone tt) s1 -> ph n_UpperEndpoint t3 next s1 (sem KNone tt) s3 -> ts = t1 ++ kw "RANGE" :: t3 ->
  ph n_ValueRange ts next s (sem KNone (tt)) (s3).
Proof.
  intros; subst. eapply ph_rule with (j := 461%Z); [vm_compute; reflexivity|apply allowed_always; vm_compute; reflexivity| |]; [eapply phs_cons; [eassumption|]; apply phs_token; [vm_compute; reflexivity|]; rewrite <- (app_nil_r t3); eapply phs_cons; [eassumption|]; apply phs_nil|reflexivity].
Qed.
Lemma r_462 (t1 : list Lexer.token) (s1 : state) (ts : list Lexer.token) (next : string) (s : state) : ph n_LowerEndValue t1 next s (sem KNone tt) s1 -> ts = t1 ->
  ph n_LowerEndpoint ts next s (sem KNone (tt)) (s1).
Proof.
  intros; subst. eapply ph_rule with (j := 462%Z); [vm_compute; reflexivity|apply allowed_always; vm_compute; reflexivity| |]; [rewrite <- (app_nil_r t1); eapply phs_cons; [eassumption|]; apply phs_nil|reflexivity].
Qed.
Lemma r_464 (t1 : list Lexer.token) (s1 : state) (ts : list Lexer.token) (next : string) (s : state) : ph n_UpperEndValue t1 next s (sem KNone tt) s1 -> ts = t1 ->
  ph n_UpperEndpoint ts next s (sem KNone (tt)) (s1).
Proof.
  intros; subst. eapply ph_rule with (j := 464%Z); [vm_compute; reflexivity|apply allowed_always; vm_compute; reflexivity| |]; [rewrite <- (app_nil_r t1); eapply phs_cons; [eassumption|]; apply phs_nil|reflexivity].
Qed.
Lemma r_466 (t1 : list Lexer.token) (x1 : denote KValue) (s1 : state) (ts : list Lexer.token) (next : string) (s : state) : ph n_SingleValue_1 t1 next s (sem KValue x1) s1 -> ts = t1 ->
  ph n_LowerEndValue ts next s (sem KNone (tt)) (s1).
Proof.
  intros; subst. eapply ph_rule with (j := 466%Z); [vm_compute; reflexivity|apply allowed_always; vm_compute; reflexivity| |]; [rewrite <- (app_nil_r t1); eapply phs_cons; [eassumption|]; apply phs_nil|reflexivity].
Qed.
Lemma r_467  (ts : list Lexer.token) (next : string) (s : state) : ts = kw "MIN" :: [] ->
  ph n_LowerEndValue ts next s (sem KNone (tt)) (s).
Proof.
  intros; subst. eapply ph_rule with (j := 467%Z); [vm_compute; reflexivity|apply allowed_always; vm_compute; reflexivity| |]; [apply phs_token; [vm_compute; reflexivity|]; apply phs_nil|reflexivity].
Qed.
Lemma r_468 (t1 : list Lexer.token) (x1 : denote KValue) (s1 : state) (ts : list Lexer.token) (next : string) (s : state) : ph n_SingleValue_1 t1 next s (sem KValue x1) s1 -> ts = t1 ->
  ph n_UpperEndValue ts next s (sem KNone (tt)) (s1).
Proof.
  intros; subst. eapply ph_rule with (j := 468%Z); [vm_compute; reflexivity|apply allowed_always; vm_compute; reflexivity| |]; [rewrite <- (app_nil_r t1); eapply phs_cons; [eassumption|]; apply phs_nil|reflexivity].
Qed.
Lemma r_469  (ts : list Lexer.token) (next : string) (s : state) : ts = kw "MAX" :: [] ->
  ph n_UpperEndValue ts next s (sem KNone (tt)) (s).
Proof.
  intros; subst. eapply ph_rule with (j := 469%Z); [vm_compute; reflexivity|apply allowed_always; vm_compute; reflexivity| |]; [apply phs_token; [vm_compute; reflexivity|]; apply phs_nil|reflexivity].
Qed.
Lemma r_470 (t2 : list Lexer.token) (s2 : state) (ts : list Lexer.token) (next : string) (s : state) : ph n_Constraint t2 next s (sem KNone tt) s2 -> ts = kw "SIZE" :: t2 ->
  ph n_SizeConstraint ts next s (sem KNone (tt)) (s2).
Proof.
  intros; subst. eapply ph_rule with (j := 470%Z); [vm_compute; reflexivity|apply allowed_always; vm_compute; reflexivity| |]; [apply phs_token; [vm_compute; reflexivity|]; rewrite <- (app_nil_r t2); eapply phs_cons; [eassumption|]; apply phs_nil|reflexivity].
Qed.
Lemma r_472 (t2 : list Lexer.token) (s2 : state) (ts : list Lexer.token) (next : string) (s : state) : ph n_Constraint t2 next s (sem KNone tt) s2 -> ts = kw "FROM" :: t2 ->
  ph n_PermittedAlphabet ts next s (sem KNone (tt)) (s2).
Proof.
  intros; subst. eapply ph_rule with (j := 472%Z); [vm_compute; reflexivity|apply allowed_always; vm_compute; reflexivity| |]; [apply phs_token; [vm_compute; reflexivity|]; rewrite <- (app_nil_r t2); eapply phs_cons; [eassumption|]; apply phs_nil|reflexivity].
Qed.
Lemma r_493  (ts : list Lexer.token) (next : string) (s : state) : ts = [] ->
  ph n_ExceptionSpec ts next s (sem KNone (tt)) (s).
Proof.
  intros; subst. eapply ph_rule with (j := 493%Z); [vm_compute; reflexivity|apply allowed_always; vm_compute; reflexivity| |]; [apply phs_nil|reflexivity].
Qed.
Lemma r_497 (a1 : string) (ts : list Lexer.token) (next : string) (s : state) : ts = Lexer.Token "GENERIC_IDENTIFIER_UPPERCASE" (PName a1) :: [] ->
  ph n_typereference ts next s (sem KString (a1)) (s).
Proof.
  intros; subst. eapply ph_rule with (j := 497%Z); [vm_compute; reflexivity|apply allowed_always; vm_compute; reflexivity| |]; [apply phs_token; [vm_compute; reflexivity|]; apply phs_nil|reflexivity].
Qed.
Lemma r_498 (a1 : string) (ts : list Lexer.token) (next : string) (s : state) : ts = Lexer.Token "GENERIC_IDENTIFIER_LOWERCASE" (PName a1) :: [] ->
  ph n_identifier ts next s (sem KString (a1)) (s).
Proof.
  intros; subst. eapply ph_rule with (j := 498%Z); [vm_compute; reflexivity|apply allowed_always; vm_compute; reflexivity| |]; [apply phs_token; [vm_compute; reflexivity|]; apply phs_nil|reflexivity].
Qed.
Lemma r_499 (a1 : string) (ts : list Lexer.token) (next : string) (s : state) : ts = Lexer.Token "GENERIC_IDENTIFIER_LOWERCASE" (PName a1) :: [] ->
  ph n_valuereference ts next s (sem KString (a1)) (s).
Proof.
  intros; subst. eapply ph_rule with (j := 499%Z); [vm_compute; reflexivity|apply allowed_always; vm_compute; reflexivity| |]; [apply phs_token; [vm_compute; reflexivity|]; apply phs_nil|reflexivity].
Qed.
Lemma r_500 (a1 : string) (ts : list Lexer.token) (next : string) (s : state) : next <> "FULL_STOP" -> ts = Lexer.Token "GENERIC_IDENTIFIER_UPPERCASE" (PName a1) :: [] ->
  ph n_modulereference ts next s (sem KString (a1)) (s).
Proof.
  intros; subst. eapply ph_rule with (j := 500%Z); [vm_compute; reflexivity|apply allowed_before with (names := ["FULL_STOP"]); [vm_compute; reflexivity|vm_compute; reflexivity|cbn; intuition congruence]| |]; [apply phs_token; [vm_compute; reflexivity|]; apply phs_nil|reflexivity].
Qed.
Lemma r_600 (t1 : list Lexer.token) (x1 : denote KBuiltin) (s1 : state) (ts : list Lexer.token) (next : string) (s : state) : ph n_BuiltinType_1 t1 next s (sem KBuiltin x1) s1 -> ts = t1 ->
  ph n_Type_1 ts next s (sem KType (x1)) (s1).
Proof.
  intros; subst. eapply ph_rule with (j := 600%Z); [vm_compute; reflexivity|apply allowed_always; vm_compute; reflexivity| |]; [rewrite <- (app_nil_r t1); eapply phs_cons; [eassumption|]; apply phs_nil|reflexivity].
Qed.
Lemma r_601 (t1 : list Lexer.token) (x1 : denote KType) (s1 : state) (ts : list Lexer.token) (next : string) (s : state) : ph n_ConstrainedType t1 next s (sem KType x1) s1 -> ts = t1 ->
  ph n_Type_1 ts next s (sem KType (x1)) (s1).
Proof.
  intros; subst. eapply ph_rule with (j := 601%Z); [vm_compute; reflexivity|apply allowed_always; vm_compute; reflexivity| |]; [rewrite <- (app_nil_r t1); eapply phs_cons; [eassumption|]; apply phs_nil|reflexivity].
Qed.
Lemma r_602 (t1 : list Lexer.token) (x1 : denote KDefined) (s1 : state) (ts : list Lexer.token) (next : string) (s : state) : ph n_DefinedType t1 next s (sem KDefined x1) s1 -> ts = t1 ->
  ph n_Type_1 ts next s (sem KType (TRef x1)) (s1).
Proof.
  intros; subst. eapply ph_rule with (j := 602%Z); [vm_compute; reflexivity|apply allowed_always; vm_compute; reflexivity| |]; [rewrite <- (app_nil_r t1); eapply phs_cons; [eassumption|]; apply phs_nil|reflexivity].
Qed.
Lemma r_603 (t1 : list Lexer.token) (s1 : state) (ts : list Lexer.token) (next : string) (s : state) : ph n_SelectionType t1 next s (sem KNone tt) s1 -> ts = t1 ->
  ph n_Type_1 ts next s (sem KType (default_value (KType))) (s1).
Proof.
  intros; subst. eapply ph_rule with (j := 603%Z); [vm_compute; reflexivity|apply allowed_always; vm_compute; reflexivity| |]; [rewrite <- (app_nil_r t1); eapply phs_cons; [eassumption|]; apply phs_nil|reflexivity].
Qed.
Lemma r_604 (t1 : list Lexer.token) (s1 : state) (ts : list Lexer.token) (next : string) (s : state) : ph n_TypeFromObject t1 next s (sem KNone tt) s1 -> ts = t1 ->
  ph n_Type_1 ts next s (sem KType (default_value (KType))) (s1).
Proof.
  intros; subst. eapply ph_rule with (j := 604%Z); [vm_compute; reflexivity|apply allowed_always; vm_compute; reflexivity| |]; [rewrite <- (app_nil_r t1); eapply phs_cons; [eassumption|]; apply phs_nil|reflexivity].
Qed.
Lemma r_605  (ts : list Lexer.token) (next : string) (s : state) : ts = kw "ANY" :: [] ->
  ph n_BuiltinType_1 ts next s (sem KBuiltin (TSimple Any)) (s).
Proof.
  intros; subst. eapply ph_rule with (j := 605%Z); [vm_compute; reflexivity|apply allowed_always; vm_compute; reflexivity| |]; [apply phs_token; [vm_compute; reflexivity|]; apply phs_nil|reflexivity].
Qed.
Lemma r_606 (t1 : list Lexer.token) (x1 : denote (KEmpty BitString)) (s1 : state) (ts : list Lexer.token) (next : string) (s : state) : ph n_BitStringType t1 next s (sem (KEmpty BitString) x1) s1 -> ts = t1 ->
  ph n_BuiltinType_1 ts next s (sem KBuiltin (TSimple BitString)) (s1).
Proof.
  intros; subst. eapply ph_rule with (j := 606%Z); [vm_compute; reflexivity|apply allowed_always; vm_compute; reflexivity| |]; [rewrite <- (app_nil_r t1); eapply phs_cons; [eassumption|]; apply phs_nil|reflexivity].
Qed.
Lemma r_607 (t1 : list Lexer.token) (x1 : denote (KEmpty Boolean)) (s1 : state) (ts : list Lexer.token) (next : string) (s : state) : ph n_BooleanType t1 next s (sem (KEmpty Boolean) x1) s1 -> ts = t1 ->
  ph n_BuiltinType_1 ts next s (sem KBuiltin (TSimple Boolean)) (s1).
Proof.
  intros; subst. eapply ph_rule with (j := 607%Z); [vm_compute; reflexivity|apply allowed_always; vm_compute; reflexivity| |]; [rewrite <- (app_nil_r t1); eapply phs_cons; [eassumption|]; apply phs_nil|reflexivity].
Qed.
Lemma r_608 (t1 : list Lexer.token) (x1 : denote KChar) (s1 : state) (ts : list Lexer.token) (next : string) (s : state) : ph n_CharacterStringType t1 next s (sem KChar x1) s1 -> ts = t1 ->
  ph n_BuiltinType_1 ts next s (sem KBuiltin (TSimple (CharString x1))) (s1).
Proof.
  intros; subst. eapply ph_rule with (j := 608%Z); [vm_compute; reflexivity|apply allowed_always; vm_compute; reflexivity| |]; [rewrite <- (app_nil_r t1); eapply phs_cons; [eassumption|]; apply phs_nil|reflexivity].
Qed.
Lemma r_609 (t1 : list Lexer.token) (x1 : denote KChoice) (s1 : state) (ts : list Lexer.token) (next : string) (s : state) : ph n_ChoiceType t1 next s (sem KChoice x1) s1 -> ts = t1 ->
  ph n_BuiltinType_1 ts next s (sem KBuiltin (TChoice x1)) (s1).
Proof.
  intros; subst. eapply ph_rule with (j := 609%Z); [vm_compute; reflexivity|apply allowed_always; vm_compute; reflexivity| |]; [rewrite <- (app_nil_r t1); eapply phs_cons; [eassumption|]; apply phs_nil|reflexivity].
Qed.
Lemma r_610 (t1 : list Lexer.token) (x1 : denote (KEmpty Date)) (s1 : state) (ts : list Lexer.token) (next : string) (s : state) : ph n_DateType t1 next s (sem (KEmpty Date) x1) s1 -> ts = t1 ->
  ph n_BuiltinType_1 ts next s (sem KBuiltin (TSimple Date)) (s1).
Proof.
  intros; subst. eapply ph_rule with (j := 610%Z); [vm_compute; reflexivity|apply allowed_always; vm_compute; reflexivity| |]; [rewrite <- (app_nil_r t1); eapply phs_cons; [eassumption|]; apply phs_nil|reflexivity].
Qed.
Lemma r_611 (t1 : list Lexer.token) (x1 : denote (KEmpty DateTime)) (s1 : state) (ts : list Lexer.token) (next : string) (s : state) : ph n_DateTimeType t1 next s (sem (KEmpty DateTime) x1) s1 -> ts = t1 ->
  ph n_BuiltinType_1 ts next s (sem KBuiltin (TSimple DateTime)) (s1).
Proof.
  intros; subst. eapply ph_rule with (j := 611%Z); [vm_compute; reflexivity|apply allowed_always; vm_compute; reflexivity| |]; [rewrite <- (app_nil_r t1); eapply phs_cons; [eassumption|]; apply phs_nil|reflexivity].
Qed.
Lemma r_612 (t1 : list Lexer.token) (x1 : denote (KEmpty Duration)) (s1 : state) (ts : list Lexer.token) (next : string) (s : state) : ph n_DurationType t1 next s (sem (KEmpty Duration) x1) s1 -> ts = t1 ->
  ph n_BuiltinType_1 ts next s (sem KBuiltin (TSimple Duration)) (s1).
Proof.
  intros; subst. eapply ph_rule with (j := 612%Z); [vm_compute; reflexivity|apply allowed_always; vm_compute; reflexivity| |]; [rewrite <- (app_nil_r t1); eapply phs_cons; [eassumption|]; apply phs_nil|reflexivity].
Qed.
Lemma r_613 (t1 : list Lexer.token) (x1 : denote (KEmpty EmbeddedPDV)) (s1 : state) (ts : list Lexer.token) (next : string) (s : state) : ph n_EmbeddedPDVType t1 next s (sem (KEmpty EmbeddedPDV) x1) s1 -> ts = t1 ->
  ph n_BuiltinType_1 ts next s (sem KBuiltin (TSimple EmbeddedPDV)) (s1).
Proof.
  intros; subst. eapply ph_rule with (j := 613%Z); [vm_compute; reflexivity|apply allowed_always; vm_compute; reflexivity| |]; [rewrite <- (app_nil_r t1); eapply phs_cons; [eassumption|]; apply phs_nil|reflexivity].
Qed.
Lemma r_614 (t1 : list Lexer.token) (x1 : denote KEnumerated) (s1 : state) (ts : list Lexer.token) (next : string) (s : state) : ph n_EnumeratedType t1 next s (sem KEnumerated x1) s1 -> ts = t1 ->
  ph n_BuiltinType_1 ts next s (sem KBuiltin (TEnumerated (fst x1) (snd x1))) (s1).
Proof.
  intros; subst. eapply ph_rule with (j := 614%Z); [vm_compute; reflexivity|apply allowed_always; vm_compute; reflexivity| |]; [rewrite <- (app_nil_r t1); eapply phs_cons; [eassumption|]; apply phs_nil|reflexivity].
Qed.
Lemma r_615 (t1 : list Lexer.token) (x1 : denote (KEmpty External)) (s1 : state) (ts : list Lexer.token) (next : string) (s : state) : ph n_ExternalType t1 next s (sem (KEmpty External) x1) s1 -> ts = t1 ->
  ph n_BuiltinType_1 ts next s (sem KBuiltin (TSimple External)) (s1).
Proof.
  intros; subst. eapply ph_rule with (j := 615%Z); [vm_compute; reflexivity|apply allowed_always; vm_compute; reflexivity| |]; [rewrite <- (app_nil_r t1); eapply phs_cons; [eassumption|]; apply phs_nil|reflexivity].
Qed.
Lemma r_616  (ts : list Lexer.token) (next : string) (s : state) : ts = kw "GeneralizedTime" :: [] ->
  ph n_BuiltinType_1 ts next s (sem KBuiltin (TSimple GeneralizedTime)) (s).
Proof.
  intros; subst. eapply ph_rule with (j := 616%Z); [vm_compute; reflexivity|apply allowed_always; vm_compute; reflexivity| |]; [apply phs_token; [vm_compute; reflexivity|]; apply phs_nil|reflexivity].
Qed.
Lemma r_617 (t1 : list Lexer.token) (x1 : denote (KEmpty InstanceOf)) (s1 : state) (ts : list Lexer.token) (next : string) (s : state) : ph n_InstanceOfType t1 next s (sem (KEmpty InstanceOf) x1) s1 -> ts = t1 ->
  ph n_BuiltinType_1 ts next s (sem KBuiltin (TSimple InstanceOf)) (s1).
Proof.
  intros; subst. eapply ph_rule with (j := 617%Z); [vm_compute; reflexivity|apply allowed_always; vm_compute; reflexivity| |]; [rewrite <- (app_nil_r t1); eapply phs_cons; [eassumption|]; apply phs_nil|reflexivity].
Qed.
Lemma r_618 (t1 : list Lexer.token) (x1 : denote KInteger) (s1 : state) (ts : list Lexer.token) (next : string) (s : state) : ph n_IntegerType t1 next s (sem KInteger x1) s1 -> ts = t1 ->
  ph n_BuiltinType_1 ts next s (sem KBuiltin (TInteger x1)) (s1).
Proof.
  intros; subst. eapply ph_rule with (j := 618%Z); [vm_compute; reflexivity|apply allowed_always; vm_compute; reflexivity| |]; [rewrite <- (app_nil_r t1); eapply phs_cons; [eassumption|]; apply phs_nil|reflexivity].
Qed.
Lemma r_619 (t1 : list Lexer.token) (x1 : denote (KEmpty IRI)) (s1 : state) (ts : list Lexer.token) (next : string) (s : state) : ph n_IRIType t1 next s (sem (KEmpty IRI) x1) s1 -> ts = t1 ->
  ph n_BuiltinType_1 ts next s (sem KBuiltin (TSimple IRI)) (s1).
Proof.
  intros; subst. eapply ph_rule with (j := 619%Z); [vm_compute; reflexivity|apply allowed_always; vm_compute; reflexivity| |]; [rewrite <- (app_nil_r t1); eapply phs_cons; [eassumption|]; apply phs_nil|reflexivity].
Qed.
Lemma r_620 (t1 : list Lexer.token) (x1 : denote KField) (s1 : state) (ts : list Lexer.token) (next : string) (s : state) : ph n_ObjectClassFieldType t1 next s (sem KField x1) s1 -> ts = t1 ->
  ph n_BuiltinType_1 ts next s (sem KBuiltin (TField (fst x1) (snd x1))) (s1).
Proof.
  intros; subst. eapply ph_rule with (j := 620%Z); [vm_compute; reflexivity|apply allowed_always; vm_compute; reflexivity| |]; [rewrite <- (app_nil_r t1); eapply phs_cons; [eassumption|]; apply phs_nil|reflexivity].
Qed.
Lemma r_621  (ts : list Lexer.token) (next : string) (s : state) : ts = kw "ObjectDescriptor" :: [] ->
  ph n_BuiltinType_1 ts next s (sem KBuiltin (TSimple ObjectDescriptor)) (s).
Proof.
  intros; subst. eapply ph_rule with (j := 621%Z); [vm_compute; reflexivity|apply allowed_always; vm_compute; reflexivity| |]; [apply phs_token; [vm_compute; reflexivity|]; apply phs_nil|reflexivity].
Qed.
Lemma r_622 (t1 : list Lexer.token) (x1 : denote (KEmpty ObjectIdentifier)) (s1 : state) (ts : list Lexer.token) (next : string) (s : state) : ph n_ObjectIdentifierType t1 next s (sem (KEmpty ObjectIdentifier) x1) s1 -> ts = t1 ->
  ph n_BuiltinType_1 ts next s (sem KBuiltin (TSimple ObjectIdentifier)) (s1).
Proof.
  intros; subst. eapply ph_rule with (j := 622%Z); [vm_compute; reflexivity|apply allowed_always; vm_compute; reflexivity| |]; [rewrite <- (app_nil_r t1); eapply phs_cons; [eassumption|]; apply phs_nil|reflexivity].
Qed.
Lemma r_623 (t1 : list Lexer.token) (x1 : denote (KEmpty OctetString)) (s1 : state) (ts : list Lexer.token) (next : string) (s : state) : ph n_OctetStringType t1 next s (sem (KEmpty OctetString) x1) s1 -> ts = t1 ->
  ph n_BuiltinType_1 ts next s (sem KBuiltin (TSimple OctetString)) (s1).
Proof.
  intros; subst. eapply ph_rule with (j := 623%Z); [vm_compute; reflexivity|apply allowed_always; vm_compute; reflexivity| |]; [rewrite <- (app_nil_r t1); eapply phs_cons; [eassumption|]; apply phs_nil|reflexivity].
Qed.
Lemma r_624 (t1 : list Lexer.token) (x1 : denote (KEmpty Real)) (s1 : state) (ts : list Lexer.token) (next : string) (s : state) : ph n_RealType t1 next s (sem (KEmpty Real) x1) s1 -> ts = t1 ->
  ph n_BuiltinType_1 ts next s (sem KBuiltin (TSimple Real)) (s1).
Proof.
  intros; subst. eapply ph_rule with (j := 624%Z); [vm_compute; reflexivity|apply allowed_always; vm_compute; reflexivity| |]; [rewrite <- (app_nil_r t1); eapply phs_cons; [eassumption|]; apply phs_nil|reflexivity].
Qed.
Lemma r_625 (t1 : list Lexer.token) (x1 : denote (KEmpty RelativeIRI)) (s1 : state) (ts : list Lexer.token) (next : string) (s : state) : ph n_RelativeIRIType t1 next s (sem (KEmpty RelativeIRI) x1) s1 -> ts = t1 ->
  ph n_BuiltinType_1 ts next s (sem KBuiltin (TSimple RelativeIRI)) (s1).
Proof.
  intros; subst. eapply ph_rule with (j := 625%Z); [vm_compute; reflexivity|apply allowed_always; vm_compute; reflexivity| |]; [rewrite <- (app_nil_r t1); eapply phs_cons; [eassumption|]; apply phs_nil|reflexivity].
Qed.
Lemma r_626 (t1 : list Lexer.token) (x1 : denote (KEmpty RelativeOID)) (s1 : state) (ts : list Lexer.token) (next : string) (s : state) : ph n_RelativeOIDType t1 next s (sem (KEmpty RelativeOID) x1) s1 -> ts = t1 ->
  ph n_BuiltinType_1 ts next s (sem KBuiltin (TSimple RelativeOID)) (s1).
Proof.
  intros; subst. eapply ph_rule with (j := 626%Z); [vm_compute; reflexivity|apply allowed_always; vm_compute; reflexivity| |]; [rewrite <- (app_nil_r t1); eapply phs_cons; [eassumption|]; apply phs_nil|reflexivity].
Qed.
Lemma r_627 (t1 : list Lexer.token) (x1 : denote KSequence) (s1 : state) (ts : list Lexer.token) (next : string) (s : state) : ph n_SequenceType t1 next s (sem KSequence x1) s1 -> ts = t1 ->
  ph n_BuiltinType_1 ts next s (sem KBuiltin (TRecord false (fst x1) (snd x1))) (s1).
Proof.
  intros; subst. eapply ph_rule with (j := 627%Z); [vm_compute; reflexivity|apply allowed_always; vm_compute; reflexivity| |]; [rewrite <- (app_nil_r t1); eapply phs_cons; [eassumption|]; apply phs_nil|reflexivity].
Qed.
Lemma r_628 (t1 : list Lexer.token) (x1 : denote KSequenceOf) (s1 : state) (ts : list Lexer.token) (next : string) (s : state) : ph n_SequenceOfType t1 next s (sem KSequenceOf x1) s1 -> ts = t1 ->
  ph n_BuiltinType_1 ts next s (sem KBuiltin (TListOf false (fst x1) (snd x1))) (s1).
Proof.
  intros; subst. eapply ph_rule with (j := 628%Z); [vm_compute; reflexivity|apply allowed_always; vm_compute; reflexivity| |]; [rewrite <- (app_nil_r t1); eapply phs_cons; [eassumption|]; apply phs_nil|reflexivity].
Qed.
Lemma r_629 (t1 : list Lexer.token) (x1 : denote KSet) (s1 : state) (ts : list Lexer.token) (next : string) (s : state) : ph n_SetType t1 next s (sem KSet x1) s1 -> ts = t1 ->
  ph n_BuiltinType_1 ts next s (sem KBuiltin (TRecord true (fst x1) (snd x1))) (s1).
Proof.
  intros; subst. eapply ph_rule with (j := 629%Z); [vm_compute; reflexivity|apply allowed_always; vm_compute; reflexivity| |]; [rewrite <- (app_nil_r t1); eapply phs_cons; [eassumption|]; apply phs_nil|reflexivity].
Qed.
Lemma r_630 (t1 : list Lexer.token) (x1 : denote KSetOf) (s1 : state) (ts : list Lexer.token) (next : string) (s : state) : ph n_SetOfType t1 next s (sem KSetOf x1) s1 -> ts = t1 ->
  ph n_BuiltinType_1 ts next s (sem KBuiltin (TListOf true (fst x1) (snd x1))) (s1).
Proof.
  intros; subst. eapply ph_rule with (j := 630%Z); [vm_compute; reflexivity|apply allowed_always; vm_compute; reflexivity| |]; [rewrite <- (app_nil_r t1); eapply phs_cons; [eassumption|]; apply phs_nil|reflexivity].
Qed.
Lemma r_631 (t1 : list Lexer.token) (x1 : denote KPrefixed) (s1 : state) (ts : list Lexer.token) (next : string) (s : state) : ph n_PrefixedType t1 next s (sem KPrefixed x1) s1 -> ts = t1 ->
  ph n_BuiltinType_1 ts next s (sem KBuiltin (TTagged (fst (fst x1)) (snd (fst x1)) (snd x1))) (s1).
Proof.
  intros; subst. eapply ph_rule with (j := 631%Z); [vm_compute; reflexivity|apply allowed_always; vm_compute; reflexivity| |]; [rewrite <- (app_nil_r t1); eapply phs_cons; [eassumption|]; apply phs_nil|reflexivity].
Qed.
Lemma r_632 (t1 : list Lexer.token) (x1 : denote (KEmpty Time)) (s1 : state) (ts : list Lexer.token) (next : string) (s : state) : ph n_TimeType t1 next s (sem (KEmpty Time) x1) s1 -> ts = t1 ->
  ph n_BuiltinType_1 ts next s (sem KBuiltin (TSimple Time)) (s1).
Proof.
  intros; subst. eapply ph_rule with (j := 632%Z); [vm_compute; reflexivity|apply allowed_always; vm_compute; reflexivity| |]; [rewrite <- (app_nil_r t1); eapply phs_cons; [eassumption|]; apply phs_nil|reflexivity].
Qed.
Lemma r_633 (t1 : list Lexer.token) (x1 : denote (KEmpty TimeOfDay)) (s1 : state) (ts : list Lexer.token) (next : string) (s : state) : ph n_TimeOfDayType t1 next s (sem (KEmpty TimeOfDay) x1) s1 -> ts = t1 ->
  ph n_BuiltinType_1 ts next s (sem KBuiltin (TSimple TimeOfDay)) (s1).
Proof.
  intros; subst. eapply ph_rule with (j := 633%Z); [vm_compute; reflexivity|apply allowed_always; vm_compute; reflexivity| |]; [rewrite <- (app_nil_r t1); eapply phs_cons; [eassumption|]; apply phs_nil|reflexivity].
Qed.
Lemma r_634  (ts : list Lexer.token) (next : string) (s : state) : ts = kw "UTCTime" :: [] ->
  ph n_BuiltinType_1 ts next s (sem KBuiltin (TSimple UTCTime)) (s).
Proof.
  intros; subst. eapply ph_rule with (j := 634%Z); [vm_compute; reflexivity|apply allowed_always; vm_compute; reflexivity| |]; [apply phs_token; [vm_compute; reflexivity|]; apply phs_nil|reflexivity].
Qed.
Lemma r_635 (t1 : list Lexer.token) (x1 : denote KBool) (s1 : state) (ts : list Lexer.token) (next : string) (s : state) : ph n_BooleanValue t1 next s (sem KBool x1) s1 -> ts = t1 ->
  ph n_SingleValue_1 ts next s (sem KValue (VBoolean x1)) (s1).
Proof.
  intros; subst. eapply ph_rule with (j := 635%Z); [vm_compute; reflexivity|apply allowed_always; vm_compute; reflexivity| |]; [rewrite <- (app_nil_r t1); eapply phs_cons; [eassumption|]; apply phs_nil|reflexivity].
Qed.
Lemma r_636 (t1 : list Lexer.token) (x1 : denote KTime) (s1 : state) (ts : list Lexer.token) (next : string) (s : state) : ph n_TimeValue t1 next s (sem KTime x1) s1 -> ts = t1 ->
  ph n_SingleValue_1 ts next s (sem KValue (VTime x1)) (s1).
Proof.
  intros; subst. eapply ph_rule with (j := 636%Z); [vm_compute; reflexivity|apply allowed_always; vm_compute; reflexivity| |]; [rewrite <- (app_nil_r t1); eapply phs_cons; [eassumption|]; apply phs_nil|reflexivity].
Qed.
Lemma r_637 (a1 : list Z) (ts : list Lexer.token) (next : string) (s : state) : ts = Lexer.Token "bstring" (PText a1) :: [] ->
  ph n_SingleValue_1 ts next s (sem KValue (VString (string_of a1))) (s).
Proof.
  intros; subst. eapply ph_rule with (j := 637%Z); [vm_compute; reflexivity|apply allowed_always; vm_compute; reflexivity| |]; [apply phs_token; [vm_compute; reflexivity|]; apply phs_nil|reflexivity].
Qed.
Lemma r_638 (a1 : list Z) (ts : list Lexer.token) (next : string) (s : state) : ts = Lexer.Token "hstring" (PText a1) :: [] ->
  ph n_SingleValue_1 ts next s (sem KValue (VString (string_of a1))) (s).
Proof.
  intros; subst. eapply ph_rule with (j := 638%Z); [vm_compute; reflexivity|apply allowed_always; vm_compute; reflexivity| |]; [apply phs_token; [vm_compute; reflexivity|]; apply phs_nil|reflexivity].
Qed.
Lemma r_639 (a1 : list Z) (ts : list Lexer.token) (next : string) (s : state) : ts = Lexer.Token "cstring" (PText a1) :: [] ->
  ph n_SingleValue_1 ts next s (sem KValue (VString (string_of a1))) (s).
Proof.
  intros; subst. eapply ph_rule with (j := 639%Z); [vm_compute; reflexivity|apply allowed_always; vm_compute; reflexivity| |]; [apply phs_token; [vm_compute; reflexivity|]; apply phs_nil|reflexivity].
Qed.
Lemma r_640 (a1 : string) (ts : list Lexer.token) (next : string) (s : state) : ts = Lexer.Token "GENERIC_IDENTIFIER_UPPERCASE" (PName a1) :: [] ->
  ph n_SingleValue_1 ts next s (sem KValue (VString a1)) (s).
Proof.
  intros; subst. eapply ph_rule with (j := 640%Z); [vm_compute; reflexivity|apply allowed_always; vm_compute; reflexivity| |]; [apply phs_token; [vm_compute; reflexivity|]; apply phs_nil|reflexivity].
Qed.
Lemma r_641 (t1 : list Lexer.token) (x1 : denote KDefinedValue) (s1 : state) (ts : list Lexer.token) (next : string) (s : state) : ph n_DefinedValue_1 t1 next s (sem KDefinedValue x1) s1 -> ts = t1 ->
  ph n_SingleValue_1 ts next s (sem KValue (VDefined x1)) (s1).
Proof.
  intros; subst. eapply ph_rule with (j := 641%Z); [vm_compute; reflexivity|apply allowed_always; vm_compute; reflexivity| |]; [rewrite <- (app_nil_r t1); eapply phs_cons; [eassumption|]; apply phs_nil|reflexivity].
Qed.
Lemma r_642 (t1 : list Lexer.token) (x1 : denote KInt64) (s1 : state) (ts : list Lexer.token) (next : string) (s : state) : ph n_SignedNumber t1 next s (sem KInt64 x1) s1 -> ts = t1 ->
  ph n_SingleValue_1 ts next s (sem KValue (VInt x1)) (s1).
Proof.
  intros; subst. eapply ph_rule with (j := 642%Z); [vm_compute; reflexivity|apply allowed_always; vm_compute; reflexivity| |]; [rewrite <- (app_nil_r t1); eapply phs_cons; [eassumption|]; apply phs_nil|reflexivity].
Qed.
Lemma r_643 (a1 : list Z) (ts : list Lexer.token) (next : string) (s : state) : ts = Lexer.Token "realnumber" (PText a1) :: [] ->
  ph n_SingleValue_1 ts next s (sem KValue (VReal (string_of a1))) (s).
Proof.
  intros; subst. eapply ph_rule with (j := 643%Z); [vm_compute; reflexivity|apply allowed_always; vm_compute; reflexivity| |]; [apply phs_token; [vm_compute; reflexivity|]; apply phs_nil|reflexivity].
Qed.
Lemma r_644 (t1 : list Lexer.token) (x1 : denote KString) (s1 : state) (ts : list Lexer.token) (next : string) (s : state) : ph n_valuereference_1 t1 next s (sem KString x1) s1 -> ts = t1 ->
  ph n_DefinedValue_1 ts next s (sem KDefinedValue (x1)) (s1).
Proof.
  intros; subst. eapply ph_rule with (j := 644%Z); [vm_compute; reflexivity|apply allowed_always; vm_compute; reflexivity| |]; [rewrite <- (app_nil_r t1); eapply phs_cons; [eassumption|]; apply phs_nil|reflexivity].
Qed.
Lemma r_645 (t1 : list Lexer.token) (s1 : state) (ts : list Lexer.token) (next : string) (s : state) : ph n_ParameterizedValue t1 next s (sem KNone tt) s1 -> ts = t1 ->
  ph n_DefinedValue_1 ts next s (sem KDefinedValue (default_value (KDefinedValue))) (s1).
Proof.
  intros; subst. eapply ph_rule with (j := 645%Z); [vm_compute; reflexivity|apply allowed_always; vm_compute; reflexivity| |]; [rewrite <- (app_nil_r t1); eapply phs_cons; [eassumption|]; apply phs_nil|reflexivity].
Qed.
Lemma r_646 (a1 : string) (ts : list Lexer.token) (next : string) (s : state) : next <> "CLOSE_BRACE" -> next <> "LESS_THAN" -> ts = Lexer.Token "GENERIC_IDENTIFIER_LOWERCASE" (PName a1) :: [] ->
  ph n_valuereference_1 ts next s (sem KString (a1)) (s).
Proof.
  intros; subst. eapply ph_rule with (j := 646%Z); [vm_compute; reflexivity|apply allowed_before with (names := ["CLOSE_BRACE"; "LESS_THAN"]); [vm_compute; reflexivity|vm_compute; reflexivity|cbn; intuition congruence]| |]; [apply phs_token; [vm_compute; reflexivity|]; apply phs_nil|reflexivity].
Qed.
Lemma r_647 (t1 : list Lexer.token) (x1 : denote KString) (s1 : state) (ts : list Lexer.token) (next : string) (s : state) : ph n_typereference t1 next s (sem KString x1) s1 -> ts = t1 ->
  ph n_Reference_1 ts next s (sem KString (x1)) (s1).
Proof.
  intros; subst. eapply ph_rule with (j := 647%Z); [vm_compute; reflexivity|apply allowed_always; vm_compute; reflexivity| |]; [rewrite <- (app_nil_r t1); eapply phs_cons; [eassumption|]; apply phs_nil|reflexivity].
Qed.
Lemma r_648 (t1 : list Lexer.token) (x1 : denote KString) (s1 : state) (ts : list Lexer.token) (next : string) (s : state) : ph n_typereference t1 "OPEN_BRACE" s (sem KString x1) s1 -> ts = t1 ++ kw "OPEN_BRACE" :: kw "CLOSE_BRACE" :: [] ->
  ph n_Reference_1 ts next s (sem KString (x1)) (s1).
Proof.
  intros; subst. eapply ph_rule with (j := 648%Z); [vm_compute; reflexivity|apply allowed_always; vm_compute; reflexivity| |]; [eapply phs_cons; [eassumption|]; apply phs_token; [vm_compute; reflexivity|]; apply phs_token; [vm_compute; reflexivity|]; apply phs_nil|reflexivity].
Qed.
Lemma r_649 (t1 : list Lexer.token) (x1 : denote KString) (s1 : state) (ts : list Lexer.token) (next : string) (s : state) : ph n_valuereference_1 t1 next s (sem KString x1) s1 -> ts = t1 ->
  ph n_Reference_1 ts next s (sem KString (x1)) (s1).
Proof.
  intros; subst. eapply ph_rule with (j := 649%Z); [vm_compute; reflexivity|apply allowed_always; vm_compute; reflexivity| |]; [rewrite <- (app_nil_r t1); eapply phs_cons; [eassumption|]; apply phs_nil|reflexivity].
Qed.
Lemma r_650 (t1 : list Lexer.token) (x1 : denote KBuiltin) (s1 : state) (ts : list Lexer.token) (next : string) (s : state) : ph n_BuiltinType t1 next s (sem KBuiltin x1) s1 -> ts = t1 ->
  ph n_Type_2 ts next s (sem KType (x1)) (s1).
Proof.
  intros; subst. eapply ph_rule with (j := 650%Z); [vm_compute; reflexivity|apply allowed_always; vm_compute; reflexivity| |]; [rewrite <- (app_nil_r t1); eapply phs_cons; [eassumption|]; apply phs_nil|reflexivity].
Qed.
Lemma r_651 (t1 : list Lexer.token) (x1 : denote KType) (s1 : state) (ts : list Lexer.token) (next : string) (s : state) : ph n_ConstrainedType_2 t1 next s (sem KType x1) s1 -> ts = t1 ->
  ph n_Type_2 ts next s (sem KType (x1)) (s1).
Proof.
  intros; subst. eapply ph_rule with (j := 651%Z); [vm_compute; reflexivity|apply allowed_always; vm_compute; reflexivity| |]; [rewrite <- (app_nil_r t1); eapply phs_cons; [eassumption|]; apply phs_nil|reflexivity].
Qed.
Lemma r_652 (t1 : list Lexer.token) (x1 : denote KDefined) (s1 : state) (ts : list Lexer.token) (next : string) (s : state) : ph n_DefinedType_2 t1 next s (sem KDefined x1) s1 -> ts = t1 ->
  ph n_Type_2 ts next s (sem KType (TRef x1)) (s1).
Proof.
  intros; subst. eapply ph_rule with (j := 652%Z); [vm_compute; reflexivity|apply allowed_always; vm_compute; reflexivity| |]; [rewrite <- (app_nil_r t1); eapply phs_cons; [eassumption|]; apply phs_nil|reflexivity].
Qed.
Lemma r_653 (t1 : list Lexer.token) (s1 : state) (ts : list Lexer.token) (next : string) (s : state) : ph n_SelectionType t1 next s (sem KNone tt) s1 -> ts = t1 ->
  ph n_Type_2 ts next s (sem KType (default_value (KType))) (s1).
Proof.
  intros; subst. eapply ph_rule with (j := 653%Z); [vm_compute; reflexivity|apply allowed_always; vm_compute; reflexivity| |]; [rewrite <- (app_nil_r t1); eapply phs_cons; [eassumption|]; apply phs_nil|reflexivity].
Qed.
Lemma r_654 (t1 : list Lexer.token) (s1 : state) (ts : list Lexer.token) (next : string) (s : state) : ph n_TypeFromObject t1 next s (sem KNone tt) s1 -> ts = t1 ->
  ph n_Type_2 ts next s (sem KType (default_value (KType))) (s1).
Proof.
  intros; subst. eapply ph_rule with (j := 654%Z); [vm_compute; reflexivity|apply allowed_always; vm_compute; reflexivity| |]; [rewrite <- (app_nil_r t1); eapply phs_cons; [eassumption|]; apply phs_nil|reflexivity].
Qed.
Lemma r_655 (t1 : list Lexer.token) (x1 : denote KDefined) (s1 : state) (ts : list Lexer.token) (next : string) (s : state) : ph n_ExternalTypeReference t1 next s (sem KDefined x1) s1 -> ts = t1 ->
  ph n_DefinedType_2 ts next s (sem KDefined (x1)) (s1).
Proof.
  intros; subst. eapply ph_rule with (j := 655%Z); [vm_compute; reflexivity|apply allowed_always; vm_compute; reflexivity| |]; [rewrite <- (app_nil_r t1); eapply phs_cons; [eassumption|]; apply phs_nil|reflexivity].
Qed.
Lemma r_656 (t1 : list Lexer.token) (x1 : denote KString) (s1 : state) (ts : list Lexer.token) (next : string) (s : state) : ph n_typereference t1 next s (sem KString x1) s1 -> next <> "COLON" -> ts = t1 ->
  ph n_DefinedType_2 ts next s (sem KDefined (Defined None x1 [])) (s1).
Proof.
  intros; subst. eapply ph_rule with (j := 656%Z); [vm_compute; reflexivity|apply allowed_before with (names := ["COLON"]); [vm_compute; reflexivity|vm_compute; reflexivity|cbn; intuition congruence]| |]; [rewrite <- (app_nil_r t1); eapply phs_cons; [eassumption|]; apply phs_nil|reflexivity].
Qed.
Lemma r_657 (t1 : list Lexer.token) (x1 : denote KType) (t2 : list Lexer.token) (s1 : state) (s2 : state) (ts : list Lexer.token) (next : string) (s : state) : ph n_Type_2 t1 (nxt (t2) next) s (sem KType x1) s1 -> ph n_Constraint t2 next s1 (sem KNone tt) s2 -> ts = t1 ++ t2 ->
  ph n_ConstrainedType_2 ts next s (sem KType (x1)) (s2).
Proof.
  intros; subst. eapply ph_rule with (j := 657%Z); [vm_compute; reflexivity|apply allowed_always; vm_compute; reflexivity| |]; [eapply phs_cons; [eassumption|]; rewrite <- (app_nil_r t2); eapply phs_cons; [eassumption|]; apply phs_nil|reflexivity].
Qed.
Lemma r_658 (t1 : list Lexer.token) (x1 : denote KType) (s1 : state) (ts : list Lexer.token) (next : string) (s : state) : ph n_TypeWithConstraint t1 next s (sem KType x1) s1 -> ts = t1 ->
  ph n_ConstrainedType_2 ts next s (sem KType (x1)) (s1).
Proof.
  intros; subst. eapply ph_rule with (j := 658%Z); [vm_compute; reflexivity|apply allowed_always; vm_compute; reflexivity| |]; [rewrite <- (app_nil_r t1); eapply phs_cons; [eassumption|]; apply phs_nil|reflexivity].
Qed.
