(** Reading a generated XSD: the definition of a class in it, the facets of an
    element, the types it refers to.  And the facets declared on a type. *)
From Coq Require Import String Ascii List ZArith NArith Bool.
From Verif Require Import PyBase PyRe Xml PyVal XsdSimple XsdComplex LibClasses Py2Xsd SpecXsd.
Import ListNotations.
Open Scope string_scope.
Open Scope list_scope.

(** ** Looking into a document *)
Definition xsd_tag (tag : string) (x : node) : bool :=
  match x with Elem t _ _ => String.eqb t (clark ns_xsd tag) | _ => false end.
Definition subnodes (x : node) : list node := match x with Elem _ _ k => k | _ => [] end.
Definition attr_of (name : string) (x : node) : option string := match x with Elem _ a _ => assoc name a | _ => None end.
(** The children with a tag of XML Schema. *)
Definition kids_tagged (tag : string) (x : node) : list node := filter (xsd_tag tag) (subnodes x).
Definition named (name : string) (x : node) : Prop := attr_of "name" x = Some name.

(** [x] declares an element called [name] in the named complex type [cname] of
    the document. *)
Definition declares (root : node) (cname name : string) (x : node) : Prop :=
  exists ct content, In ct (kids_tagged "complexType" root) /\ named cname ct /\
    In content (subnodes ct) /\ In x (kids_tagged "element" content) /\ named name x.

(** The facets in the restriction of an element: name and value. *)
Definition facets_of (x : node) : list (string * string) :=
  flat_map (fun st => flat_map (fun r => flat_map (fun y =>
      match y, attr_of "value" y with Elem t _ _, Some v => [(local_name t, v)] | _, _ => [] end)
    (subnodes r)) (kids_tagged "restriction" st)) (kids_tagged "simpleType" x).
(** The type an element refers to, directly or as the base of a restriction. *)
Definition refers_to (x : node) : list string :=
  match attr_of "type" x with
  | Some t => [t]
  | None => flat_map (fun st => flat_map (fun r => match attr_of "base" r with Some t => [t] | None => [] end)
                                  (kids_tagged "restriction" st)) (kids_tagged "simpleType" x)
  end.
(** The types a document defines. *)
Definition defines (root : node) : list string :=
  flat_map (fun x => match attr_of "name" x with Some n => [n] | None => [] end)
    (kids_tagged "simpleType" root ++ kids_tagged "complexType" root).

(** ** Declared facets *)
Definition opt_facet {A} (name : string) (v : A -> pyval) (o : option A) : list (string * pyval) :=
  match o with Some x => [(name, v x)] | None => [] end.
Definition str_facets (G : decls) (f : sfacets) : list (string * pyval) :=
  match sf_enum f with Some l => map (fun s => ("enumeration", VStr s)) l | None => [] end ++
  opt_facet "pattern" (fun p => VStr (dc_re G p)) (sf_pattern f) ++
  opt_facet "length" VInt (sf_length f) ++ opt_facet "minLength" VInt (sf_minLength f) ++
  opt_facet "maxLength" VInt (sf_maxLength f) ++ opt_facet "whiteSpace" VStr (sf_ws f).
Definition num_facets (G : decls) (f : dfacets) : list (string * pyval) :=
  match df_enum f with Some l => map (fun v => ("enumeration", v)) l | None => [] end ++
  opt_facet "pattern" (fun p => VStr (dc_re G p)) (df_pattern f) ++
  opt_facet "minInclusive" id (df_minIn f) ++ opt_facet "minExclusive" id (df_minEx f) ++
  opt_facet "maxExclusive" id (df_maxEx f) ++ opt_facet "maxInclusive" id (df_maxIn f) ++
  opt_facet "fractionDigits" VInt (df_fraction f) ++ opt_facet "totalDigits" VInt (df_total f).
(** An integer class has the bounds of its class unless others are given. *)
Definition declared (G : decls) (t : ftype) : list (string * pyval) :=
  match t with
  | TSimple (SString _ f) | TSimple (SLang f) => str_facets G f
  | TSimple (SDecimal _ f) => num_facets G f
  | TSimple (SInteger c u) => num_facets G (mk_integer c u)
  | _ => []
  end.

(** The declared facets that reach the document: enumerations of String and
    Decimal themselves, and the others except lengths, white space and whatever is
    zero or empty. *)
Definition carries_enumeration (t : ftype) : bool :=
  match t with
  | TSimple (SString c _) => String.eqb c "String"
  | TSimple (SDecimal c _) => String.eqb c "Decimal"
  | _ => false
  end.
Definition carried (t : ftype) (p : string * pyval) : bool :=
  if String.eqb (fst p) "enumeration" then carries_enumeration t
  else negb (str_in (fst p) ["length"; "minLength"; "maxLength"; "whiteSpace"]) && py_truthy (snd p).

(** ** Built-in types of XML Schema (part 2, section 3) *)
Definition xsd_builtins : list string :=
  ["string"; "boolean"; "decimal"; "float"; "double"; "duration"; "dateTime"; "time"; "date"; "gYearMonth"; "gYear";
   "gMonthDay"; "gDay"; "gMonth"; "hexBinary"; "base64Binary"; "anyURI"; "QName"; "NOTATION"; "normalizedString";
   "token"; "language"; "NMTOKEN"; "NMTOKENS"; "Name"; "NCName"; "ID"; "IDREF"; "IDREFS"; "ENTITY"; "ENTITIES";
   "integer"; "nonPositiveInteger"; "negativeInteger"; "long"; "int"; "short"; "byte"; "nonNegativeInteger";
   "unsignedLong"; "unsignedInt"; "unsignedShort"; "unsignedByte"; "positiveInteger"; "anySimpleType"; "anyType"].

(** A reference resolves: to a built-in, or to a definition in the document. *)
Definition resolves (root : node) (ref : string) : Prop :=
  (exists n, ref = ("xsd:" ++ n)%string /\ In n xsd_builtins) \/ (exists n, ref = ("sns:" ++ n)%string /\ In n (defines root)).

(** A type with a name in the generated document: a class of the schema, or a
    type of the library with a built-in of its own, but for the restricted
    integers and tokens. *)
Definition nameable (s : gschema) (t : ftype) : Prop :=
  match t with
  | TComplex c => In c (gs_complex s)
  | TSimple st => (builtin st <> None /\ unlisted st = false) \/
                  (builtin st = None /\ st <> SMaxOccurs /\ exists sc, In sc (gs_simple s) /\ sc_name sc = st_class st)
  end.
(** The schema itself defines a type of that name. *)
Definition defined_by (s : gschema) (name : string) : Prop :=
  In name (map (fun sc => type_name (sc_name sc)) (gs_simple s) ++ map type_name (gs_complex s)).

(** ** Schemas without a document *)
(** The schema describes the class [c]: as a type, or inside an element. *)
Definition describes (s : gschema) (c : string) : Prop :=
  In c (gs_complex s) \/ exists name el, In (name, el) (gs_elements s) /\ ge_class el = false /\ ge_type el = TComplex c.
