(** The XSD document that describes a schema, written down as a tree, and which
    schemas can be described. *)
From Coq Require Import String Ascii List ZArith NArith Bool.
From Verif Require Import PyBase PyRe Xml PyVal XsdSimple XsdComplex LibClasses Py2Xsd.
Import ListNotations.
Open Scope string_scope.
Open Scope list_scope.

Definition xel (tag : string) (attrs : list (string * string)) (kids : list node) : node :=
  Elem (clark ns_xsd tag) attrs kids.

(** ** Names of types *)

(** The name of a class with its first letter in lower case; QName stays. *)
Definition type_name (c : string) : string :=
  if String.eqb c "QName" then c else match c with "" => "" | String a t => String (lower_char a) t end.

(** The built-in type of XML Schema that a type of the library stands for. *)
Definition builtin (s : stype) : option string :=
  match s with
  | SString c _ =>
      assoc c [("String", "string"); ("AnyURI", "anyURI"); ("QName", "QName"); ("Base64Binary", "base64Binary");
               ("Duration", "duration"); ("NMTOKEN", "NMTOKEN"); ("NMTOKENS", "NMTOKENS")]
  | SBoolean => Some "boolean"
  | SDate => Some "date" | SDateTime => Some "dateTime" | STime => Some "time"
  | SDecimal c _ => assoc c [("Decimal", "decimal"); ("Double", "double"); ("Float", "float")]
  | SInteger c _ =>
      Some match c with
      | CInteger => "integer" | CNonNegativeInteger => "nonNegativeInteger" | CNonPositiveInteger => "nonPositiveInteger"
      | CNegativeInteger => "negativeInteger" | CPositiveInteger => "positiveInteger" | CLong => "long" | CInt => "int"
      | CShort => "short" | CByte => "byte" | CUnsignedLong => "unsignedLong" | CUnsignedInt => "unsignedInt"
      | CUnsignedShort => "unsignedShort" | CUnsignedByte => "unsignedByte"
      end
  | SLang _ | SMaxOccurs | SAbstract => None
  end.

(** The types for which the generator uses another name: the restricted integers
    and tokens. *)
Definition unlisted (s : stype) : bool :=
  match s with
  | SInteger c _ => match c with CNonNegativeInteger | CNonPositiveInteger | CNegativeInteger | CPositiveInteger => true | _ => false end
  | SString c _ => String.eqb c "NMTOKEN" || String.eqb c "NMTOKENS"
  | _ => false
  end.

(** How a type is referred to: built-in types with prefix xsd, others with the
    prefix of the schema's own namespace. *)
Definition type_ref (t : ftype) : string :=
  match t with
  | TSimple SMaxOccurs => "xsd:maxOccurs"
  | TSimple s => match builtin s with
                 | Some n => if unlisted s then ("sns:" ++ type_name (st_class s))%string else ("xsd:" ++ n)%string
                 | None => ("sns:" ++ type_name (st_class s))%string
                 end
  | TComplex c => ("sns:" ++ type_name c)%string
  end.

(** ** Elements *)
Definition facet (name value : string) : node := xel name [("value", value)] [].
Definition value_facet (O : oracle) (name : string) (v : option pyval) : list node :=
  match v with Some x => if py_truthy x then [facet name (py_str O x)] else [] | None => [] end.
Definition int_facet (name : string) (v : option Z) : list node :=
  match v with Some z => if (z =? 0)%Z then [] else [facet name (dec_Z z)] | None => [] end.
Definition strings (l : list pyval) : list string :=
  flat_map (fun v => match v with VStr s => [s] | _ => [] end) l.

Definition describe_facets (O : oracle) (G : decls) (t : ftype) : list node :=
  let d := tf_decimal t in
  (if st_is_direct t then map (facet "enumeration") (strings (tf_enum t)) else []) ++
  match tf_pattern t with Some p => if String.eqb (dc_re G p) "" then [] else [facet "pattern" (dc_re G p)] | None => [] end ++
  value_facet O "minInclusive" (df_minIn d) ++ value_facet O "minExclusive" (df_minEx d) ++
  value_facet O "maxExclusive" (df_maxEx d) ++ value_facet O "maxInclusive" (df_maxIn d) ++
  int_facet "fractionDigits" (df_fraction d) ++ int_facet "totalDigits" (df_total d).

Definition occurs_attr (m : occurs) : list (string * string) :=
  match m with
  | ONone => []
  | OInt z => [("maxOccurs", dec_Z z)]
  | OUnbounded => [("maxOccurs", "unbounded")]
  end.
Definition min_attr (m : option Z) : list (string * string) :=
  match m with None => [] | Some z => [("minOccurs", dec_Z z)] end.
Definition yes_no (b : bool) : string := if b then "true" else "false".

Definition describe_element (O : oracle) (G : decls) (c : string) (f : field) : node :=
  xel "element"
    ([("name", tag_or_name f)] ++
     (if dc_class G c f then [("type", type_ref (f_type f))] else []) ++
     min_attr (f_min f) ++
     (match f_kind f with KList => occurs_attr (f_max f) | _ => [] end) ++
     [("nillable", yes_no (f_nillable f))])
    (if dc_class G c f then []
     else [xel "simpleType" [] [xel "restriction" [("base", type_ref (f_type f))] (describe_facets O G (f_type f))]]).

Definition indicator_tag (i : indicator) : string :=
  match i with ISequence => "sequence" | IChoice => "choice" | IAll => "all" end.
(** The elements of a class: not its attributes, and not what it refers to. *)
Definition describe_class (O : oracle) (G : decls) (named : bool) (c : string) (d : classdef) : node :=
  xel "complexType" (if named then [("name", type_name c)] else [])
    [xel (indicator_tag (cd_ind d)) [] (map (describe_element O G c) (filter is_plain (cd_fields d)))].

Definition describe_simple (st : stclass) : node :=
  xel "simpleType" [("name", type_name (sc_name st))]
    [xel "restriction" [("base", type_ref (TSimple (sc_base st)))]
       (map (facet "enumeration") (strings (sc_enum st)) ++
        match sc_fraction st, sc_pattern st with
        | VStr (String a s), _ => [facet "fractionDigits" (String a s)]
        | _, VStr (String a s) => [facet "pattern" (String a s)]
        | _, _ => []
        end)].

Definition location_attr (l : option string) : list (string * string) :=
  match l with None | Some "" => [] | Some l => [("schemaLocation", l)] end.
Definition class_of (E : env) (c : string) : classdef :=
  match e_cls E c with Some d => d | None => mkClass [] CKPlain [] ISequence None end.
Definition describe_toplevel (O : oracle) (E : env) (G : decls) (p : string * gelement) : node :=
  let el := snd p in
  xel "element"
    ([("name", fst p)] ++
     (if ge_class el then [("type", type_ref (ge_type el))] else []) ++
     match ge_subst el with None => [] | Some v => [("substitutionGroup", if String.prefix "sns:" v then v else ("sns:" ++ v)%string)] end)
    (if ge_class el then []
     else match ge_type el with TComplex c => [describe_class O G false c (class_of E c)] | TSimple _ => [] end).

Definition describe_schema (O : oracle) (E : env) (G : decls) (s : gschema) : node :=
  xel "schema" [("targetNamespace", gs_tns s); ("elementFormDefault", gs_efd s)]
    (map (fun i => xel "import" (location_attr (snd i) ++ [("namespace", fst i)]) []) (gs_imports s) ++
     map (fun i => xel "include" (location_attr i) []) (gs_includes s) ++
     map describe_simple (gs_simple s) ++
     map (fun c => describe_class O G true c (class_of E c)) (gs_complex s) ++
     map (describe_toplevel O E G) (gs_elements s)).

(** ** Which schemas can be described *)
Definition text (s : string) : Prop := xml_text_ok s = true.
Definition proper_name (s : string) : Prop := s <> "" /\ text s.
Definition texts (l : list pyval) : Prop := Forall (fun v => exists s, v = VStr s /\ text s) l.
Definition value_text (O : oracle) (v : option pyval) : Prop := forall x, v = Some x -> text (py_str O x).

Definition type_describable (t : ftype) : Prop :=
  match t with TSimple s => proper_name (st_class s) | TComplex c => proper_name c end.
Definition facets_describable (O : oracle) (G : decls) (t : ftype) : Prop :=
  let d := tf_decimal t in
  (st_is_direct t = true -> texts (tf_enum t)) /\
  (forall p, tf_pattern t = Some p -> text (dc_re G p)) /\
  value_text O (df_minIn d) /\ value_text O (df_minEx d) /\ value_text O (df_maxEx d) /\ value_text O (df_maxIn d).
Definition field_describable (O : oracle) (G : decls) (c : string) (f : field) : Prop :=
  text (tag_or_name f) /\ type_describable (f_type f) /\
  (dc_class G c f = false -> facets_describable O G (f_type f)).
(** A class without XML attributes. *)
Definition class_describable (O : oracle) (E : env) (G : decls) (c : string) : Prop :=
  exists d, e_cls E c = Some d /\ proper_name c /\
    Forall (fun f => is_attr f = false) (cd_fields d) /\
    forall f, In f (cd_fields d) -> is_plain f = true -> field_describable O G c f.
(** Class attributes given as text. *)
Definition absent_or_text (v : pyval) : Prop := v = VNone \/ exists s, v = VStr s /\ text s.
Definition simple_describable (st : stclass) : Prop :=
  proper_name (sc_name st) /\ type_describable (TSimple (sc_base st)) /\ texts (sc_enum st) /\
  absent_or_text (sc_fraction st) /\ absent_or_text (sc_pattern st).
Definition toplevel_describable (O : oracle) (E : env) (G : decls) (p : string * gelement) : Prop :=
  let el := snd p in
  text (fst p) /\ (forall v, ge_subst el = Some v -> text v) /\
  if ge_class el then type_describable (ge_type el)
  else exists c, ge_type el = TComplex c /\ class_describable O E G c.
Definition schema_describable (O : oracle) (E : env) (G : decls) (s : gschema) : Prop :=
  text (gs_tns s) /\ (gs_efd s = "qualified" \/ gs_efd s = "unqualified") /\
  Forall (fun i => text (fst i) /\ forall l, snd i = Some l -> text l) (gs_imports s) /\
  Forall (fun i => exists l, i = Some l /\ proper_name l) (gs_includes s) /\
  Forall simple_describable (gs_simple s) /\
  Forall (class_describable O E G) (gs_complex s) /\
  Forall (toplevel_describable O E G) (gs_elements s).
