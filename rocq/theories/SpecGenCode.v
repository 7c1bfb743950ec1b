(** Vocabulary for Python code generated from XSD: what a schema says about the
    content of a type, and what it means that a class has that content. *)
From Coq Require Import String Ascii List ZArith NArith Bool.
From Verif Require Import PyBase PyVal XsdSimple XsdComplex LibClasses PyLoad SpecNames.
Import ListNotations.
Open Scope string_scope.
Open Scope list_scope.

(** ** What the schema says *)

(** [o.name == v], for the objects of xsdspec. *)
Definition has (o : pyval) (name : string) (v : pyval) : Prop :=
  exists c xe fs, o = VObj c xe fs /\ assoc name fs = Some v.
Definition lacks (o : pyval) (name : string) : Prop := forall v, has o name v -> v = VNone.
Definition is_a (o : pyval) (cls : string) : Prop := exists xe fs, o = VObj (xs cls) xe fs.

(** An element or attribute of a type: its name, the qualified name of its type,
    how often it occurs, and whether it may be nil. *)
Record particle := mkPt {
  pt_attr : bool;
  pt_name : string;
  pt_type : string;
  pt_min : option Z;
  pt_max : occurs;
  pt_nil : bool }.

(** The same element without its occurrence and nillability. *)
Definition erased (p : particle) : particle := mkPt (pt_attr p) (pt_name p) (pt_type p) None ONone false.

Definition states_min (o : pyval) (m : option Z) : Prop :=
  match m with Some z => has o "minOccurs" (VInt z) | None => lacks o "minOccurs" end.
Definition states_max (o : pyval) (m : occurs) : Prop :=
  match m with OInt z => has o "maxOccurs" (VInt z) | OUnbounded => has o "maxOccurs" UNBOUNDED | ONone => lacks o "maxOccurs" end.
Definition states_nil (o : pyval) (b : bool) : Prop :=
  if b then has o "nillable" (VBool true) else lacks o "nillable" \/ has o "nillable" (VBool false).

(** [<xs:element name= type= minOccurs= maxOccurs= nillable=/>] *)
Definition states_element (e : pyval) (p : particle) : Prop :=
  is_a e "Element" /\ pt_attr p = false /\ has e "name" (VStr (pt_name p)) /\ has e "type" (VStr (pt_type p)) /\ pt_type p <> "" /\
  lacks e "ref" /\ lacks e "simpleType" /\ states_min e (pt_min p) /\ states_max e (pt_max p) /\ states_nil e (pt_nil p).
(** [<xs:attribute name= type= use=/>] *)
Definition states_attribute (a : pyval) (p : particle) : Prop :=
  is_a a "Attribute" /\ pt_attr p = true /\ has a "name" (VStr (pt_name p)) /\ has a "type" (VStr (pt_type p)) /\ pt_type p <> "" /\
  lacks a "ref" /\ pt_max p = ONone /\ pt_nil p = false /\
  ((pt_min p = Some 1%Z /\ has a "use" (VStr "required")) \/
   (pt_min p = Some 0%Z /\ (lacks a "use" \/ has a "use" (VStr "") \/ has a "use" (VStr "optional")))).

(** The content of a type: an indicator with elements, or none; and attributes. *)
Definition group_of (i : indicator) : string :=
  match i with ISequence => "sequence" | IAll => "all" | IChoice => "choice" end.
Definition states_content (ct : pyval) (i : option indicator) (elements attributes : list pyval) : Prop :=
  (match i with
   | Some i => (exists s b, has ct (group_of i) s /\ is_a s "Sequence" /\ has s "elements" (VList b elements)) /\
               forall j, j <> i -> lacks ct (group_of j)
   | None => elements = [] /\ forall j, lacks ct (group_of j)
   end) /\
  (exists b, has ct "attributes" (VList b attributes)) /\
  exists b, has ct "attributeGroups" (VList b []).

(** ** What the module has *)

(** [name] with its first letter in upper case *)
Definition capital (name : string) : string :=
  match name with "" => "" | String c t => String (upper_char c) t end.
(** The keywords of Python get an underscore. *)
Definition python_name (name : string) : string :=
  if str_in name
       ["False"; "None"; "True"; "and"; "as"; "assert"; "async"; "await"; "break"; "class"; "continue"; "def"; "del"; "elif";
        "else"; "except"; "finally"; "for"; "from"; "global"; "if"; "import"; "in"; "is"; "lambda"; "nonlocal"; "not"; "or";
        "pass"; "raise"; "return"; "try"; "while"; "with"; "yield"]
  then ("_" ++ name)%string else name.

(** Prefix and local part of a qualified name. *)
Definition qualified_name (q : string) (p : option string) (local : string) : Prop :=
  colon_free local /\
  match p with None => q = local | Some p => colon_free p /\ q = (p ++ ":" ++ local)%string end.

(** The class [name] of the module, used as the type of a field, is [t]. *)
Definition provides (m : module) (name : string) (t : ftype) : Prop :=
  match assoc name (ms_names (md_state m)) with
  | Some (MComplex _) => t = TComplex name
  | Some (MSimple s) => t = TSimple s
  | None => False
  end.
(** The class [name] of soapfish.xsd, used as the type of a field, is [t]. *)
Definition library_provides (name : string) (t : ftype) : Prop :=
  match lib_class name with
  | Some (MComplex _) => t = TComplex ("xsd." ++ name)%string
  | Some (MSimple s) => t = TSimple s
  | None => False
  end.
(** The qualified name [q] denotes the type [t]; [nss] are the prefixes of the
    namespace of XML Schema. *)
Definition denotes (m : module) (nss : list (option string)) (q : string) (t : ftype) : Prop :=
  exists p local, qualified_name q p local /\ local <> "" /\
    ((In p nss /\ library_provides (capital local) t) \/ (~ In p nss /\ provides m (capital local) t)).

Definition many (m : occurs) : bool :=
  match m with OUnbounded => true | OInt z => (1 <? z)%Z | ONone => false end.

(** The field [f] is what the particle says. *)
Definition mirrors (m : module) (nss : list (option string)) (p : particle) (f : field) : Prop :=
  tag_or_name f = pt_name p /\ (forall t, f_tag f = Some t -> t = pt_name p) /\ f_name f = python_name (pt_name p) /\ denotes m nss (pt_type p) (f_type f) /\
  f_nillable f = pt_nil p /\ f_default f = VNone /\ f_ns f = None /\
  if pt_attr p then f_kind f = KAttribute /\ f_min f = pt_min p
  else if many (pt_max p) then f_kind f = KList /\ f_tag f = Some (pt_name p) /\ f_min f = pt_min p /\ f_max f = pt_max p
  else f_kind f = KElement /\ f_min f = Some (match pt_min p with Some z => z | None => 1%Z end).

(** The class [name] of a module. *)
Definition module_class (m : module) (name : string) (d : classdef) : Prop :=
  e_cls (module_env 0 (md_state m)) name = Some d.

(** Names the generator uses itself. *)
Definition usable (ps : list particle) : Prop :=
  NoDup (map (fun p => python_name (pt_name p)) ps) /\
  forall p, In p ps -> ~ In (pt_name p) ["create"; "INDICATOR"; "INHERITANCE"].

Definition no_break (s : string) : Prop :=
  ~ In (ascii_of_nat 10) (list_ascii_of_string s) /\ ~ In (ascii_of_nat 13) (list_ascii_of_string s).
(** A text without quotes, backslashes and line breaks. *)
Definition plain_text (s : string) : Prop :=
  ~ In "'"%char (list_ascii_of_string s) /\ ~ In "\"%char (list_ascii_of_string s) /\ no_break s.
(** The same for a text between double quotes. *)
Definition plain_quoted (s : string) : Prop :=
  ~ In (ascii_of_nat 34) (list_ascii_of_string s) /\ ~ In "\"%char (list_ascii_of_string s) /\ no_break s.
(** The substitution group of an element of the document. *)
Definition keeps_group (e : pyval) (sg : option string) : Prop :=
  (lacks e "substitutionGroup" -> sg = None) /\
  forall v, has e "substitutionGroup" (VStr v) -> v <> "" -> plain_quoted v -> sg = Some v.
(** The same for raw literals: backslashes may be there, but not at the end. *)
Definition plain_pattern (s : string) : Prop :=
  ~ In "'"%char (list_ascii_of_string s) /\ no_break s /\
  last (list_ascii_of_string s) "x"%char <> "\"%char.
(** [<xs:pattern value=/>] *)
Definition states_pattern (r : pyval) (pat : option string) : Prop :=
  match pat with
  | Some s => exists v, has r "pattern" v /\ is_a v "Pattern" /\ has v "value" (VStr s)
  | None => lacks r "pattern"
  end.
(** A simple type without facets, and a numeric one. *)
Definition bare (s : stype) : Prop :=
  match s with
  | SString _ f => f = no_sfacets
  | SDecimal _ f | SInteger _ f => f = no_dfacets
  | _ => True
  end.
Definition numeric (t : stype) : bool := match t with SInteger _ _ | SDecimal _ _ => true | _ => false end.
