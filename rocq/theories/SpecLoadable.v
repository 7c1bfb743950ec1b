(** Vocabulary for modules that can be imported: what an XSD document says as a
    whole, and which documents are such that the generated module works. *)
From Coq Require Import String Ascii List ZArith NArith Bool.
From Verif Require Import PyBase PyVal XsdSimple XsdComplex PyLoad SpecGenCode SpecUrl SpecService.
Import ListNotations.
Open Scope nat_scope.
Open Scope string_scope.
Open Scope list_scope.

(** ** What a document says *)

(** A simple type: a restriction of another one with an enumeration and facets,
    given by name and value. *)
Record simple_plan := mkSp { sp_name : string; sp_base : string; sp_enums : list string; sp_facets : list (string * string) }.
(** The content of a complex type, see [states_content]. *)
Record content_plan := mkCp { co_ind : option indicator; co_attrs : list particle; co_elems : list particle }.
(** A complex type: with a base it is an extension. *)
Record complex_plan := mkXp { cp_name : string; cp_base : option string; cp_content : content_plan }.
(** An element at the top: of a named type, or with a type of its own. *)
Inductive top_content := TopNamed (q : string) | TopOwn (c : content_plan).
Record top_plan := mkTp { tp_name : string; tp_content : top_content; tp_group : option string }.
Record schema_plan := mkPlan {
  sc_tns : string;
  sc_efd : string;
  sc_simples : list simple_plan;
  sc_complexes : list complex_plan;
  sc_tops : list top_plan }.

Definition states_facet (r : pyval) (name : string) (v : option string) : Prop :=
  match v with
  | Some s => exists o, has r name o /\ is_a o (if String.eqb name "pattern" then "Pattern" else "RestrictionValue") /\ has o "value" (VStr s)
  | None => lacks r name
  end.
Definition states_simple (st : pyval) (p : simple_plan) : Prop :=
  has st "name" (VStr (sp_name p)) /\ lacks st "list" /\
  exists r b es, has st "restriction" r /\ is_a r "Restriction" /\ has r "base" (VStr (sp_base p)) /\
    has r "enumerations" (VList b es) /\ Forall2 (fun e s => has e "value" (VStr s)) es (sp_enums p) /\
    forall n, In n ["pattern"; "minInclusive"; "minExclusive"; "maxInclusive"; "maxExclusive"] -> states_facet r n (assoc n (sp_facets p)).
Definition states_plan (o : pyval) (c : content_plan) : Prop :=
  exists els attrs, states_content o (co_ind c) els attrs /\
    Forall2 states_element els (co_elems c) /\ Forall2 states_attribute attrs (co_attrs c).
Definition states_complex (ct : pyval) (p : complex_plan) : Prop :=
  has ct "name" (VStr (cp_name p)) /\
  match cp_base p with
  | None => lacks ct "complexContent" /\ states_plan ct (cp_content p)
  | Some q => exists cc ex, has ct "complexContent" cc /\ is_a cc "ComplexContent" /\ lacks cc "restriction" /\
      has cc "extension" ex /\ is_a ex "Extension" /\ has ex "base" (VStr q) /\ states_plan ex (cp_content p)
  end.
Definition states_top (e : pyval) (p : top_plan) : Prop :=
  is_a e "Element" /\ has e "name" (VStr (tp_name p)) /\ lacks e "ref" /\
  match tp_group p with Some v => has e "substitutionGroup" (VStr v) /\ v <> "" | None => lacks e "substitutionGroup" end /\
  match tp_content p with
  | TopNamed q => has e "type" (VStr q) /\ q <> "" /\ lacks e "complexType"
  | TopOwn c => lacks e "type" /\ exists ct, has e "complexType" ct /\ is_a ct "XSDComplexType" /\ lacks ct "complexContent" /\ states_plan ct c
  end.
(** A document with these types and elements and nothing else. *)
Definition states_schema (x : pyval) (s : schema_plan) : Prop :=
  has x "targetNamespace" (VStr (sc_tns s)) /\ has x "elementFormDefault" (VStr (sc_efd s)) /\
  (exists b l, has x "simpleTypes" (VList b l) /\ Forall2 states_simple l (sc_simples s)) /\
  (exists b l, has x "complexTypes" (VList b l) /\ Forall2 states_complex l (sc_complexes s)) /\
  (exists b l, has x "elements" (VList b l) /\ Forall2 states_top l (sc_tops s)) /\
  (exists b, has x "groups" (VList b [])) /\ exists b, has x "attributeGroups" (VList b []).

(** ** Which documents make modules that can be imported *)

(** The classes of the module. *)
Definition simple_names (s : schema_plan) : list string := map (fun p => capital (sp_name p)) (sc_simples s).
Definition complex_names (s : schema_plan) : list string := map (fun p => capital (cp_name p)) (sc_complexes s).
Definition own_tops (s : schema_plan) : list complex_plan :=
  flat_map (fun t => match tp_content t with TopOwn c => [mkXp (tp_name t) None c] | TopNamed _ => [] end) (sc_tops s).
Definition own_names (s : schema_plan) : list string := map (fun p => capital (cp_name p)) (own_tops s).

(** [q] is a type the library has; anyType cannot be used for values. *)
Definition library_type (nss : list (option string)) (q : string) : Prop :=
  exists p local t, qualified_name q p local /\ In p nss /\ lib_class (capital local) = Some (MSimple t) /\ t <> SAbstract.
(** [q] is the type of the document whose class is called [n]. *)
Definition own_type (nss : list (option string)) (q n : string) : Prop :=
  exists p local, qualified_name q p local /\ ~ In p nss /\ local <> "" /\ n = capital local.

(** Letters, digits and underscores. *)
Definition word (s : string) : Prop :=
  (exists c t, s = String c t /\ letter c) /\ forall c, holds s c -> letter c \/ digit c.

(** An element or attribute of the class [c].  [rank] tells how deep classes are
    nested: a class that must be there once is of a lower rank. *)
Definition particle_works (nss : list (option string)) (s : schema_plan) (rank : string -> nat) (c : string) (p : particle) : Prop :=
  word (pt_name p) /\
  (pt_attr p = true \/ many (pt_max p) = true \/ pt_min p = None \/ pt_min p = Some 0%Z \/ pt_min p = Some 1%Z) /\
  (library_type nss (pt_type p) \/
   exists n, own_type nss (pt_type p) n /\
     (In n (simple_names s) \/ (In n (complex_names s) /\ (many (pt_max p) = false -> rank n < rank c)))).
Definition content_works (nss : list (option string)) (s : schema_plan) (rank : string -> nat) (c : string) (o : content_plan) : Prop :=
  let ps := co_attrs o ++ co_elems o in
  usable ps /\ (forall p, In p (co_elems o) -> pt_name p <> "cls") /\ forall p, In p ps -> particle_works nss s rank c p.
Definition simple_works (nss : list (option string)) (before : list simple_plan) (p : simple_plan) : Prop :=
  (library_type nss (sp_base p) \/ exists n, own_type nss (sp_base p) n /\ In n (map (fun b => capital (sp_name b)) before)) /\
  Forall plain_text (sp_enums p) /\ Forall (fun f => plain_pattern (snd f)) (sp_facets p).
(** [rank] also bounds the depth: there must be room on the stack. *)
Definition complex_works (nss : list (option string)) (limit : nat) (s : schema_plan) (rank : string -> nat) (p : complex_plan) : Prop :=
  content_works nss s rank (capital (cp_name p)) (cp_content p) /\ rank (capital (cp_name p)) < limit /\
  forall q, cp_base p = Some q -> exists n, own_type nss q n /\ In n (complex_names s) /\ rank n <= rank (capital (cp_name p)).
(** The types can be put in an order: either bases are written without prefix and
    there is no cycle, or they are written with a prefix and a base that has
    itself a base comes before its extensions.  [elsewhere] are the classes of
    other documents. *)
Definition bases_ordered (nss : list (option string)) (n : nat) (elsewhere : list string) (l : list complex_plan) : Prop :=
  (exists depth : string -> nat,
     (forall p, In p l -> S (depth (cp_name p)) < n) /\
     forall p q, In p l -> cp_base p = Some q -> ~ holds q ":"%char /\
       exists b, In b l /\ cp_name b = q /\ depth q < depth (cp_name p)) \/
  (0 < n /\
   forall l1 p l2 q, l = l1 ++ p :: l2 -> cp_base p = Some q -> holds q ":"%char /\
     ((exists b, (In b l1 \/ (In b l /\ cp_base b = None)) /\ own_type nss q (capital (cp_name b))) \/
      exists c, own_type nss q c /\ In c elsewhere)).
(** A document together with others. *)
Definition joined (others : list schema_plan) (s : schema_plan) : schema_plan :=
  mkPlan (sc_tns s) (sc_efd s) (flat_map sc_simples others ++ sc_simples s) (flat_map sc_complexes others ++ sc_complexes s)
    (flat_map sc_tops others ++ sc_tops s).
(** A document that may use the types of [others] as well. *)
Definition document_works (nss : list (option string)) (n limit : nat) (others : list schema_plan) (s : schema_plan) (rank : string -> nat) : Prop :=
  let all := joined others s in
  NoDup (simple_names s ++ complex_names s ++ own_names s) /\
  Forall usable_name (simple_names s ++ complex_names s ++ own_names s) /\
  plain_text (sc_tns s) /\ plain_text (sc_efd s) /\ Forall (fun t => plain_text (tp_name t) /\ forall v, tp_group t = Some v -> plain_quoted v) (sc_tops s) /\
  (forall l1 p l2, sc_simples s = l1 ++ p :: l2 -> simple_works nss (flat_map sc_simples others ++ l1) p) /\
  bases_ordered nss n (flat_map complex_names others) (sc_complexes s) /\ Forall (complex_works nss limit all rank) (sc_complexes s ++ own_tops s) /\
  (forall t q, In t (sc_tops s) -> tp_content t = TopNamed q ->
     library_type nss q \/ exists n, own_type nss q n /\ In n (simple_names all ++ complex_names all)).
(** A document on its own. *)
Definition schema_works (nss : list (option string)) (n limit : nat) (s : schema_plan) (rank : string -> nat) : Prop :=
  document_works nss n limit [] s rank.
