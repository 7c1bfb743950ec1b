(** When is an XML document valid against an XSD document?  A part of XML Schema
    (Parts 1 and 2), written against the recommendation and not against the code.
    What is left out makes fewer documents valid: other built-in types, other
    facets, attributes, xsi:type, exponents, years of more than four digits.
    Whether the schema itself is well formed is not checked, except that a name
    that is looked up must be defined once. *)
From Coq Require Import String Ascii List ZArith NArith Bool QArith Permutation.
From Verif Require Import PyBase PyRe Xml PyVal LibClasses Py2Xsd SpecDate SpecRound.
Import ListNotations.
Open Scope string_scope.
Open Scope list_scope.
Open Scope Z_scope.

(** ** Texts of the built-in types (Part 2, section 3) *)

Definition sign_text (l : list ascii) (sg : Z) : Prop :=
  (l = [] /\ sg = 1) \/ (l = ["+"%char] /\ sg = 1) \/ (l = ["-"%char] /\ sg = -1).
Definition digits (l : list ascii) : Prop := forallb is_digit l = true.
Definition digits_Z (l : list ascii) : Z := Z.of_N (digits_value l).

(** [s] denotes the integer [z]. *)
Definition whole (s : string) (z : Z) : Prop :=
  exists sl sg ds, to_l s = sl ++ ds /\ sign_text sl sg /\ digits ds /\ ds <> [] /\ z = sg * digits_Z ds.
(** [s] denotes the number [m / 10^k], written with [k] digits after the point. *)
Definition decimal (s : string) (m : Z) (k : nat) : Prop :=
  exists sl sg ip dot fp, to_l s = sl ++ ip ++ dot ++ fp /\ sign_text sl sg /\ digits ip /\ digits fp /\
    (dot = [] /\ fp = [] \/ dot = ["."%char]) /\ ip ++ fp <> [] /\ k = length fp /\ m = sg * digits_Z (ip ++ fp).
Definition tenths (m : Z) (k : nat) : Q := (m # Z.to_pos (10 ^ Z.of_nat k)).
Definition number (s : string) (q : Q) : Prop := exists m k, decimal s m k /\ (q == tenths m k)%Q.

Definition integer_types : list (string * (option Z * option Z)) :=
  [("integer", (None, None));
   ("nonPositiveInteger", (None, Some 0)); ("negativeInteger", (None, Some (-1)));
   ("nonNegativeInteger", (Some 0, None)); ("positiveInteger", (Some 1, None));
   ("long", (Some (- 2 ^ 63), Some (2 ^ 63 - 1))); ("int", (Some (- 2 ^ 31), Some (2 ^ 31 - 1)));
   ("short", (Some (- 2 ^ 15), Some (2 ^ 15 - 1))); ("byte", (Some (- 2 ^ 7), Some (2 ^ 7 - 1)));
   ("unsignedLong", (Some 0, Some (2 ^ 64 - 1))); ("unsignedInt", (Some 0, Some (2 ^ 32 - 1)));
   ("unsignedShort", (Some 0, Some (2 ^ 16 - 1))); ("unsignedByte", (Some 0, Some (2 ^ 8 - 1)))]%string.
Definition within (lo hi : option Z) (z : Z) : Prop :=
  (forall b, lo = Some b -> b <= z) /\ (forall b, hi = Some b -> z <= b).

(** Z, or an offset of at most 14 hours, or nothing. *)
Definition zone_text (l : list ascii) : Prop :=
  l = [] \/ l = ["Z"%char] \/ exists m, tz_suffix l m /\ - 840 <= m <= 840.
Definition day_text (l : list ascii) : Prop :=
  exists ys m1 m2 d1 d2, l = ys ++ ["-"; m1; m2; "-"; d1; d2]%char /\ length ys = 4%nat /\
    digits ys /\ digits [m1; m2; d1; d2] /\ calendar_date (digits_Z ys) (digits_Z [m1; m2]) (digits_Z [d1; d2]).
Definition clock_text (l : list ascii) : Prop :=
  exists h1 h2 m1 m2 s1 s2 fr, l = [h1; h2; ":"; m1; m2; ":"; s1; s2]%char ++ fr /\
    digits [h1; h2; m1; m2; s1; s2] /\ digits_Z [h1; h2] < 24 /\ digits_Z [m1; m2] < 60 /\ digits_Z [s1; s2] < 60 /\
    (fr = [] \/ exists ds, fr = "."%char :: ds /\ digits ds /\ ds <> []).

Inductive lexical : string -> string -> Prop :=
| lx_string s : lexical "string" s
| lx_uri s : lexical "anyURI" s
| lx_boolean s : In s ["true"; "false"; "1"; "0"]%string -> lexical "boolean" s
| lx_decimal n s q : In n ["decimal"; "double"; "float"]%string -> number s q -> lexical n s
| lx_integer n lo hi s z : In (n, (lo, hi)) integer_types -> whole s z -> within lo hi z -> lexical n s
| lx_date s day zone : to_l s = day ++ zone -> day_text day -> zone_text zone -> lexical "date" s
| lx_time s clock zone : to_l s = clock ++ zone -> clock_text clock -> zone_text zone -> lexical "time" s
| lx_dateTime s day clock zone : to_l s = day ++ "T"%char :: clock ++ zone -> day_text day -> clock_text clock ->
    zone_text zone -> lexical "dateTime" s.

(** ** Facets (Part 2, section 4.3) *)

Definition facet_is (name value : string) (x : node) : Prop :=
  el_tag x = clark ns_xsd name /\ assoc "value" (el_attrs x) = Some value.
Definition known_facets : list string :=
  ["enumeration"; "pattern"; "minInclusive"; "minExclusive"; "maxInclusive"; "maxExclusive"; "fractionDigits"; "totalDigits"]%string.
Definition bound (P : Q -> Q -> Prop) (s b : string) : Prop := exists x y, number s x /\ number b y /\ P x y.
(** [mean p] is the regular expression with the text [p]. *)
Definition meets (mean : string -> re) (fs : list node) (s : string) : Prop :=
  (forall x, In x fs -> exists n v, In n known_facets /\ facet_is n v x) /\
  ((forall v x, In x fs -> ~ facet_is "enumeration" v x) \/ exists x, In x fs /\ facet_is "enumeration" s x) /\
  ((forall v x, In x fs -> ~ facet_is "pattern" v x) \/
   exists p x, In x fs /\ facet_is "pattern" p x /\ full_match (mean p) (to_l s)) /\
  (forall b x, In x fs -> facet_is "minInclusive" b x -> bound (fun v y => y <= v)%Q s b) /\
  (forall b x, In x fs -> facet_is "minExclusive" b x -> bound (fun v y => y < v)%Q s b) /\
  (forall b x, In x fs -> facet_is "maxInclusive" b x -> bound (fun v y => v <= y)%Q s b) /\
  (forall b x, In x fs -> facet_is "maxExclusive" b x -> bound (fun v y => v < y)%Q s b) /\
  (forall t x, In x fs -> facet_is "fractionDigits" t x ->
     exists n m k, whole t n /\ number s (tenths m k) /\ Z.of_nat k <= n) /\
  (forall t x, In x fs -> facet_is "totalDigits" t x ->
     exists n m k, whole t n /\ number s (tenths m k) /\ Z.of_nat k <= n /\ Z.abs m < 10 ^ n).

(** ** Structures (Part 1) *)
Section Validity.
  Variable mean : string -> re.
  Variable D : xdocument.
  Definition root := xd_root D.
  Definition own_namespace (ns : string) : Prop := assoc "targetNamespace" (el_attrs root) = Some ns.

  (** The prefixed name [q] is the name [n] of the namespace [ns]. *)
  Definition names (q ns n : string) : Prop :=
    exists p, q = (p ++ ":" ++ n)%string /\ assoc p (xd_prefixes D) = Some ns.

  Definition defines (kinds : list string) (n : string) (x : node) : Prop :=
    (exists k, In k kinds /\ el_tag x = clark ns_xsd k) /\ assoc "name" (el_attrs x) = Some n.
  Definition the_one (P : node -> Prop) (l : list node) (x : node) : Prop :=
    exists l1 l2, l = l1 ++ x :: l2 /\ P x /\ forall y, In y (l1 ++ l2) -> ~ P y.
  Definition global_type (n : string) (t : node) : Prop := the_one (defines ["simpleType"; "complexType"]%string n) (el_kids root) t.
  Definition global_element (n : string) (t : node) : Prop := the_one (defines ["element"]%string n) (el_kids root) t.

  (** *** Simple types *)
  Definition restricts (t : node) (base : string) (fs : list node) : Prop :=
    exists a a', t = Elem (clark ns_xsd "simpleType") a [Elem (clark ns_xsd "restriction") a' fs] /\ assoc "base" a' = Some base.
  Inductive text_of : string -> string -> Prop :=
  | tx_builtin q n s : names q ns_xsd n -> lexical n s -> text_of q s
  | tx_own q ns n t base fs s : own_namespace ns -> names q ns n -> global_type n t -> restricts t base fs ->
      text_of base s -> meets mean fs s -> text_of q s.
  (** The text [s] fits the element declaration [d]. *)
  Definition text_fits (d : node) (s : string) : Prop :=
    (exists q, assoc "type" (el_attrs d) = Some q /\ text_of q s) \/
    (exists t base fs, assoc "type" (el_attrs d) = None /\ el_kids d = [t] /\ restricts t base fs /\ text_of base s /\ meets mean fs s).
  Definition only_text (k : list node) (s : string) : Prop := (k = [] /\ s = ""%string) \/ k = [Text s].

  (** *** Complex types *)
  Definition complex_of (d ct : node) : Prop :=
    el_tag ct = clark ns_xsd "complexType" /\
    ((exists q ns n, assoc "type" (el_attrs d) = Some q /\ own_namespace ns /\ names q ns n /\ global_type n ct) \/
     (assoc "type" (el_attrs d) = None /\ el_kids d = [ct])).
  (** The model group of a complex type. *)
  Definition group_of (ct : node) (kind : string) (ps : list node) : Prop :=
    exists a, el_kids ct = [Elem (clark ns_xsd kind) a ps].
  (** The name of an element in an instance: elementFormDefault. *)
  Definition local_tag (n tag : string) : Prop :=
    if match assoc "elementFormDefault" (el_attrs root) with Some f => String.eqb f "qualified" | None => false end
    then exists ns, own_namespace ns /\ tag = clark ns n else tag = n.
  Definition at_least (d : node) (k : Z) : Prop :=
    match assoc "minOccurs" (el_attrs d) with None => 1 <= k | Some t => exists z, whole t z /\ z <= k end.
  Definition at_most (d : node) (k : Z) : Prop :=
    match assoc "maxOccurs" (el_attrs d) with
    | None => k <= 1
    | Some t => t = "unbounded"%string \/ exists z, whole t z /\ k <= z
    end.
  Definition at_most_once (d : node) : Prop :=
    assoc "maxOccurs" (el_attrs d) = None \/ exists t z, assoc "maxOccurs" (el_attrs d) = Some t /\ whole t z /\ z <= 1.
  (** The elements among [k]; the rest is white space. *)
  Definition elements (k k' : list node) : Prop :=
    k' = filter (fun y => negb (is_text y)) k /\ forall s, In (Text s) k -> blank s.

  (** [fits d x]: the content of [x] fits the declaration [d]. *)
  Inductive fits : node -> node -> Prop :=
  | ft_nil d tag : assoc "nillable" (el_attrs d) = Some "true"%string -> fits d (Elem tag [(xsi_nil, "true"%string)] [])
  | ft_text d tag k s : only_text k s -> text_fits d s -> fits d (Elem tag [] k)
  | ft_children d tag ct k k' : complex_of d ct -> elements k k' -> content ct k' -> fits d (Elem tag [] k)
  with content : node -> list node -> Prop :=
  | co_sequence ct ps runs k : group_of ct "sequence" ps -> Forall2 occurs ps runs -> k = concat runs -> content ct k
  | co_choice ct ps p k : group_of ct "choice" ps -> In p ps -> occurs p k -> content ct k
  | co_all ct ps runs k : group_of ct "all" ps -> Forall at_most_once ps -> Forall2 occurs ps runs ->
      Permutation (concat runs) k -> content ct k
  with occurs : node -> list node -> Prop :=
  | oc_run d n k : el_tag d = clark ns_xsd "element" -> assoc "name" (el_attrs d) = Some n ->
      at_least d (Z.of_nat (length k)) -> at_most d (Z.of_nat (length k)) ->
      Forall (fun x => local_tag n (el_tag x) /\ fits d x) k -> occurs d k.

  Definition valid (x : node) : Prop :=
    exists ns n d, own_namespace ns /\ global_element n d /\ el_tag x = clark ns n /\ fits d x.
End Validity.
