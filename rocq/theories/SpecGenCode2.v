(** Vocabulary for types that refer to attribute groups. *)
From Coq Require Import String Ascii List ZArith NArith Bool.
From Verif Require Import PyBase PyVal XsdSimple XsdComplex LibClasses PyLoad SpecNames SpecGenCode.
Import ListNotations.
Open Scope string_scope.
Open Scope list_scope.

(** [<xs:attributeGroup ref=/>], with prefix [fst q] and local name [snd q]. *)
Definition states_reference (g : pyval) (q : option string * string) : Prop :=
  exists s, is_a g "AttributeGroupReference" /\ has g "ref" (VStr s) /\ qualified_name s (fst q) (snd q).
(** The content of a type with references to attribute groups. *)
Definition states_content_refs (ct : pyval) (i : option indicator) (elements attributes references : list pyval) : Prop :=
  (match i with
   | Some i => (exists s b, has ct (group_of i) s /\ is_a s "Sequence" /\ has s "elements" (VList b elements)) /\
               forall j, j <> i -> lacks ct (group_of j)
   | None => elements = [] /\ forall j, lacks ct (group_of j)
   end) /\
  (exists b, has ct "attributes" (VList b attributes)) /\
  exists b, has ct "attributeGroups" (VList b references).
(** The field [f] is a reference to the class of the group. *)
Definition refers (m : module) (nss : list (option string)) (q : option string * string) (f : field) : Prop :=
  f_kind f = KRef /\ f_name f = snd q /\ f_tag f = None /\ f_min f = Some 1%Z /\ f_nillable f = false /\ f_default f = VNone /\ f_ns f = None /\
  snd q <> "" /\
  ((In (fst q) nss /\ library_provides (capital (snd q)) (f_type f)) \/ (~ In (fst q) nss /\ provides m (capital (snd q)) (f_type f))).
(** The names of the fields are different from each other and from those the
    generator uses itself. *)
Definition usable_refs (ps : list particle) (qs : list (option string * string)) : Prop :=
  NoDup (map (fun p => python_name (pt_name p)) ps ++ map snd qs) /\
  (forall p, In p ps -> ~ In (pt_name p) ["create"; "INDICATOR"; "INHERITANCE"]) /\
  forall q, In q qs -> ~ In (snd q) ["create"; "INDICATOR"; "INHERITANCE"].
(** The names of the fields in the body of the class. *)
Definition field_names (aps eps : list particle) (qs : list (option string * string)) : list string :=
  map (fun p => python_name (pt_name p)) aps ++ map snd qs ++ map (fun p => python_name (pt_name p)) eps.
