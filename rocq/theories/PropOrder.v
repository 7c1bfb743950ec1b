(** C57, C58: the order of schemas and of types in generated code. *)
From Coq Require Import String Ascii List ZArith NArith Bool Permutation.
From Verif Require Import PyBase PyVal GenOrder SpecOrder PfOrder PfOrder2.
Import ListNotations.
Open Scope nat_scope.
Open Scope string_scope.
Open Scope list_scope.

(** Every schema is emitted once. *)
Theorem C57_once : forall l, Permutation (reorder_schemas l) l.
Proof. exact reorder_perm. Qed.
Print Assumptions C57_once.
(** Imports come first if the schemas imported import nothing themselves. *)
Theorem C57_first_partial :
  forall l, NoDup (map sd_target l) -> (forall s t, In s l -> In t l -> imports s t -> sd_imports t = []) ->
  imports_first (reorder_schemas l).
Proof. exact schemas_sorted. Qed.
Print Assumptions C57_first_partial.
(** Schemas that are in order are left alone. *)
Theorem C57_kept : forall l, all_imported l -> reorder_schemas l = l.
Proof. exact schemas_kept. Qed.
Print Assumptions C57_kept.
(** Not so otherwise: of three schemas, each importing the next, the first is
    emitted before the second, although there is an order that does. *)
Theorem C57_chain_refuted :
  forall a b c, NoDup [sd_target a; sd_target b; sd_target c] ->
  sd_imports a = [sd_target b] -> sd_imports b = [sd_target c] -> sd_imports c = [] ->
  reorder_schemas [a; b; c] = [c; a; b] /\ ~ imports_first [c; a; b] /\ imports_first [c; b; a].
Proof. exact chain_refuted. Qed.
Print Assumptions C57_chain_refuted.

Definition sd_a := mkSD (Some "urn:a") [Some "urn:b"; Some "urn:c"] VNone.
Definition sd_b := mkSD (Some "urn:b") [] VNone.
Definition sd_c := mkSD (Some "urn:c") [] VNone.
Example C57_nonvacuous :
  (forall s t, In s [sd_a; sd_b; sd_c] -> In t [sd_a; sd_b; sd_c] -> imports s t -> sd_imports t = []) /\
  reorder_schemas [sd_a; sd_b; sd_c] = [sd_b; sd_c; sd_a] /\ ~ imports_first [sd_a; sd_b; sd_c].
Proof.
  split; [|split].
  - intros s t [<- | [<- | [<- | []]]] [<- | [<- | [<- | []]]]; unfold imports; cbn; intuition discriminate.
  - reflexivity.
  - intros H. apply (H [] sd_a [sd_b; sd_c] sd_b eq_refl); [now left|now left].
Qed.

(** Every type is emitted once, whatever list.sort does with an inconsistent
    comparison. *)
Theorem C58_once : forall sort n l l', list_sort sort -> reorder_types sort n l = Ok l' -> Permutation l' l.
Proof. exact reorder_once. Qed.
Print Assumptions C58_once.
(** Base types come first if bases are types of the same schema, written without
    a prefix. *)
Theorem C58_local_partial :
  forall sort n l, list_sort sort -> well_formed l -> local_bases n l ->
  exists l', reorder_types sort n l = Ok l' /\ Permutation l' l /\ bases_first l'.
Proof. exact reorder_local. Qed.
Print Assumptions C58_local_partial.
(** Where all bases have prefixes, the types that have bases are not reordered
    among each other: whichever comes first does so in the code. *)
Theorem C58_prefixed_refuted :
  forall sort n l1 t l2 u l3, list_sort sort -> 0 < n ->
  let l := l1 ++ t :: l2 ++ u :: l3 in
  well_formed l -> (forall t b, In t l -> based_on t b -> In colon (list_ascii_of_string b)) ->
  ~ plain_type t -> ~ plain_type u ->
  exists l', reorder_types sort n l = Ok l' /\ exists m1 m2 m3, l' = m1 ++ t :: m2 ++ u :: m3.
Proof. exact derived_wrong. Qed.
Print Assumptions C58_prefixed_refuted.
(** A base without a prefix that is not a type of the schema is a KeyError. *)
Theorem C58_unknown_refuted :
  forall sort n t u b, list_sort sort -> 2 <= n -> well_formed [t; u] ->
  plain_type u -> based_on t b -> ~ In colon (list_ascii_of_string b) -> b <> xt_name t -> b <> xt_name u ->
  reorder_types sort n [t; u] = Err KeyError /\ reorder_types sort n [u; t] = Err KeyError.
Proof. exact reorder_unknown. Qed.
Print Assumptions C58_unknown_refuted.

(** There are such sorts. *)
Example C58_sorts : list_sort insertion_sort.
Proof. exact insertion_sorts. Qed.
Definition xt_base := mkXT "Base" None VNone.
Definition xt_mid := mkXT "Mid" (Some (Some "Base", None)) VNone.
Definition xt_top := mkXT "Top" (Some (None, Some "Mid")) VNone.
Definition xt_other := mkXT "Other" None VNone.
Definition xts := [xt_top; xt_other; xt_mid; xt_base].
Example C58_nonvacuous :
  well_formed xts /\ local_bases 4 xts /\ reorder_types insertion_sort 4 xts = Ok [xt_other; xt_base; xt_mid; xt_top].
Proof.
  split; [|split; [|reflexivity]].
  - split; [repeat constructor; cbn; intuition discriminate|].
    intros t [<- | [<- | [<- | [<- | []]]]]; (split; [discriminate|]); cbn.
    + right. exists "Mid". split; [now right|discriminate].
    + now left.
    + right. exists "Base". split; [left; now exists None|discriminate].
    + now left.
  - exists (fun s => if String.eqb s "Top" then 2 else if String.eqb s "Mid" then 1 else 0). split.
    + intros t [<- | [<- | [<- | [<- | []]]]]; cbn; repeat constructor.
    + intros t b [<- | [<- | [<- | [<- | []]]]] [(r & [=]) | [=]]; subst; (split; [cbn; intuition discriminate|]).
      * exists xt_mid. cbn. auto.
      * exists xt_base. cbn. auto 6.
Qed.
Definition px_mid := mkXT "Mid" (Some (Some "tns:Base", None)) VNone.
Definition px_top := mkXT "Top" (Some (Some "tns:Mid", None)) VNone.
Example C58_refuted_nonvacuous :
  well_formed [px_top; px_mid; xt_base] /\
  reorder_types insertion_sort 4 [px_top; px_mid; xt_base] = Ok [xt_base; px_top; px_mid].
Proof.
  split; [|reflexivity]. split; [repeat constructor; cbn; intuition discriminate|].
  intros t [<- | [<- | [<- | []]]]; (split; [discriminate|]); cbn.
  + right. exists "tns:Mid". split; [left; now exists None|discriminate].
  + right. exists "tns:Base". split; [left; now exists None|discriminate].
  + now left.
Qed.
