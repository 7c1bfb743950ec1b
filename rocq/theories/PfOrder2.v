(** The orders of generated code: a sorter, and the results. *)
From Coq Require Import String Ascii List ZArith NArith Bool Lia Permutation.
From Verif Require Import PyBase GenOrder SpecOrder PfBase PfOrder.
Import ListNotations.
Open Scope nat_scope.
Open Scope string_scope.
Open Scope list_scope.

(** ** Insertion sort is a list.sort *)
Fixpoint insert (lt : xsd_type -> xsd_type -> res bool) (x : xsd_type) (l : list xsd_type) : res (list xsd_type) :=
  match l with
  | [] => Ok [x]
  | y :: t => b <- lt y x ;; if b then r <- insert lt x t ;; Ok (y :: r) else Ok (x :: y :: t)
  end.
Fixpoint insertion_sort (lt : xsd_type -> xsd_type -> res bool) (l : list xsd_type) : res (list xsd_type) :=
  match l with [] => Ok [] | x :: t => r <- insertion_sort lt t ;; insert lt x r end.

Lemma insert_perm lt x l : forall l', insert lt x l = Ok l' -> Permutation l' (x :: l).
Proof.
  induction l as [|y t IH]; cbn [insert]; intros l' H; [injection H as <-; reflexivity|].
  apply bind_ok in H as (b & _ & H). destruct b; [|injection H as <-; reflexivity].
  apply bind_ok in H as (r & Hr & H). injection H as <-. rewrite (IH r Hr). apply perm_swap.
Qed.
Lemma insertion_perm lt l : forall l', insertion_sort lt l = Ok l' -> Permutation l' l.
Proof.
  induction l as [|x t IH]; cbn [insertion_sort]; intros l' H; [injection H as <-; reflexivity|].
  apply bind_ok in H as (r & Hr & H). rewrite (insert_perm _ _ _ _ H). now rewrite (IH r Hr).
Qed.
Lemma sorted_cons {A} (le : A -> A -> bool) x l : (forall y, In y l -> le x y = true) -> sorted le l -> sorted le (x :: l).
Proof.
  intros H S [|z l1] a l2 b l3 E; injection E as -> E.
  - apply H. rewrite E. apply in_elt.
  - apply (S l1 a l2 b l3 E).
Qed.
Section I.
  Variable lt : xsd_type -> xsd_type -> res bool.
  Variable le : xsd_type -> xsd_type -> bool.
  Variable U : list xsd_type.
  Hypothesis Lt : forall x y, In x U -> In y U -> lt x y = Ok (negb (le y x)).
  Hypothesis Tot : forall x y, In x U -> In y U -> le x y = true \/ le y x = true.
  Hypothesis Tr : forall x y z, In x U -> In y U -> In z U -> le x y = true -> le y z = true -> le x z = true.
  Lemma insert_spec x l : In x U -> incl l U -> sorted le l ->
    exists l', insert lt x l = Ok l' /\ sorted le l' /\
      forall z, In z U -> filter (fun y => le z y && le y z) l' = filter (fun y => le z y && le y z) (x :: l).
  Proof.
    intros Ix. induction l as [|y t IH]; intros Il S; cbn [insert].
    - exists [x]. split; [reflexivity|]. split; [|auto]. intros [|? [|]] ? l2 ? ? [=]; destruct l2; discriminate.
    - assert (Iy : In y U) by (apply Il; now left). assert (It : incl t U) by (intros a Ia; apply Il; now right).
      rewrite Lt by assumption. cbn [bind]. destruct (le x y) eqn:L; cbn [negb].
      + exists (x :: y :: t). split; [reflexivity|]. split; [|auto]. apply sorted_cons; [|exact S].
        intros z [<- | Iz]; [exact L|]. apply (Tr x y z); auto. apply (sorted_head le y t S z Iz).
      + destruct (IH It (sorted_tail _ _ _ S)) as (l' & Hi & So & F). rewrite Hi. cbn [bind]. exists (y :: l'). split; [reflexivity|].
        assert (Lyx : le y x = true) by (destruct (Tot x y) as [H|H]; auto; congruence).
        split.
        * apply sorted_cons; [|exact So]. intros z Iz. apply (Permutation_in _ (insert_perm _ _ _ _ Hi)) in Iz as [<- | Iz]; [exact Lyx|].
          apply (sorted_head le y t S z Iz).
        * intros z Iz. cbn [filter]. rewrite (F z Iz). cbn [filter].
          destruct (le z y && le y z) eqn:Ezy, (le z x && le x z) eqn:Ezx; try reflexivity.
          exfalso. apply andb_prop in Ezy as [E1 E2], Ezx as [E3 E4]. rewrite (Tr x z y) in L; auto. discriminate.
  Qed.
  Lemma insertion_spec l : incl l U -> exists l', insertion_sort lt l = Ok l' /\ sorted le l' /\
    forall z, In z U -> filter (fun y => le z y && le y z) l' = filter (fun y => le z y && le y z) l.
  Proof.
    induction l as [|x t IH]; intros Il; cbn [insertion_sort].
    - exists []. split; [reflexivity|]. split; [intros [|] ? ? ? ? [=]|auto].
    - destruct IH as (r & Hr & So & F); [intros a Ia; apply Il; now right|]. rewrite Hr. cbn [bind].
      destruct (insert_spec x r) as (l' & Hi & So' & F'); [apply Il; now left| |exact So|].
      { intros a Ia. apply Il. right. now apply (Permutation_in _ (insertion_perm _ _ _ Hr)). }
      exists l'. split; [exact Hi|]. split; [exact So'|]. intros z Iz. rewrite (F' z Iz). cbn [filter]. now rewrite (F z Iz).
  Qed.
End I.
Lemma insertion_sorts : list_sort insertion_sort.
Proof.
  split; [exact insertion_perm|..].
  - intros lt l le Lt Tot Tr. destruct (insertion_spec lt le l Lt Tot Tr l) as (l' & H1 & H2 & H3); [intros a Ia; exact Ia|].
    exists l'. split; [exact H1|]. split; [exact H2|exact H3].
  - intros lt l e. induction l as [|x [|y t] IH]; cbn [length]; intros L N H; try lia.
    inversion N as [|? ? Nx N']; subst. change (insertion_sort lt (x :: y :: t)) with (r <- insertion_sort lt (y :: t) ;; insert lt x r).
    destruct t as [|z t].
    + cbn [insertion_sort insert bind]. rewrite H; [reflexivity|cbn; auto|cbn; auto|]. intros ->. apply Nx. now left.
    + rewrite IH; [reflexivity|cbn; lia|exact N'|]. intros a b Ia Ib. apply H; now right.
Qed.

(** ** Results *)
Lemma reorder_once sort n l l' : list_sort sort -> reorder_types sort n l = Ok l' -> Permutation l' l.
Proof. intros LS H. apply bind_ok in H as (w & _ & H). eapply ls_perm; eauto. Qed.
Lemma weights_ok l : well_formed l -> exists w, make_weights 0 None [] l = Ok w.
Proof.
  intros W. destruct (make_weights_spec l 0 None [] (proj1 W)) as (w & H & _); [|eauto].
  intros u I. destruct (proj2 W u I) as [_ [P | (b & B & _)]]; eauto.
Qed.
Lemma reorder_local sort n l : list_sort sort -> well_formed l -> local_bases n l ->
  exists l', reorder_types sort n l = Ok l' /\ Permutation l' l /\ bases_first l'.
Proof.
  intros LS W (depth & Hd & Hb). destruct (weights_ok l W) as (w & Hw). unfold reorder_types. rewrite Hw. cbn [bind].
  eapply local_sorted; eauto.
Qed.
Lemma filter_named {A} (p q : A -> bool) l : (forall x, p x = q x) -> filter p l = filter q l.
Proof. intros H. apply filter_ext. exact H. Qed.
Lemma reorder_prefixed sort n l : list_sort sort -> 0 < n -> well_formed l ->
  (forall t b, In t l -> based_on t b -> In colon (list_ascii_of_string b)) ->
  exists plain derived, reorder_types sort n l = Ok (plain ++ derived) /\
    (forall t, In t plain <-> In t l /\ plain_type t) /\ (forall t, In t derived <-> In t l /\ ~ plain_type t) /\
    forall l1 t l2 u l3, l = l1 ++ t :: l2 ++ u :: l3 -> ~ plain_type t -> ~ plain_type u ->
      exists d1 d2 d3, derived = d1 ++ t :: d2 ++ u :: d3.
Proof.
  intros LS Hn W Hp. destruct (weights_ok l W) as (w & Hw). unfold reorder_types. rewrite Hw. cbn [bind].
  exists (filter is_plain l), (filter (fun t => negb (is_plain t)) l).
  split; [eapply prefixed_sorted; eauto|]. split; [|split].
  - intros t. rewrite filter_In, is_plain_spec. tauto.
  - intros t. rewrite filter_In, negb_true_iff, <- not_true_iff_false, is_plain_spec. tauto.
  - intros l1 t l2 u l3 -> Nt Nu.
    assert (F : forall x, ~ plain_type x -> negb (is_plain x) = true) by (intros x H; apply negb_true_iff, not_true_iff_false; now rewrite is_plain_spec).
    rewrite filter_app. cbn [filter]. rewrite (F t Nt). rewrite filter_app. cbn [filter]. rewrite (F u Nu). eauto.
Qed.
Lemma reorder_unknown sort n t u b : list_sort sort -> 2 <= n -> well_formed [t; u] ->
  plain_type u -> based_on t b -> ~ In colon (list_ascii_of_string b) -> b <> xt_name t -> b <> xt_name u ->
  reorder_types sort n [t; u] = Err KeyError /\ reorder_types sort n [u; t] = Err KeyError.
Proof.
  intros LS Hn WF Pu B Nc Nbt Nbu.
  assert (WF' : well_formed [u; t]).
  { destruct WF as [N W]. split; [cbn in *; inversion N as [|? ? H1 H2]; subst; repeat constructor; cbn in *; intuition congruence|].
    intros v Iv. apply W. cbn in *. tauto. }
  destruct n as [|[|k]]; try lia.
  assert (Nt : xt_name t <> "") by (apply (proj2 WF t); cbn; auto). assert (Nu : xt_name u <> "") by (apply (proj2 WF u); cbn; auto).
  assert (Nb : b <> "").
  { destruct (proj2 WF t) as [_ [P | (b' & B' & Nb')]]; [cbn; auto|destruct B as [(r & B) | B]; congruence|].
    apply based_base in B, B'. congruence. }
  assert (Bt := based_base t b B). assert (Bu : base_of u = "") by (unfold base_of; now rewrite Pu).
  assert (Cb : char_in colon b = false) by (destruct (char_in colon b) eqn:C; [apply char_in_spec in C; contradiction|reflexivity]).
  apply String.eqb_neq in Nbt, Nbu, Nb, Nt, Nu. rewrite String.eqb_sym in Nbt, Nbu.
  assert (W : forall w pt pu, weight w (xt_name t) = Ok (pt, b) -> weight w (xt_name u) = Ok (pu, "") -> weight w b = Err KeyError ->
     cmp (S (S k)) w (xt_name t) (xt_name u) = Err KeyError /\ cmp (S (S k)) w (xt_name u) (xt_name t) = Err KeyError).
  { intros w pt pu At Au Ab. split; cbn [cmp]; rewrite At, Au; cbn [bind fst snd]; rewrite Nb; cbn [andb String.eqb]; rewrite Cb; change (char_in colon "") with false.
    - rewrite Nbu, Nt. cbn [orb]. rewrite Ab. reflexivity.
    - rewrite Nt, Nbu. cbn [orb]. rewrite Au, Ab. reflexivity. }
  assert (M : forall x y, well_formed [x; y] -> (x = t /\ y = u \/ x = u /\ y = t) -> reorder_types sort (S (S k)) [x; y] = Err KeyError).
  { intros x y WFxy Hxy. destruct (weights_ok _ WFxy) as (w & Hw). unfold reorder_types. rewrite Hw. cbn [bind].
    pose proof (weight_of _ WFxy w Hw [] x [y] eq_refl) as W1. pose proof (weight_of _ WFxy w Hw [x] y [] eq_refl) as W2.
    assert (Wb : weight w b = Err KeyError).
    { destruct (make_weights_spec [x; y] 0 None [] (proj1 WFxy)) as (w' & Hw' & _ & Ho).
      { intros v I. destruct (proj2 WFxy v I) as [_ [P | (b' & B' & _)]]; eauto. }
      rewrite Hw in Hw'. injection Hw' as <-. unfold weight. rewrite Ho; [reflexivity|].
      apply String.eqb_neq in Nbt, Nbu. destruct Hxy as [[-> ->] | [-> ->]]; cbn; intuition congruence. }
    apply (ls_compares _ LS); [cbn; lia|apply (NoDup_map_inv xt_name), WFxy|].
    assert (C : cmp (S (S k)) w (xt_name t) (xt_name u) = Err KeyError /\ cmp (S (S k)) w (xt_name u) (xt_name t) = Err KeyError).
    { destruct Hxy as [[-> ->] | [-> ->]]; rewrite Bt in *; rewrite Bu in *; eapply W; eauto. }
    intros v v' Iv Iv' Nv. unfold type_lt.
    assert (H : v = t /\ v' = u \/ v = u /\ v' = t) by (destruct Hxy as [[-> ->] | [-> ->]]; cbn in Iv, Iv'; intuition congruence).
    destruct H as [[-> ->] | [-> ->]]; [rewrite (proj1 C)|rewrite (proj2 C)]; reflexivity. }
  split; apply M; auto.
Qed.

Lemma chain_refuted a b c : NoDup [sd_target a; sd_target b; sd_target c] ->
  sd_imports a = [sd_target b] -> sd_imports b = [sd_target c] -> sd_imports c = [] ->
  reorder_schemas [a; b; c] = [c; a; b] /\ ~ imports_first [c; a; b] /\ imports_first [c; b; a].
Proof.
  intros N Ha Hb Hc. inversion N as [|? ? H1 N1]; subst. inversion N1 as [|? ? H2 N2]; subst. cbn in H1, H2.
  split; [now apply chain_wrong|]. split.
  - intros H. apply (H [c] a [b] b eq_refl); [now left|]. unfold imports. rewrite Ha. now left.
  - intros [|x [|y [|z l1]]] s l2 t E I M; injection E; intros; subst; unfold imports in M; try rewrite Ha in M; try rewrite Hb in M; try rewrite Hc in M;
      cbn in *; intuition (subst; try congruence). destruct l1; discriminate.
Qed.
Lemma derived_wrong sort n l1 t l2 u l3 : list_sort sort -> 0 < n ->
  let l := l1 ++ t :: l2 ++ u :: l3 in
  well_formed l -> (forall t b, In t l -> based_on t b -> In colon (list_ascii_of_string b)) ->
  ~ plain_type t -> ~ plain_type u ->
  exists l', reorder_types sort n l = Ok l' /\ exists m1 m2 m3, l' = m1 ++ t :: m2 ++ u :: m3.
Proof.
  intros LS Hn l W Hp Nt Nu. destruct (reorder_prefixed sort n l LS Hn W Hp) as (p & d & E & _ & _ & K).
  exists (p ++ d). split; [exact E|]. destruct (K l1 t l2 u l3 eq_refl Nt Nu) as (d1 & d2 & d3 & ->).
  exists (p ++ d1), d2, d3. now rewrite <- app_assoc.
Qed.
