(** Proofs about class definitions. *)
From Coq Require Import String Ascii List ZArith NArith Bool Lia Permutation Sorted.
From Verif Require Import PyBase PyVal XsdSimple XsdComplex PySort XsdMeta SpecMeta PfBase.
Import ListNotations.
Open Scope nat_scope.
Open Scope string_scope.
Open Scope list_scope.

(** ** Names in alphabetical order *)
Lemma ascii_compare_nat a b : Ascii.compare a b = N.compare (N_of_ascii a) (N_of_ascii b).
Proof. reflexivity. Qed.
Lemma scompare_trans a : forall b c, String.compare a b = Lt -> String.compare b c = Lt -> String.compare a c = Lt.
Proof.
  induction a as [|x a IH]; intros [|y b] [|z c]; cbn; try discriminate; auto.
  rewrite !ascii_compare_nat.
  destruct (N.compare_spec (N_of_ascii x) (N_of_ascii y)) as [E1|L1|L1];
    destruct (N.compare_spec (N_of_ascii y) (N_of_ascii z)) as [E2|L2|L2]; try discriminate; intros H1 H2.
  - rewrite E1, E2, N.compare_refl. eauto.
  - rewrite E1. apply N.compare_lt_iff in L2. now rewrite L2.
  - rewrite <- E2. apply N.compare_lt_iff in L1. now rewrite L1.
  - assert (L : (N_of_ascii x < N_of_ascii z)%N) by lia. apply N.compare_lt_iff in L. now rewrite L.
Qed.
Lemma scompare_refl a : String.compare a a = Eq.
Proof. induction a as [|x a IH]; cbn; [reflexivity|]. now rewrite ascii_compare_nat, N.compare_refl. Qed.
Definition name_lt (a b : string) : Prop := String.compare a b = Lt.
Lemma insert_name_in s l x : In x (insert_name s l) <-> x = s \/ In x l.
Proof.
  induction l as [|t r IH]; cbn; [intuition|]. destruct (String.compare s t) eqn:C; cbn.
  - apply String.compare_eq_iff in C as ->. intuition.
  - intuition.
  - rewrite IH. intuition.
Qed.
Lemma insert_name_sorted s l : StronglySorted name_lt l -> StronglySorted name_lt (insert_name s l).
Proof.
  induction 1 as [|t r Hr IH Ht]; cbn; [repeat constructor|]. destruct (String.compare s t) eqn:C.
  - now constructor.
  - constructor; [now constructor|]. constructor; [exact C|]. eapply Forall_impl; [|exact Ht]. intros a. now apply scompare_trans.
  - constructor; [exact IH|]. apply Forall_forall. intros x Hx. apply insert_name_in in Hx as [-> | Hx].
    + unfold name_lt. rewrite String.compare_antisym, C. reflexivity.
    + rewrite Forall_forall in Ht. now apply Ht.
Qed.
Lemma sorted_nodup l : StronglySorted name_lt l -> NoDup l.
Proof.
  induction 1 as [|t r Hr IH Ht]; constructor; auto. intros I. rewrite Forall_forall in Ht. specialize (Ht t I).
  unfold name_lt in Ht. rewrite scompare_refl in Ht. discriminate.
Qed.
Lemma dir_nodup cs mro : NoDup (dir cs mro).
Proof.
  apply sorted_nodup. unfold dir. induction (flat_map _ mro) as [|s l IH]; cbn; [constructor|now apply insert_name_sorted].
Qed.
Lemma dir_in cs mro s : In s (dir cs mro) <-> exists c, In c mro /\ In s (map fst (dict_of cs c)).
Proof.
  rewrite <- in_flat_map. unfold dir. induction (flat_map _ mro) as [|t l IH]; cbn; [reflexivity|].
  rewrite insert_name_in, IH. intuition.
Qed.
Lemma assoc_some_in {A} k (l : list (string * A)) : In k (map fst l) <-> exists v, assoc k l = Some v.
Proof.
  destruct (assoc k l) as [v|] eqn:E.
  - split; [eauto|]. intros _. apply assoc_in in E. apply (in_map fst) in E. exact E.
  - apply assoc_none in E. split; [tauto|]. intros [v [=]].
Qed.
Lemma mro_get_dir cs mro s v : mro_get cs mro s = Some v -> In s (dir cs mro).
Proof.
  intros H. apply dir_in. induction mro as [|c t IH]; [discriminate|]. cbn in H.
  destruct (assoc s (dict_of cs c)) eqn:E.
  - exists c. split; [now left|]. apply assoc_some_in. eauto.
  - destruct (IH H) as (c' & I & H'). exists c'. split; [now right|exact H'].
Qed.

(** ** Sorting numbers *)
Lemma ordered_unique l : forall l', ordered (fun d : nat => d) l -> ordered (fun d => d) l' -> Permutation l l' -> l = l'.
Proof.
  induction l as [|x l IH]; intros l' O O' P.
  - apply Permutation_nil in P. now subst.
  - destruct l' as [|y l']; [symmetry in P; now apply Permutation_nil_cons in P|].
    assert (x = y).
    { inversion_clear O as [|? ? _ Hx]. inversion_clear O' as [|? ? _ Hy]. rewrite Forall_forall in Hx, Hy.
      assert (I : In x (y :: l')) by (apply (Permutation_in _ P); now left).
      assert (J : In y (x :: l)) by (apply (Permutation_in _ (Permutation_sym P)); now left).
      destruct I as [I|I]; [now symmetry|]. destruct J as [J|J]; [exact J|]. specialize (Hx y J). specialize (Hy x I). lia. }
    subst y. f_equal. apply IH; [now inversion O|now inversion O'|]. eapply Permutation_cons_inv; exact P.
Qed.
Lemma ordered_filter p l : ordered (fun d : nat => d) l -> ordered (fun d => d) (filter p l).
Proof.
  induction 1 as [|x l Hl IH Hx]; cbn; [constructor|]. destruct (p x); [|exact IH]. constructor; [exact IH|].
  rewrite Forall_forall in *. intros y Hy. apply filter_In in Hy. apply Hx. tauto.
Qed.
Lemma ordered_strict l : ordered (fun d : nat => d) l -> NoDup l -> StronglySorted lt l.
Proof.
  induction 1 as [|x l Hl IH Hx]; intros N; constructor; inversion_clear N as [|? ? Nx Nl]; auto.
  rewrite Forall_forall in *. intros y Hy. specialize (Hx y Hy). destruct (Nat.eq_dec x y) as [->|]; [contradiction|lia].
Qed.
Lemma by_creation_perm l : Permutation (by_creation l) l.
Proof. apply sort_perm. Qed.
Lemma by_creation_ordered l : ordered (fun d => d) (by_creation l).
Proof. apply sort_ordered. Qed.

(** ** The store *)
Lemma set_name_length store : forall d n, length (set_name store d n) = length store.
Proof. induction store; intros [|d] n; cbn; auto. Qed.
Lemma set_name_same store : forall d n, d < length store -> desc (set_name store d n) d = rename n (desc store d).
Proof. unfold desc. induction store; intros [|d] n H; cbn in *; try lia; auto. apply IHstore. lia. Qed.
Lemma set_name_other store : forall d d' n, d <> d' -> desc (set_name store d n) d' = desc store d'.
Proof. unfold desc. induction store; intros [|d] [|d'] n H; cbn in *; try lia; auto. Qed.
Lemma set_name_kind store d n d' : f_kind (desc (set_name store d n) d') = f_kind (desc store d').
Proof.
  destruct (Nat.eq_dec d d') as [<-|Hd]; [|now rewrite set_name_other].
  destruct (Nat.lt_ge_cases d (length store)) as [L|L]; [now rewrite set_name_same|].
  unfold desc. rewrite !nth_overflow; [reflexivity|lia|rewrite set_name_length; lia].
Qed.

(** ** The loop *)
Section L.
  Variable cs : list namespace.
  Variable mro : list nat.
  Definition raw (names : list string) : list nat :=
    flat_map (fun n => match mro_get cs mro n with Some (ADesc d) => [d] | _ => [] end) names.
  Definition named (store : list field) (names : list string) : list field :=
    fold_left (fun st n => match mro_get cs mro n with Some (ADesc d) => set_name st d n | _ => st end) names store.
  Lemma named_kind names : forall store d, f_kind (desc (named store names) d) = f_kind (desc store d).
  Proof.
    unfold named. induction names as [|n t IH]; intros store d; cbn [fold_left]; [reflexivity|]. rewrite IH.
    destruct (mro_get cs mro n) as [[d'|]|]; auto. apply set_name_kind.
  Qed.
  Lemma is_attr_kind f g : f_kind f = f_kind g -> is_attr f = is_attr g.
  Proof. unfold is_attr. now intros ->. Qed.
  Lemma is_group_kind f g : f_kind f = f_kind g -> is_group f = is_group g.
  Proof. unfold is_group. now intros ->. Qed.
  Lemma is_plain_kind f g : f_kind f = f_kind g -> is_plain f = is_plain g.
  Proof. intros H. unfold is_plain. now rewrite (is_attr_kind _ _ H), (is_group_kind _ _ H). Qed.
  Lemma collect_eq names : forall store,
    collect cs mro names store =
      (named store names, filter (fun d => is_plain (desc store d)) (raw names),
       filter (fun d => is_attr (desc store d)) (raw names), filter (fun d => is_group (desc store d)) (raw names)).
  Proof.
    induction names as [|n t IH]; intros store; [reflexivity|]. cbn [collect raw flat_map named fold_left].
    destruct (mro_get cs mro n) as [[d|]|]; [|apply IH|apply IH].
    rewrite IH.
    rewrite (filter_ext (fun d0 => is_plain (desc (set_name store d n) d0)) (fun d0 => is_plain (desc store d0))) by (intros; apply is_plain_kind, set_name_kind).
    rewrite (filter_ext (fun d0 => is_attr (desc (set_name store d n) d0)) (fun d0 => is_attr (desc store d0))) by (intros; apply is_attr_kind, set_name_kind).
    rewrite (filter_ext (fun d0 => is_group (desc (set_name store d n) d0)) (fun d0 => is_group (desc store d0))) by (intros; apply is_group_kind, set_name_kind).
    cbn [app filter]. fold (named (set_name store d n) t). fold (raw t).
    destruct (is_attr (desc store d)) eqn:A; [|destruct (is_group (desc store d)) eqn:G].
    - assert (G : is_group (desc store d) = false) by (revert A; unfold is_attr, is_group; destruct (f_kind (desc store d)); auto; discriminate).
      rewrite G. unfold is_plain at 2. rewrite A. reflexivity.
    - unfold is_plain at 2. rewrite A, G. reflexivity.
    - unfold is_plain at 2. rewrite A, G. reflexivity.
  Qed.
  Lemma raw_in names d : In d (raw names) <-> exists n, In n names /\ mro_get cs mro n = Some (ADesc d).
  Proof.
    unfold raw. rewrite in_flat_map. split; intros (n & I & H); exists n; (split; [exact I|]).
    - destruct (mro_get cs mro n) as [[d'|]|]; try contradiction. destruct H as [-> | []]. reflexivity.
    - rewrite H. now left.
  Qed.
  Lemma named_length names : forall store, length (named store names) = length store.
  Proof.
    unfold named. induction names as [|n t IH]; intros store; cbn [fold_left]; [reflexivity|]. rewrite IH.
    destruct (mro_get cs mro n) as [[d'|]|]; auto. apply set_name_length.
  Qed.
  Lemma named_miss names : forall store d, ~ In d (raw names) -> desc (named store names) d = desc store d.
  Proof.
    unfold named. induction names as [|n t IH]; intros store d H; cbn [fold_left]; [reflexivity|].
    cbn [raw flat_map] in H. rewrite in_app_iff in H. rewrite IH by tauto.
    destruct (mro_get cs mro n) as [[d'|]|]; auto. apply set_name_other. cbn in H. tauto.
  Qed.
  Lemma named_hit names : forall store d, d < length store -> In d (raw names) ->
    exists n, In n names /\ mro_get cs mro n = Some (ADesc d) /\ desc (named store names) d = rename n (desc store d).
  Proof.
    induction names as [|n t IH]; intros store d L H; [destruct H|].
    destruct (in_dec Nat.eq_dec d (raw t)) as [I|I].
    - destruct (IH (match mro_get cs mro n with Some (ADesc d) => set_name store d n | _ => store end) d) as (n' & In' & G & E); auto.
      { destruct (mro_get cs mro n) as [[d'|]|]; auto. now rewrite set_name_length. }
      exists n'. split; [now right|]. split; [exact G|]. unfold named in *. cbn [fold_left]. rewrite E.
      destruct (mro_get cs mro n) as [[d'|]|]; auto. destruct (Nat.eq_dec d' d) as [->|Hd]; [now rewrite set_name_same|now rewrite set_name_other].
    - exists n. split; [now left|]. cbn [raw flat_map] in H. apply in_app_or in H as [H|H]; [|contradiction].
      destruct (mro_get cs mro n) as [[d'|]|] eqn:G; cbn in H; try contradiction. destruct H as [-> | []]. split; [reflexivity|].
      unfold named. cbn [fold_left]. rewrite G. change (desc (named (set_name store d n) t) d = rename n (desc store d)).
      rewrite named_miss by exact I. now apply set_name_same.
  Qed.
  Lemma split_perm (store : list field) l :
    Permutation (filter (fun d => is_plain (desc store d)) l ++ filter (fun d => is_group (desc store d)) l ++ filter (fun d => is_attr (desc store d)) l) l.
  Proof.
    induction l as [|d l IH]; cbn; [constructor|]. unfold is_plain at 1.
    destruct (is_attr (desc store d)) eqn:A; [|destruct (is_group (desc store d)) eqn:G]; cbn.
    - assert (G : is_group (desc store d) = false) by (revert A; unfold is_attr, is_group; destruct (f_kind (desc store d)); auto; discriminate).
      rewrite G. rewrite app_assoc. rewrite <- Permutation_middle. rewrite <- app_assoc. now rewrite IH.
    - rewrite <- Permutation_middle. now rewrite IH.
    - now rewrite IH.
  Qed.
  Lemma raw_nodup names : NoDup names -> (forall n1 n2 d, mro_get cs mro n1 = Some (ADesc d) -> mro_get cs mro n2 = Some (ADesc d) -> n1 = n2) ->
    NoDup (raw names).
  Proof.
    intros N Inj. induction N as [|n t Hn N IH]; cbn; [constructor|]. fold (raw t).
    apply NoDup_app_intro; [|exact IH|].
    - destruct (mro_get cs mro n) as [[d|]|]; repeat constructor. intros [].
    - intros d Hd I. destruct (mro_get cs mro n) as [[d'|]|] eqn:G; cbn in Hd; try contradiction. destruct Hd as [-> | []].
      apply raw_in in I as (n' & I & G'). rewrite (Inj _ _ _ G G') in Hn. contradiction.
  Qed.
  Lemma raw_twice names n1 n2 d : In n1 names -> In n2 names -> n1 <> n2 -> mro_get cs mro n1 = Some (ADesc d) -> mro_get cs mro n2 = Some (ADesc d) ->
    ~ NoDup (raw names).
  Proof.
    intros I1 I2 Hn G1 G2 N. induction names as [|n t IH]; [destruct I1|]. cbn in N. fold (raw t) in N.
    assert (Nt : NoDup (raw t)) by (destruct (mro_get cs mro n) as [[d'|]|]; cbn in N; auto; now inversion N).
    destruct I1 as [-> | I1], I2 as [-> | I2]; try congruence.
    - rewrite G1 in N. cbn in N. inversion_clear N as [|? ? X _]. apply X. apply raw_in. eauto.
    - rewrite G2 in N. cbn in N. inversion_clear N as [|? ? X _]. apply X. apply raw_in. eauto.
    - auto.
  Qed.
End L.

Lemma build_eq cs mro store :
  let r := raw cs mro (dir cs mro) in
  let p := filter (fun d => is_plain (desc store d)) r in
  let a := filter (fun d => is_attr (desc store d)) r in
  let g := filter (fun d => is_group (desc store d)) r in
  build_meta cs mro store = (named cs mro store (dir cs mro),
    mkMeta (by_creation p) (by_creation a) (by_creation g) (by_creation (by_creation p ++ by_creation g))
      (by_creation (by_creation p ++ by_creation g ++ by_creation a))).
Proof. unfold build_meta. now rewrite collect_eq. Qed.
Lemma build_all_perm cs mro store : Permutation (mt_all (snd (build_meta cs mro store))) (raw cs mro (dir cs mro)).
Proof.
  rewrite build_eq. cbn [snd mt_all]. rewrite by_creation_perm, !by_creation_perm. apply split_perm.
Qed.
Lemma build_all_ordered cs mro store : ordered (fun d => d) (mt_all (snd (build_meta cs mro store))).
Proof. rewrite build_eq. apply by_creation_ordered. Qed.
Lemma filter_perm {A} (p : A -> bool) l l' : Permutation l l' -> Permutation (filter p l) (filter p l').
Proof. induction 1; cbn; try destruct (p x); try destruct (p y); auto; try apply perm_swap. eapply perm_trans; eauto. Qed.
Lemma build_parts cs mro store : let m := snd (build_meta cs mro store) in
  mt_attributes m = filter (fun d => is_attr (desc store d)) (mt_all m) /\
  mt_groups m = filter (fun d => is_group (desc store d)) (mt_all m) /\
  mt_fields m = filter (fun d => is_plain (desc store d)) (mt_all m) /\
  mt_allelements m = filter (fun d => negb (is_attr (desc store d))) (mt_all m).
Proof.
  intros m. assert (P := build_all_perm cs mro store). assert (S := build_all_ordered cs mro store). fold m in P, S.
  subst m. set (all := mt_all _) in *.
  rewrite build_eq. cbn [snd mt_attributes mt_groups mt_fields mt_allelements].
  repeat split; apply ordered_unique; try apply by_creation_ordered; try apply ordered_filter, S; rewrite by_creation_perm.
  - symmetry. now apply filter_perm.
  - symmetry. now apply filter_perm.
  - symmetry. now apply filter_perm.
  - rewrite !by_creation_perm. rewrite (filter_perm _ _ _ P). clear.
    induction (raw cs mro (dir cs mro)) as [|d l IH]; cbn; [constructor|]. unfold is_plain at 1.
    destruct (is_attr (desc store d)) eqn:A; [|destruct (is_group (desc store d)) eqn:G]; cbn.
    + assert (G : is_group (desc store d) = false) by (revert A; unfold is_attr, is_group; destruct (f_kind (desc store d)); auto; discriminate).
      now rewrite G.
    + rewrite <- Permutation_middle. now rewrite IH.
    + now rewrite IH.
Qed.
