(** The library's own classes round-trip. *)
From Coq Require Import String Ascii List ZArith NArith Bool Lia.
From Verif Require Import PyBase PfBase PyRe Xml PyVal XsdSimple XsdComplex PyHttp Soap LibClasses SpecRound PfSimple PfRound.
Import ListNotations.
Open Scope string_scope.
Open Scope list_scope.
Open Scope nat_scope.

Definition in_lib (c : string) : Prop := In c (map fst lib_classes).
Definition isSome {A} (o : option A) : bool := match o with Some _ => true | None => false end.
Definition ns_goodb (ns : option string) : bool := match ns with Some n => negb (char_in "}" n) | None => true end.
Definition refb (t : ftype) : bool := match t with TComplex c => isSome (assoc c lib_classes) | TSimple _ => true end.
Definition field_goodb (f : field) : bool :=
  ncname_ok (out_name f) && ns_goodb (f_ns f) &&
  match f_kind f with
  | KElement => refb (f_type f)
  | KList => isSome (f_tag f) && refb (f_type f)
  | KAttribute => String.eqb (tag_or_name f) (f_name f)
  | _ => false
  end.
Definition confusedb (f g : field) : bool :=
  String.eqb (out_name f) (f_name g) || match f_tag g with Some t => String.eqb t (out_name f) | None => false end.
Definition distinctb (f g : field) : bool :=
  implb (is_attr f && is_attr g) (negb (String.eqb (f_name f) (f_name g))) &&
  implb (is_plain f && is_plain g) (negb (confusedb f g) && negb (confusedb g f)).
Fixpoint pairsb {A} (r : A -> A -> bool) (l : list A) : bool :=
  match l with [] => true | x :: t => forallb (r x) t && pairsb r t end.
Definition class_goodb (p : string * classdef) : bool :=
  let d := snd p in
  match cd_kind d with CKPlain => true | _ => false end && match cd_ind d with IChoice => false | _ => true end &&
  str_in (fst p) (cd_mro d) &&
  ns_goodb (match cd_schema d with Some si => si_tns si | None => None end) &&
  pairsb (fun f g => negb (String.eqb (f_name f) (f_name g))) (cd_fields d) &&
  forallb field_goodb (cd_fields d) && pairsb distinctb (cd_fields d).

Lemma pairsb_ok {A} (r : A -> A -> bool) (R : A -> A -> Prop) l : (forall x y, r x y = true -> R x y) ->
  pairsb r l = true -> ForallOrdPairs R l.
Proof.
  intros H. induction l as [|x l IH]; cbn; [constructor|]. intros [H1 H2]%andb_true_iff. constructor; auto.
  rewrite forallb_forall in H1. apply Forall_forall. auto.
Qed.
Lemma ns_goodb_ok ns : ns_goodb ns = true -> ns_good ns.
Proof.
  destruct ns as [n|]; [|easy]. cbn. rewrite negb_true_iff. intros H I1. apply char_in_spec in I1. congruence.
Qed.
Lemma isSome_in c : isSome (assoc c lib_classes) = true -> in_lib c.
Proof.
  unfold in_lib. generalize lib_classes. induction l as [|[k x] l IH]; cbn; [discriminate|].
  destruct (String.eqb_spec c k) as [-> |]; auto.
Qed.
Lemma in_isSome c : in_lib c -> exists d, assoc c lib_classes = Some d /\ In (c, d) lib_classes.
Proof.
  unfold in_lib. generalize lib_classes. induction l as [|[k x] l IH]; cbn; [tauto|].
  destruct (String.eqb_spec c k) as [-> |Ne]; [intros _; eexists; split; [reflexivity|now left]|].
  intros [E1|H]; [congruence|]. destruct (IH H) as (d & H1 & H2). exists d. split; [assumption|now right].
Qed.
Lemma refb_ok t : refb t = true -> forall c, t = TComplex c -> in_lib c.
Proof. intros H c ->. now apply isSome_in. Qed.
Lemma field_goodb_ok E f : field_goodb f = true -> field_good E in_lib f.
Proof.
  unfold field_goodb, field_good. rewrite !andb_true_iff. intros [[H1 H2] H3]. split; [assumption|]. split; [now apply ns_goodb_ok|].
  destruct (f_kind f); try discriminate.
  - now apply refb_ok.
  - now apply String.eqb_eq.
  - apply andb_true_iff in H3 as [H3 H4]. split; [|now apply refb_ok]. destruct (f_tag f); [eauto|discriminate].
Qed.
Lemma distinctb_ok f g : distinctb f g = true -> distinct_fields f g.
Proof.
  assert (C : forall f g, confusedb f g = false -> ~ confused f g).
  { clear. intros f g. unfold confusedb, confused. rewrite orb_false_iff. intros [H1 H2] [H|H].
    - rewrite H, String.eqb_refl in H1. discriminate.
    - rewrite H, String.eqb_refl in H2. discriminate. }
  unfold distinctb. rewrite andb_true_iff. intros [H1 H2]. split.
  - intros A1 A2. rewrite A1, A2 in H1. cbn in H1. rewrite negb_true_iff in H1. now apply String.eqb_neq.
  - intros A1 A2. rewrite A1, A2 in H2. cbn in H2. rewrite andb_true_iff, !negb_true_iff in H2. destruct H2. auto.
Qed.
Lemma classes_good : forallb class_goodb lib_classes = true.
Proof. vm_compute. reflexivity. Qed.
Lemma classes_new O lim : forallb (fun p => match new_instance O (lib_env lim) (fst p) with Ok _ => true | Err _ => false end) lib_classes = true.
Proof. vm_compute. reflexivity. Qed.
Lemma flat_own E c d : e_cls E c = Some d -> (forall f, In f (cd_fields d) -> is_group f = false) -> flat_fields E c (cd_fields d).
Proof.
  intros Hd H. assert (X : concat (map (fun f => [f]) (cd_fields d)) = cd_fields d) by (induction (cd_fields d) as [|f l IH]; cbn; [reflexivity|]; f_equal; apply IH; intros; apply H; now right).
  rewrite <- X. clear X. econstructor; [eassumption|].
  induction (cd_fields d) as [|f l IH]; cbn; constructor; [apply fl_own, H; now left|apply IH; intros; apply H; now right].
Qed.

Lemma lib_rt O lim : rt_classes O (lib_env lim) in_lib.
Proof.
  intros c Hc. destruct (in_isSome c Hc) as (d & Hd & Hi).
  pose proof classes_good as G. rewrite forallb_forall in G. specialize (G _ Hi). unfold class_goodb in G. cbn [fst snd] in G.
  rewrite !andb_true_iff in G. destruct G as [[[[[[G1 G2] G3] G4] G5] G6] G7].
  pose proof (classes_new O lim) as N. rewrite forallb_forall in N. specialize (N _ Hi). cbn [fst] in N.
  exists d, (cd_fields d). split; [exact Hd|].
  split; [destruct (cd_kind d); [discriminate..|]; discriminate|].
  split; [destruct (cd_ind d); congruence|]. split; [now apply str_in_spec|]. split; [now apply ns_goodb_ok|].
  split.
  { apply (pairsb_ok _ (fun f g => f_name f <> f_name g)) in G5.
    2:{ intros x y H. rewrite negb_true_iff in H. now apply String.eqb_neq. }
    clear -G5. induction G5 as [|x l H _ IH]; cbn; constructor; auto. intros (y & E1 & Hy)%in_map_iff.
    rewrite Forall_forall in H. now apply (H y Hy). }
  split; [destruct (new_instance O (lib_env lim) c); [eauto|discriminate]|].
  rewrite forallb_forall in G6. split; [intros f Hf; now apply field_goodb_ok, G6|].
  split.
  - apply flat_own; [exact Hd|]. intros f Hf. specialize (G6 f Hf). unfold field_goodb in G6. unfold is_group.
    destruct (f_kind f); try reflexivity; rewrite andb_false_r in G6; discriminate.
  - apply (pairsb_ok distinctb); [apply distinctb_ok|assumption].
Qed.

(** ** Objects of the library's classes that round-trip, of depth at most [n] *)
Definition rt_at (O : oracle) (lim n : nat) (c : string) (v : pyval) : Prop :=
  rt_typed O (lib_env lim) (TComplex c) v /\ vdepth v <= n.
Definition rt_val (O : oracle) (lim n : nat) (f : field) (v : pyval) : Prop :=
  rt_field O (lib_env lim) f v /\ vdepth v <= n.
Lemma rt_fields O lim n c d xe fs : e_cls (lib_env lim) c = Some d ->
  Forall2 (fun f p => fst p = f_name f /\ rt_val O lim n f (snd p)) (cd_fields d) fs -> NoDup (map f_name (cd_fields d)) ->
  rt_at O lim (S n) c (VObj c xe fs).
Proof.
  intros Hd F ND. split.
  - econstructor; [eassumption| |].
    + clear -F. induction F as [|f p l l' [H _] _ IH]; cbn; [reflexivity|]. now rewrite H, IH.
    + clear Hd. revert ND. induction F as [|f p l l' [H [R _]] F IH]; intros ND g v Hg Ha; [destruct Hg|].
      inversion ND as [|? ? N1 N2]; subst. destruct p as [k x]. cbn in H, R, Ha. subst k. destruct Hg as [<- |Hg].
      * rewrite String.eqb_refl in Ha. now injection Ha as <-.
      * destruct (String.eqb_spec (f_name g) (f_name f)) as [E1|]; [|now apply IH].
        exfalso. apply N1. rewrite <- E1. now apply in_map.
  - cbn [vdepth]. apply le_n_S. clear -F. induction F as [|f p l l' [_ [_ H]] _ IH]; [cbn; lia|].
    cbn [map]. unfold list_max in *. cbn [fold_right]. lia.
Qed.
Lemma rt_at_weaken O lim n m c v : n <= m -> rt_at O lim n c v -> rt_at O lim m c v.
Proof. intros H [A B]. split; [assumption|lia]. Qed.

(** Fields. *)
Lemma rv_str O lim n f cls sf s : f_kind f = KAttribute -> f_type f = TSimple (SString cls sf) ->
  st_accept O (SString cls sf) (VStr s) = Ok (VStr s) -> xml_text_ok s = true -> rt_val O lim n f (VStr s).
Proof.
  intros K T A X. split; [|cbn; lia]. eapply rf_attr; [assumption|eassumption|]. split; [discriminate|]. split; [discriminate|].
  exists s. repeat split; auto.
Qed.
Lemma rv_none_str O lim n f cls sf : f_kind f = KAttribute -> f_type f = TSimple (SString cls sf) -> f_min f = Some 0%Z -> f_default f = VNone ->
  rt_val O lim n f VNone.
Proof. intros K T M D. split; [|cbn; lia]. eapply rf_attr_none; try eassumption. reflexivity. Qed.
Lemma rv_none O lim n f : f_kind f = KElement -> f_default f = VNone -> rt_val O lim n f VNone.
Proof. intros K D. split; [|cbn; lia]. now apply rf_none. Qed.
Lemma rv_obj O lim n f c v : f_kind f = KElement -> f_type f = TComplex c -> rt_at O lim n c v -> rt_val O lim n f v.
Proof.
  intros K T [R D]. split; [|assumption]. apply rf_val; [assumption|inversion R; discriminate|inversion R; discriminate|].
  now rewrite T.
Qed.
Lemma rv_list O lim n f c l : f_kind f = KList -> f_type f = TComplex c -> f_min f = None \/ f_min f = Some 0%Z -> f_max f = ONone ->
  Forall (rt_at O lim n c) l -> rt_val O lim n f (VList true l).
Proof.
  intros K T Mn Mx F. split.
  - apply rf_list; [assumption| | |].
    + intros m E1. destruct Mn as [Mn|Mn]; rewrite Mn in E1; [discriminate|]. injection E1 as <-. lia.
    + intros m E1. congruence.
    + eapply Forall_impl; [|exact F]. intros v [R _]. right. split; [inversion R; discriminate|]. split; [inversion R; discriminate|].
      now rewrite T.
  - cbn [vdepth]. clear -F. induction F as [|v l [_ H] _ IH]; [cbn; lia|]. cbn [map]. unfold list_max in *. cbn [fold_right]. lia.
Qed.
