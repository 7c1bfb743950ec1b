(** Proofs about comparing objects (C31, C62, C63). *)
From Coq Require Import String Ascii List ZArith NArith Bool Lia.
From Verif Require Import PyBase Xml PyVal XsdSimple XsdComplex XsdEq PfBase.
Import ListNotations.
Open Scope Z_scope.

Definition parsed (r : robj) : Prop := exists c x fs, ro_val r = VObj c (Some x) fs.
Lemma bytes_parsed ts r : parsed r -> exists s, ro_bytes ts r = Some s.
Proof. intros (c & x & fs & H). unfold ro_bytes. rewrite H. eauto. Qed.
Lemma bytes_unparsed ts r : ~ parsed r -> ro_bytes ts r = None.
Proof.
  unfold parsed, ro_bytes. intros H. destruct (ro_val r); auto. destruct xe; auto.
  destruct H. eauto.
Qed.

Lemma ro_eq_spec ts a b : ro_eq ts a b = true <-> exists s, ro_bytes ts a = Some s /\ ro_bytes ts b = Some s.
Proof.
  unfold ro_eq. destruct (ro_bytes ts a) as [s|], (ro_bytes ts b) as [t|]; try (split; [discriminate|intros (? & ? & ?); discriminate]).
  rewrite String.eqb_eq. split; [intros ->; eauto|intros (u & [= ->] & [= ->]); auto].
Qed.
Lemma eq_sym ts a b : ro_eq ts a b = ro_eq ts b a.
Proof. unfold ro_eq. destruct (ro_bytes ts a), (ro_bytes ts b); auto. apply String.eqb_sym. Qed.
Lemma eq_trans ts a b c : ro_eq ts a b = true -> ro_eq ts b c = true -> ro_eq ts a c = true.
Proof. rewrite !ro_eq_spec. intros (s & A & B) (t & C & D). exists s. split; congruence. Qed.
Lemma eq_hash ts hs a b : ro_eq ts a b = true -> ro_hash ts hs a = ro_hash ts hs b.
Proof. rewrite ro_eq_spec. intros (s & A & B). unfold ro_hash. now rewrite A, B. Qed.
Lemma eq_refl_iff ts a : ro_eq ts a a = true <-> parsed a.
Proof.
  rewrite ro_eq_spec. split.
  - intros (s & H & _). unfold ro_bytes in H. unfold parsed. destruct (ro_val a); try discriminate.
    destruct xe; try discriminate. eauto.
  - intros H. destruct (bytes_parsed ts a H) as (s & ->). eauto.
Qed.
Lemma eq_unparsed ts a b : ~ parsed a \/ ~ parsed b -> ro_eq ts a b = false.
Proof.
  unfold ro_eq. intros [H|H]; rewrite (bytes_unparsed ts _ H); auto. now destruct (ro_bytes ts a).
Qed.

Lemma bytes_lt_irrefl s : bytes_lt s s = false.
Proof. induction s as [|c s IH]; auto. cbn. now rewrite N.ltb_irrefl. Qed.
Lemma bytes_lt_trans s : forall t u, bytes_lt s t = true -> bytes_lt t u = true -> bytes_lt s u = true.
Proof.
  induction s as [|c s IH]; intros [|d t] [|e u]; cbn; try discriminate; auto.
  destruct (N.ltb_spec (code c) (code d)), (N.ltb_spec (code d) (code c)), (N.ltb_spec (code d) (code e)),
    (N.ltb_spec (code e) (code d)), (N.ltb_spec (code c) (code e)), (N.ltb_spec (code e) (code c));
    try discriminate; try lia; eauto.
Qed.
Lemma code_inj c d : code c = code d -> c = d.
Proof. unfold code. intros H. rewrite <- (ascii_N_embedding c), <- (ascii_N_embedding d). congruence. Qed.
Lemma bytes_lt_total s : forall t, bytes_lt s t = true \/ s = t \/ bytes_lt t s = true.
Proof.
  induction s as [|c s IH]; intros [|d t]; cbn; auto.
  destruct (N.ltb_spec (code c) (code d)), (N.ltb_spec (code d) (code c)); auto.
  assert (c = d) by (apply code_inj; lia). subst.
  destruct (IH t) as [H1|[->|H1]]; auto.
Qed.
Lemma bytes_lt_asym s t : bytes_lt s t = true -> bytes_lt t s = false.
Proof.
  intros H. destruct (bytes_lt t s) eqn:Q; auto. pose proof (bytes_lt_trans _ _ _ H Q) as C.
  now rewrite bytes_lt_irrefl in C.
Qed.

Lemma order_parsed ts a b c : parsed a -> parsed b -> parsed c ->
  (ro_lt ts a a = false) /\
  (ro_lt ts a b = true -> ro_lt ts b c = true -> ro_lt ts a c = true) /\
  (ro_lt ts a b = true \/ ro_eq ts a b = true \/ ro_lt ts b a = true) /\
  ro_gt ts a b = ro_lt ts b a /\ ro_le ts a b = negb (ro_lt ts b a) /\ ro_ge ts a b = ro_le ts b a.
Proof.
  intros A B C. destruct (bytes_parsed ts a A) as (s & Hs), (bytes_parsed ts b B) as (t & Ht), (bytes_parsed ts c C) as (u & Hu).
  unfold ro_gt, ro_le, ro_ge, ro_ne, ro_lt, ro_eq. rewrite Hs, Ht, Hu.
  split; [apply bytes_lt_irrefl|]. split; [apply bytes_lt_trans|]. split.
  { destruct (bytes_lt_total s t) as [H|[->|H]]; auto. right. left. apply String.eqb_refl. }
  rewrite (String.eqb_sym t s).
  destruct (bytes_lt_total s t) as [H|[->|H]].
  - rewrite H, (bytes_lt_asym _ _ H). assert (N : s <> t) by (intros ->; now rewrite bytes_lt_irrefl in H).
    apply String.eqb_neq in N. rewrite N. auto.
  - rewrite bytes_lt_irrefl, String.eqb_refl. auto.
  - rewrite H, (bytes_lt_asym _ _ H). assert (N : s <> t) by (intros ->; now rewrite bytes_lt_irrefl in H).
    apply String.eqb_neq in N. rewrite N. auto.
Qed.
Lemma order_unparsed ts a b : ~ parsed a \/ ~ parsed b ->
  ro_lt ts a b = false /\ ro_eq ts a b = false /\ ro_gt ts a b = true /\ ro_gt ts b a = true /\
  ro_ge ts a b = true /\ ro_le ts a b = false.
Proof.
  intros H. assert (L : forall x y, ro_bytes ts x = None \/ ro_bytes ts y = None -> ro_lt ts x y = false).
  { unfold ro_lt. intros x y [-> | ->]; auto. now destruct (ro_bytes ts x). }
  assert (H' : ro_bytes ts a = None \/ ro_bytes ts b = None) by (destruct H; [left|right]; now apply bytes_unparsed).
  assert (H2 : ro_bytes ts b = None \/ ro_bytes ts a = None) by tauto.
  unfold ro_gt, ro_ge, ro_le, ro_ne. rewrite (L a b H'), (L b a H2), (eq_unparsed ts a b H).
  rewrite (eq_unparsed ts b a) by tauto. auto 10.
Qed.

Lemma setattr_bytes O E ts r name v r' : ro_setattr O E r name v = Ok r' -> ro_bytes ts r' = ro_bytes ts r.
Proof.
  unfold ro_setattr, ro_bytes. destruct (ro_val r); try discriminate. intros H.
  apply bind_ok in H as (d & _ & H). apply bind_ok in H as (fs' & _ & H). injection H as <-. reflexivity.
Qed.
Lemma eq_stale O E ts r name v r' : parsed r -> ro_setattr O E r name v = Ok r' ->
  ro_eq ts r r' = true /\ forall hs, ro_hash ts hs r' = ro_hash ts hs r.
Proof.
  intros P H. apply (setattr_bytes O E ts) in H. split.
  - apply ro_eq_spec. destruct (bytes_parsed ts r P) as (s & Hs). exists s. split; congruence.
  - intros hs. unfold ro_hash. destruct (bytes_parsed ts r P) as (s & Hs). now rewrite H, Hs.
Qed.
Lemma tail_matters ts id id' c c' x fs fs' t t' : (forall x t t', ts x t = ts x t' -> t = t') -> t <> t' ->
  ro_eq ts (mkRobj id (VObj c (Some x) fs) t) (mkRobj id' (VObj c' (Some x) fs') t') = false.
Proof. intros I N. unfold ro_eq. cbn. apply String.eqb_neq. intros H. apply N. eapply I; eauto. Qed.
