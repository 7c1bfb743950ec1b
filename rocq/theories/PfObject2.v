(** Proofs for C19, continued: classes called with keyword arguments. *)
From Coq Require Import String Ascii List ZArith NArith Bool.
From Verif Require Import PyBase Xml PyVal XsdSimple XsdComplex SpecObject PfBase PfObject.
Import ListNotations.
Open Scope Z_scope.

Definition taken (O : oracle) (E : env) (F : list field) (p : string * pyval) : Prop :=
  exists f v', In f F /\ f_name f = fst p /\ field_accept O E f (snd p) = Ok v'.

Lemma setattr_all_ok O E F kw : NoDup (map f_name F) -> NoDup (map fst kw) -> forall fs fs', dict_ok O E F fs ->
  foldM (fun fs p => setattr O E F fs (fst p) (snd p)) fs kw = Ok fs' ->
  dict_ok O E F fs' /\
  (forall name v, In (name, v) kw -> exists f v', In f F /\ f_name f = name /\ field_accept O E f v = Ok v' /\ getattr fs' name = Ok v') /\
  (forall name, ~ In name (map fst kw) -> getattr fs' name = getattr fs name).
Proof.
  intros ND. induction kw as [|[n w] kw IH]; intros NK fs fs' D H.
  - injection H as <-. split; [exact D|]. split; [intros ? ? []|reflexivity].
  - cbn [foldM fst snd] in H. apply bind_ok in H as (fs1 & H1 & H2). inversion_clear NK as [|? ? N1 N2].
    destruct (assign_effect O E F fs n w) as [A _]. destruct (A fs1 H1) as [(f & v' & Hf & Hn & Ha & Hg) Ho].
    destruct (IH N2 fs1 fs' (setattr_dict_ok O E F fs n w fs1 ND D H1) H2) as (D' & P & Q). split; [exact D'|]. split.
    + intros name v [[= <- <-]|Hi]; [|exact (P name v Hi)]. exists f, v'. repeat split; auto. rewrite Q by exact N1. exact Hg.
    + intros name N. cbn in N. rewrite Q by tauto. apply Ho. intros ->. tauto.
Qed.
Lemma setattr_all_total O E F kw : NoDup (map f_name F) -> forall fs,
  (exists fs', foldM (fun fs p => setattr O E F fs (fst p) (snd p)) fs kw = Ok fs') <-> Forall (taken O E F) kw.
Proof.
  intros ND. induction kw as [|[n w] kw IH]; intros fs; cbn [foldM fst snd].
  - split; eauto.
  - split.
    + intros (fs' & H). apply bind_ok in H as (fs1 & H1 & H2). constructor; [|apply (IH fs1); eauto].
      apply setattr_ok in H1 as (f & v' & Hf & Ha & _). apply find_field_ok in Hf as [Hi Hn]. exists f, v'. auto.
    + intros H. inversion_clear H as [|? ? (f & v' & Hi & Hn & Ha) H2]. cbn in Hn, Ha.
      assert (X : setattr O E F fs n w = Ok (assoc_set n v' fs)) by (apply setattr_ok; exists f, v'; rewrite <- Hn; auto using find_field_in).
      rewrite X. apply (IH (assoc_set n v' fs)), H2.
Qed.

Lemma construct_spec O E c d kw : e_cls E c = Some d -> NoDup (map f_name (cd_fields d)) -> NoDup (map fst kw) ->
  ((exists o, construct O E c kw = Ok o) <->
   (exists fs0, new_instance O E c = Ok fs0) /\
   forall name v, In (name, v) kw -> exists f v', In f (cd_fields d) /\ f_name f = name /\ field_accept O E f v = Ok v') /\
  (forall o, construct O E c kw = Ok o -> exists fs0 fs, new_instance O E c = Ok fs0 /\ o = VObj c None fs /\
     (forall name, assoc name fs <> None <-> In name (map f_name (cd_fields d))) /\
     (forall f, In f (cd_fields d) -> is_list f = false -> exists v, getattr fs (f_name f) = Ok v /\ may_hold O E f v) /\
     (forall name v, In (name, v) kw -> exists f v', In f (cd_fields d) /\ f_name f = name /\ field_accept O E f v = Ok v' /\ getattr fs name = Ok v') /\
     (forall name, ~ In name (map fst kw) -> getattr fs name = getattr fs0 name)).
Proof.
  intros Hc ND NK. unfold construct, get_class. rewrite Hc. cbn [bind]. destruct (new_instance O E c) as [fs0|e] eqn:H0; cbn [bind].
  2: { split; [split; [intros (o & [=])|intros ((fs0 & [=]) & _)] | discriminate]. }
  split.
  - split.
    + intros (o & H). apply bind_ok in H as (fs & H & _). split; [eauto|]. intros name v Hi.
      assert (X : Forall (taken O E (cd_fields d)) kw) by (apply (setattr_all_total O E (cd_fields d) kw ND fs0); eauto).
      rewrite Forall_forall in X. exact (X _ Hi).
    + intros (_ & H). assert (X : Forall (taken O E (cd_fields d)) kw) by (apply Forall_forall; intros [n v] Hi; exact (H n v Hi)).
      apply (setattr_all_total O E (cd_fields d) kw ND fs0) in X as (fs & ->). eexists. reflexivity.
  - intros o H. apply bind_ok in H as (fs & H & [= <-]). exists fs0, fs. split; [reflexivity|]. split; [reflexivity|].
    destruct (new_instance_ok _ _ _ _ _ Hc ND H0) as [D0 _].
    destruct (setattr_all_ok O E (cd_fields d) kw ND NK fs0 fs D0 H) as ([K V] & P & Q).
    split; [|split; [|split; [exact P|exact Q]]].
    + intros name. rewrite <- K. pose proof (assoc_none name fs) as N. destruct (assoc name fs) as [w|] eqn:X.
      * split; intros _; [|discriminate]. apply assoc_in in X. apply in_map_iff. exists (name, w). auto.
      * split; [congruence|]. intros Hin. apply N in Hin; easy.
    + intros f Hf L. destruct (V f Hf L) as (v & A & B). exists v. split; [|exact B]. unfold getattr. now rewrite A.
Qed.

Lemma append_spec O E f l v l' : tl_append O E f l v = Ok l' <->
  max_allows (f_max f) (Z.of_nat (length l) + 1) /\
  exists a, l' = l ++ [a] /\ (v = VNil /\ f_nillable f = true /\ a = VNil \/ v <> VNil /\ type_accept O E (f_type f) v = Ok a).
Proof.
  assert (X : exceeds (Z.of_nat (length l) + 1) (f_max f) = false <-> max_allows (f_max f) (Z.of_nat (length l) + 1)).
  { unfold exceeds, max_allows. destruct (f_max f); try tauto. apply Z.ltb_ge. }
  unfold tl_append. rewrite <- X. split.
  - intros H. apply bind_ok in H as (a & Ha & H). destruct exceeds; [discriminate|]. injection H as <-. split; [reflexivity|].
    exists a. split; [reflexivity|]. destruct v; try (right; split; [discriminate|exact Ha]).
    left. destruct (f_nillable f); [injection Ha as <-; auto | discriminate].
  - intros (-> & a & -> & [(-> & -> & ->)|(N & Ha)]); [reflexivity|]. destruct v; try (now rewrite Ha). now destruct N.
Qed.
