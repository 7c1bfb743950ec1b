(** The example classes meet the hypotheses of the round-trip theorem. *)
From Coq Require Import String Ascii List ZArith NArith Bool Lia.
From Verif Require Import PyBase Xml PyVal XsdDate XsdSimple XsdComplex SpecSimple SpecDate SpecParse SpecRound
  PfBase PfSimple PfParse PfLayout PfRound PfLeaf ExEnv.
Import ListNotations.
Open Scope Z_scope.

Lemma roundtrip_wire O E (P : string -> Prop) c v tag ns efd n :
  rt_classes O E P -> P c -> rt_typed O E (TComplex c) v ->
  ncname_ok tag = true -> ns_good ns -> (vdepth v <= n)%nat ->
  exists x, xml_of n O E v tag ns efd = Ok x /\
    forall pretty doc, layout (wire x) pretty -> doc = pretty \/ noise E c pretty doc ->
    exists v', parse_obj n O E c doc = Ok v' /\ erase v' = erase v.
Proof.
  intros HP Pc Hv Nt Hns Hd. destruct (roundtrip O E P HP c v tag ns efd n Pc Hv Nt Hns Hd) as (x & X & _ & Td & v' & PX & Ev).
  exists x. split; auto. intros pretty doc Hl Hdoc.
  assert (Q : res_map erase (parse_obj n O E c (wire x)) = res_map erase (parse_obj n O E c doc)).
  { destruct (layout_agree O E _ _ _ n Hl Td) as [_ Q]. cbn in Q. rewrite Q. destruct Hdoc as [-> | Hn]; auto.
    exact (parse_ignores_noise n O E c _ _ Hn). }
  rewrite PX in Q. cbn in Q.
  destruct (parse_obj n O E c doc) as [w|e]; cbn in Q; [|discriminate]. injection Q as Q.
  exists w. split; auto. congruence.
Qed.

Definition ex_classes (c : string) : Prop := In c ["Flight"; "Leg"; "Extra"]%string.

Ltac fop := repeat (constructor; [repeat (constructor; [split; [discriminate || (intros _ _; discriminate) | intros _ _; split; intros [H|H]; discriminate] |]); try constructor |]); try constructor.

Lemma ex_flat_leg : flat_fields ex_env "Leg" [ex_elem "origin" t_str; ex_nil "seats" t_int].
Proof. apply (fl_class ex_env "Leg" cd_leg [[_]; [_]]); [reflexivity|]. repeat constructor. Qed.
Lemma ex_flat_extra : flat_fields ex_env "Extra" [ex_elem "note" t_str; ex_attr "lang" t_str false].
Proof. apply (fl_class ex_env "Extra" cd_extra [[_]; [_]]); [reflexivity|]. repeat constructor. Qed.
Definition ex_flat_list : list field :=
  [ex_attr "id" t_str true; ex_elem "number" t_int;
   ex_list "legs" "leg" (TComplex "Leg") (Some 1) (OInt 3);
   ex_elem "note" t_str; ex_attr "lang" t_str false].
Lemma ex_flat_flight : flat_fields ex_env "Flight" ex_flat_list.
Proof.
  apply (fl_class ex_env "Flight" cd_flight [[_]; [_]; [_]; [_; _]]); [reflexivity|].
  constructor; [now constructor|]. constructor; [now constructor|]. constructor; [now constructor|].
  constructor; [|constructor]. eapply fl_group; try reflexivity. exact ex_flat_extra.
Qed.

Lemma ex_rt_classes : rt_classes ex_oracle ex_env ex_classes.
Proof.
  intros c H. unfold ex_classes in H. cbn in H.
  destruct H as [<-|[<-|[<-|[]]]].
  - exists cd_flight, ex_flat_list. repeat split; try discriminate; try reflexivity.
    + now left.
    + cbn. intuition discriminate.
    + repeat constructor; cbn; intuition discriminate.
    + eexists. vm_compute. reflexivity.
    + cbn in H. decompose [or] H; subst; try reflexivity; contradiction.
    + cbn in H. decompose [or] H; subst; try exact I; contradiction.
    + cbn in H. decompose [or] H; subst; cbn.
      * reflexivity.
      * discriminate.
      * split; [eauto|]. intros c [= <-]. cbn. auto.
      * exists "Extra"%string, cd_extra. repeat split. cbn. auto.
      * contradiction.
    + exact ex_flat_flight.
    + fop.
  - exists cd_leg. eexists. repeat split; try discriminate; try reflexivity.
    + now left.
    + cbn. intuition discriminate.
    + repeat constructor; cbn; intuition discriminate.
    + eexists. vm_compute. reflexivity.
    + cbn in H. decompose [or] H; subst; try reflexivity; contradiction.
    + cbn in H. decompose [or] H; subst; try exact I; contradiction.
    + cbn in H. decompose [or] H; subst; cbn; try discriminate; contradiction.
    + exact ex_flat_leg.
    + fop.
  - exists cd_extra. eexists. repeat split; try discriminate; try reflexivity.
    + now left.
    + cbn. intuition discriminate.
    + repeat constructor; cbn; intuition discriminate.
    + eexists. vm_compute. reflexivity.
    + cbn in H. decompose [or] H; subst; try reflexivity; contradiction.
    + cbn in H. decompose [or] H; subst; try exact I; contradiction.
    + cbn in H. decompose [or] H; subst; cbn; try reflexivity; try discriminate; contradiction.
    + exact ex_flat_extra.
    + fop.
Qed.

Lemma ex_str s : s <> ""%string -> xml_text_ok s = true -> rt_typed ex_oracle ex_env t_str (VStr s).
Proof.
  intros H1 H2. constructor. apply everyday_leaf. constructor; auto.
  - split; [|split; [|split; [|split]]]; cbn; try easy.
  - repeat split; cbn; easy.
  - reflexivity.
Qed.
Lemma ex_int z : rt_typed ex_oracle ex_env t_int (VInt z).
Proof. constructor. apply everyday_leaf. constructor. split; intros b H; discriminate. Qed.

Lemma ex_leg_rt o s : o <> ""%string -> xml_text_ok o = true -> s = VNil \/ (exists z, s = VInt z) ->
  rt_typed ex_oracle ex_env (TComplex "Leg") (ex_leg o s).
Proof.
  intros H1 H2 H3. apply (rt_obj _ _ _ cd_leg); try reflexivity.
  intros f v [<-|[<-|[]]] [= <-].
  - apply rf_val; try discriminate; auto. now apply ex_str.
  - destruct H3 as [-> | [z ->]].
    + now apply rf_nil.
    + apply rf_val; try discriminate; auto. apply ex_int.
Qed.
Lemma ex_extra_rt : rt_typed ex_oracle ex_env (TComplex "Extra") ex_extra.
Proof.
  apply (rt_obj _ _ _ cd_extra); try reflexivity. intros f v [<-|[<-|[]]] [= <-].
  - apply rf_val; try discriminate; auto. now apply ex_str.
  - eapply rf_attr; try reflexivity.
    assert (H : rt_typed ex_oracle ex_env t_str (VStr "en")) by now apply ex_str. apply leaf_attr. now inversion H.
Qed.
Lemma ex_flight_rt : rt_typed ex_oracle ex_env (TComplex "Flight") ex_flight.
Proof.
  apply (rt_obj _ _ _ cd_flight); try reflexivity. intros f v [<-|[<-|[<-|[<-|[]]]]] [= <-].
  - eapply rf_attr; try reflexivity.
    assert (H : rt_typed ex_oracle ex_env t_str (VStr "F1")) by now apply ex_str. apply leaf_attr. now inversion H.
  - apply rf_val; try discriminate; auto. apply ex_int.
  - apply rf_list; try reflexivity.
    + intros m [= <-]. cbn. lia.
    + intros m [= <-]. cbn. lia.
    + constructor; [|constructor; [|constructor]]; right; (split; [discriminate|split; [discriminate|]]);
        apply ex_leg_rt; auto; try discriminate.
      right. eauto.
  - eapply rf_group; try reflexivity. exact ex_extra_rt.
Qed.

Lemma attribute_values O s v :
  leaf_ok O s v \/ (exists cls f, s = SString cls f /\ v = VStr "" /\ st_accept O s v = Ok v) -> attr_ok O s v.
Proof.
  intros [H|(cls & f & -> & -> & A)]; [now apply leaf_attr|]. split; [discriminate|]. split; [discriminate|].
  exists ""%string. repeat split; auto. 
Qed.
