(** The objects py2xsd builds round-trip. *)
From Coq Require Import String Ascii List ZArith NArith Bool Lia.
From Verif Require Import PyBase PfBase PyRe Xml PyVal XsdSimple XsdComplex PyHttp Soap Client LibClasses Py2Xsd SpecXsd SpecRound
  PfSimple PfRender PfRender2 PfRound PfLeaf PfLib PfLibRound PfXsd.
Import ListNotations.
Open Scope string_scope.
Open Scope list_scope.
Open Scope nat_scope.

Ltac rt_goal := repeat (apply Forall2_cons; [split; [reflexivity|]; cbn [fst snd]|]); [..|apply Forall2_nil].
Ltac rt_names := cbn; repeat constructor; cbn; intuition discriminate.

Lemma max_int z : maxoccurs_accept (VInt z) = Ok (VInt z).
Proof. unfold maxoccurs_accept. cbn. now rewrite Z.quot_1_r. Qed.

Section rt.
  Variables (O : oracle) (lim : nat).
  Local Notation at_ n c v := (rt_at O lim n (xs c) v).

  Lemma rv_opt n f cls o : f_kind f = KAttribute -> f_type f = TSimple (SString cls no_sfacets) -> f_min f = Some 0%Z -> f_default f = VNone ->
    text_opt o -> rt_val O lim n f (vs o).
  Proof.
    intros K T M D H. destruct o as [s|]; [|now apply (rv_none_str O lim n f cls no_sfacets)].
    apply (rv_str O lim n f cls no_sfacets); auto. now apply H.
  Qed.
  Ltac str := eapply rv_str; [reflexivity|reflexivity|reflexivity|assumption].
  Ltac ostr := eapply rv_opt; [reflexivity|reflexivity|reflexivity|reflexivity|assumption].
  Ltac none := apply rv_none; reflexivity.
  Ltac lst := eapply rv_list; [reflexivity|reflexivity|now left|reflexivity|try (constructor; fail)].

  Lemma rt_facet n cls s : In cls ["Enumeration"; "Pattern"; "RestrictionValue"] -> text s -> at_ (S n) cls (o_facet cls s).
  Proof.
    intros Hc Hs. repeat destruct Hc as [<- |Hc]; try destruct Hc;
    (eapply rt_fields; [vm_compute; reflexivity| |rt_names]; cbn [cd_fields]; rt_goal; str).
  Qed.
  Lemma rv_facet n f cls o : In cls ["Enumeration"; "Pattern"; "RestrictionValue"] -> f_kind f = KElement -> f_default f = VNone ->
    f_type f = xs_t cls -> text_opt o -> rt_val O lim (S n) f (o_opt cls o).
  Proof.
    intros Hc K D T H. destruct o as [s|]; [|now apply rv_none]. eapply rv_obj; [assumption|exact T|]. apply rt_facet; [assumption|now apply H].
  Qed.
  Lemma rt_restr n base enums pat mi me xe xi fr tot : text base -> Forall text enums -> text_opt pat ->
    text_opt mi -> text_opt me -> text_opt xe -> text_opt xi -> text_opt fr -> text_opt tot ->
    at_ (S (S n)) "Restriction" (o_restr base (map (o_facet "Enumeration") enums) pat mi me xe xi fr tot).
  Proof.
    intros Hb He Hp H1 H2 H3 H4 H5 H6.
    eapply rt_fields; [vm_compute; reflexivity| |rt_names]. cbn [cd_fields]. rt_goal.
    - str.
    - lst. clear -He. induction He; cbn [map]; constructor; auto. apply rt_facet; [now left|assumption].
    - now apply rv_facet; [right; left| | | |].
    - now apply rv_facet; [right; right; left| | | |].
    - now apply rv_facet; [right; right; left| | | |].
    - now apply rv_facet; [right; right; left| | | |].
    - now apply rv_facet; [right; right; left| | | |].
    - now apply rv_facet; [right; right; left| | | |].
    - now apply rv_facet; [right; right; left| | | |].
    - none.
    - none.
    - none.
    - none.
  Qed.
  Lemma rt_st n name fs : text_opt name -> at_ n "Restriction" (VObj (xs "Restriction") None fs) ->
    at_ (S n) "SimpleType" (o_st name (VObj (xs "Restriction") None fs)).
  Proof.
    intros Hn Hr. eapply rt_fields; [vm_compute; reflexivity| |rt_names]. cbn [cd_fields]. rt_goal.
    - ostr.
    - eapply rv_obj; [reflexivity|reflexivity|exact Hr].
    - none.
  Qed.
  Lemma rt_el n name ty mn mx nil subst st ct : text name -> text_opt ty -> text_opt subst ->
    st = VNone \/ at_ n "SimpleType" st -> ct = VNone \/ at_ n "XSDComplexType" ct ->
    at_ (S n) "Element" (o_el (VStr name) (vs ty) (tf_int mn) (occurs_val mx) (match nil with Some b => VBool b | None => VNone end) (vs subst) st ct).
  Proof.
    intros Hn Ht Hs Hst Hct. eapply rt_fields; [vm_compute; reflexivity| |rt_names]. cbn [cd_fields]. rt_goal.
    - str.
    - ostr.
    - apply (rv_none_str O lim n _ "String" no_sfacets); reflexivity.
    - destruct mn as [z|]; cbn [tf_int].
      + split; [|cbn; lia]. eapply rf_attr; [reflexivity|reflexivity|]. apply leaf_attr, everyday_leaf. constructor.
        split; intros ? [=].
      + split; [|cbn; lia]. eapply rf_attr_none; reflexivity.
    - split; [|destruct mx; cbn; lia]. destruct mx as [|z|]; cbn [occurs_val].
      + eapply rf_attr_none; reflexivity.
      + eapply rf_attr; [reflexivity|reflexivity|]. split; [discriminate|]. split; [discriminate|]. exists (dec_Z z).
        split; [reflexivity|]. split; [apply dec_Z_ok|]. split.
        * apply maxoccurs_text.
        * apply max_int.
      + eapply rf_attr; [reflexivity|reflexivity|]. split; [discriminate|]. split; [discriminate|]. exists "unbounded".
        repeat split.
    - split; [|destruct nil; cbn; lia]. destruct nil as [b|].
      + eapply rf_attr; [reflexivity|reflexivity|]. apply leaf_attr, everyday_leaf. constructor.
      + eapply rf_attr_none; reflexivity.
    - ostr.
    - destruct Hst as [-> |Hst]; [none|eapply rv_obj; [reflexivity|reflexivity|exact Hst]].
    - destruct Hct as [-> |Hct]; [none|eapply rv_obj; [reflexivity|reflexivity|exact Hct]].
  Qed.
  Lemma rt_seq n l : Forall (fun v => at_ n "Element" v) l -> at_ (S n) "Sequence" (o_seq l).
  Proof. intros H. eapply rt_fields; [vm_compute; reflexivity| |rt_names]. cbn [cd_fields]. rt_goal. lst. exact H. Qed.
  Lemma rt_ct n name s c a : text_opt name -> s = VNone \/ at_ n "Sequence" s -> c = VNone \/ at_ n "Sequence" c -> a = VNone \/ at_ n "Sequence" a ->
    at_ (S n) "XSDComplexType" (o_ct name s c a).
  Proof.
    intros Hn Hs Hc Ha. eapply rt_fields; [vm_compute; reflexivity| |rt_names]. cbn [cd_fields]. rt_goal.
    - ostr.
    - destruct Hs as [-> |Hs]; [none|eapply rv_obj; [reflexivity|reflexivity|exact Hs]].
    - destruct Hc as [-> |Hc]; [none|eapply rv_obj; [reflexivity|reflexivity|exact Hc]].
    - destruct Ha as [-> |Ha]; [none|eapply rv_obj; [reflexivity|reflexivity|exact Ha]].
    - none.
    - lst.
    - lst.
  Qed.
  Lemma rt_import n loc ns : text_opt loc -> text ns -> at_ (S n) "Import" (o_import loc ns).
  Proof.
    intros Hl Hn. eapply rt_fields; [vm_compute; reflexivity| |rt_names]. cbn [cd_fields]. rt_goal; [ostr|str].
  Qed.
  Lemma rt_include n loc : text loc -> at_ (S n) "Include" (o_include loc).
  Proof. intros Hl. eapply rt_fields; [vm_compute; reflexivity| |rt_names]. cbn [cd_fields]. rt_goal. str. Qed.
  Lemma rt_schema n tns efd i1 i2 ss cs es : text tns -> efd = "qualified" \/ efd = "unqualified" ->
    Forall (fun v => at_ n "Import" v) i1 -> Forall (fun v => at_ n "Include" v) i2 -> Forall (fun v => at_ n "SimpleType" v) ss ->
    Forall (fun v => at_ n "XSDComplexType" v) cs -> Forall (fun v => at_ n "Element" v) es ->
    at_ (S n) "Schema" (o_schema tns efd i1 i2 ss cs es).
  Proof.
    intros Ht He H1 H2 H3 H4 H5. eapply rt_fields; [vm_compute; reflexivity| |rt_names]. cbn [cd_fields]. rt_goal.
    - str.
    - destruct He as [-> | ->]; (eapply rv_str; reflexivity).
    - lst; exact H1.
    - lst; exact H2.
    - lst; exact H3.
    - lst.
    - lst.
    - lst; exact H4.
    - lst; exact H5.
  Qed.

  (** Those of a field, a class, a simple type. *)
  Lemma rt_restriction n G t : type_describable t -> facets_describable O G t -> at_ (S (S n)) "Restriction" (restr_of O G t).
  Proof.
    intros Ht (He & Hp & H1 & H2 & H3 & H4). unfold restr_of. cbv zeta. apply rt_restr; try (now apply text_val); try apply text_int.
    - now apply get_type_ok.
    - destruct (st_is_direct t); [now apply texts_strings, He|constructor].
    - intros s. destruct (tf_pattern t) as [p|]; [|discriminate]. cbn. unfold when. destruct (negb _); [|discriminate]. intros [= <-]. now apply Hp.
  Qed.
  Lemma rt_elem_of n G c f : field_describable O G c f -> at_ (S (S (S (S n)))) "Element" (elem_of O G c f).
  Proof.
    intros (Hn & Ht & Hf). unfold elem_of.
    assert (K : (match f_kind f with KList => occurs_val (f_max f) | _ => VNone end) = occurs_val (match f_kind f with KList => f_max f | _ => ONone end))
      by (destruct (f_kind f); reflexivity).
    rewrite K. apply (rt_el (S (S (S n))) _ (when (dc_class G c f) (type_ref (f_type f))) (f_min f) _ (Some (f_nillable f)) None).
    - exact Hn.
    - intros s E1. destruct (dc_class G c f); [|discriminate]. injection E1 as <-. now apply get_type_ok.
    - intros s [=].
    - destruct (dc_class G c f); [now left|right]. unfold restr_of, o_restr. cbv zeta. apply rt_st; [intros s [=]|].
      exact (rt_restriction n G (f_type f) Ht (Hf eq_refl)).
    - now left.
  Qed.
End rt.
