(** Generated classes: groups and attribute groups. *)
From Coq Require Import String Ascii List ZArith NArith Bool Lia.
From Verif Require Import PyBase PyVal XsdSimple XsdComplex XsdMeta LibClasses Py2Xsd GenNames Xsd2Py PyLoad SpecNames SpecGenCode
  PfBase PfMeta PfMeta2 PfLoad PfLoad2 PfSimple PfGenCode PfGenCode2 PfGenCode3 PfGenCode4 PfGenCode5.
Import ListNotations.
Open Scope nat_scope.
Open Scope string_scope.
Open Scope list_scope.

Lemma group_printed nss k e p g : states_element e p -> group_field nss k e = Ok g -> printed nss k (erased p) g.
Proof.
  intros (Ia & At & Hn & Ht & Nt & Lr & Ls & _) H. unfold group_field, item_name in H. rewrite (lacks_jget _ _ Lr) in H. cbn [py_truthy] in H.
  rewrite (has_jget _ _ _ Hn) in H. cbn [jtext] in H. rewrite (type_expr_element nss k e "Element" _ (or_introl eq_refl) Ia Lr Ht Nt) in H.
  apply bind_ok in H as (t & Gt & H). injection H as <-. exists t. split; [exact Gt|]. left. split; [exact At|].
  unfold element_kw, erased, keyword_tag. cbn [pt_max many pt_name pt_min pt_nil]. rewrite orb_false_r, !app_nil_r. reflexivity.
Qed.
Lemma groups_printed nss k els eps fs : Forall2 states_element els eps -> mapM (group_field nss k) els = Ok fs ->
  Forall2 (printed nss k) (map erased eps) fs.
Proof.
  intros S H. apply mapM_forall2 in H. revert eps S. induction H as [|e g els fs H F IH]; intros eps S; inversion_clear S as [|? p ? eps' Sp Sa]; [constructor|].
  cbn [map]. constructor; auto. now apply (group_printed _ _ e).
Qed.

Section Groups.
  Variables (rt : runtime) (limit : nat) (O : oracle) (nss : list (option string)) (known : list string) (x : pyval).
  Variables (code : list gclass * gschema_st) (m : module).
  Hypothesis Kn : Forall (fun n => identifier n = true) known.
  Hypothesis C : schema_code nss known x = Ok code.
  Hypothesis L : load rt limit O code = Ok m.

  Lemma group_made b g n ps k : b < 3 -> In g (fst code) -> (forall n, In n k -> identifier n = true) ->
    gc_name g = n -> (forall ms, eval_type ms (gc_base g) = Ok (TvClass (MComplex b))) -> gc_consts g = [] -> gc_create g = None ->
    Forall2 (printed nss k) ps (gc_fields g) -> usable ps ->
    In n (gz_attrgroups (snd code) ++ gz_groups (snd code) ++ gz_complex (snd code)) ->
    exists d, module_class m n d /\ cd_mro d = n :: map (class_name start) (mro_of start b) /\
      cd_kind d = (if Nat.eqb b 0 then CKPlain else CKGroup) /\ Forall2 (mirrors m nss) ps (cd_fields d).
  Proof.
    intros Hb Ig Kid Gn Gb Gk Gc Gf U Inn.
    destruct (schema_executed _ _ _ _ _ L) as (ms & tops & els' & Fm & _ & _ & _ & _ & _ & Sc).
    destruct (load_spec _ _ _ _ _ L) as (ms' & Fm' & G & Gm & Em & Ww & Wn & Wc & _ & _). rewrite Fm in Fm'. injection Fm' as <-.
    destruct (class_reached _ _ _ _ Fm Ig) as (ms1 & ms2 & G1 & X & G2 & E12 & E2 & Es).
    destruct (gd_base ms1 G1) as (L3 & F3 & Z). specialize (Z b Hb).
    assert (Bl : b < length (ms_class ms1)) by lia.
    assert (E1m : ext ms1 (md_state m)) by (eapply ext_trans; [|eapply ext_trans]; eauto).
    assert (Zm : class_fields (ms_world (md_state m)) b = []) by (rewrite (ext_class_fields ms1 _ b G1 E1m Bl); exact Z).
    assert (Mm : mro_of (md_state m) b = mro_of start b) by (apply (ext_mro start _ b start_good (ext_trans _ _ _ Es E1m)); cbn; lia).
    destruct (class_made rt nss k m g b [] None ps [] Kid Gf) with (ms1 := ms1) (ms2 := ms2) (ms := ms) as (c & own & Mc & Ec & Cf & Mi & Ci & Cm & Ck); auto.
    - intros c Hc. destruct (Sc _ Inn) as (_ & c' & Hc' & _ & R). rewrite Gn in Hc. rewrite Hc' in Hc. injection Hc as ->.
      intros f Hf. destruct (R f Hf) as (t & Ht). unfold force in Ht. apply bind_ok in Ht as (t' & Ht' & _). now exists t'.
    - rewrite Z. intros f [].
    - exists (class_def (md_state m) c). rewrite Gn in Mc, Cm. split; [exact Mc|]. split; [|split].
      + rewrite Cm. f_equal. unfold class_def. cbn [cd_mro]. rewrite Mm. apply map_ext_in. intros a Ha.
        unfold class_name. rewrite (ext_class_name start _ a (ext_trans _ _ _ Es E1m)); [reflexivity|].
        destruct b as [|[|[|]]]; try lia; cbn in Ha |- *; lia.
      + rewrite Ck. rewrite Ec. destruct (Nat.eqb_spec (length (ms_class ms1)) 1); [lia|]. unfold class_def. cbn [cd_kind]. rewrite Mm.
        destruct b as [|[|[|]]]; try lia; reflexivity.
      + rewrite Cf. unfold class_def at 1. cbn [cd_fields]. rewrite Zm. exact Mi.
  Qed.

  Lemma simple_known p1 sts : known_loop (simple_classes nss) known sts = Ok p1 -> mapM (fun o => cap (jget o "name")) sts = Ok (gz_simple (snd code)) ->
    forall n, In n (snd p1) -> identifier n = true.
  Proof.
    intros P1 N1 n I. destruct (known_loop_spec _ _ _ _ P1) as [_ B1]. destruct (load_spec _ _ _ _ _ L) as (ms & _ & _ & _ & _ & _ & _ & _ & Is & _).
    apply B1 in I as [I | (y & Iy & Ey)]; [rewrite Forall_forall in Kn; now apply Kn|].
    destruct (mapM_in _ _ _ _ N1 Iy) as (z & Ez & Hz). apply Is. congruence.
  Qed.

  Lemma group_class_made bl gs g name s b els eps : has x "groups" (VList bl gs) -> In g gs -> has g "name" (VStr name) ->
    has g "sequence" s -> is_a s "Sequence" -> has s "elements" (VList b els) -> Forall2 states_element els eps -> usable eps ->
    exists d, module_class m (capital name) d /\ cd_mro d = [capital name; "xsd.Group"; "xsd.ComplexType"] /\ cd_kind d = CKGroup /\
      Forall2 (mirrors m nss) (map erased eps) (cd_fields d).
  Proof.
    intros Hx Ig Hn Hs Is He Se U.
    destruct (schema_parts _ _ _ _ C) as (sts & ags & gs0 & cts & els0 & p1 & c2 & c3 & p4 & c5 & _ & _ & J & _ & _ & P1 & _ & C3 & _ & _ & Fc & N1 & _ & N3 & _).
    rewrite (has_jget _ _ _ Hx) in J. injection J as <-.
    destruct (mapM_in _ _ _ _ C3 Ig) as (gc & Cg & Igc). destruct (mapM_in _ _ _ _ N3 Ig) as (n & En & Inn).
    rewrite (has_jget _ _ _ Hn) in En. unfold group_class in Cg. rewrite (has_jget _ _ _ Hn) in Cg. cbn [cap] in Cg, En.
    rewrite En in Cg. cbn [bind] in Cg. apply capital_ok in En as [-> Ne]. rewrite (has_jget _ _ _ Hs) in Cg.
    destruct Is as (xe & ss & ->). rewrite (has_jget _ _ _ He) in Cg. cbn [jlist bind] in Cg.
    apply bind_ok in Cg as (fs & Fs & Cg). injection Cg as <-.
    assert (Ifc : In (mkGc (capital name) "xsd.Group" [] fs None) (fst code)) by (rewrite Fc, !in_app_iff; auto).
    eapply (group_made 1 _ (capital name) (map erased eps) (snd p1)) in Ifc; auto.
    - now apply (simple_known p1 sts).
    - now apply groups_printed with (els := els).
    - destruct U as [N R]. split; [now rewrite map_map|]. intros p Hp. apply in_map_iff in Hp as (p' & <- & Hp'). exact (R p' Hp').
    - rewrite !in_app_iff. auto.
  Qed.

  Lemma attrgroup_class_made bl ags g name b attrs aps : has x "attributeGroups" (VList bl ags) -> In g ags -> has g "name" (VStr name) ->
    has g "attributes" (VList b attrs) -> Forall2 states_attribute attrs aps -> usable aps ->
    exists d, module_class m (capital name) d /\ cd_mro d = [capital name; "xsd.AttributeGroup"; "xsd.Group"; "xsd.ComplexType"] /\ cd_kind d = CKGroup /\
      Forall2 (mirrors m nss) aps (cd_fields d).
  Proof.
    intros Hx Ig Hn Ha Sa U.
    destruct (schema_parts _ _ _ _ C) as (sts & ags0 & gs0 & cts & els0 & p1 & c2 & c3 & p4 & c5 & _ & J & _ & _ & _ & P1 & C2 & _ & _ & _ & Fc & N1 & N2 & _).
    rewrite (has_jget _ _ _ Hx) in J. injection J as <-.
    destruct (mapM_in _ _ _ _ C2 Ig) as (gc & Cg & Igc). destruct (mapM_in _ _ _ _ N2 Ig) as (n & En & Inn).
    rewrite (has_jget _ _ _ Hn) in En. unfold attribute_group in Cg. rewrite (has_jget _ _ _ Hn), (has_jget _ _ _ Ha) in Cg. cbn [cap jlist] in Cg, En.
    rewrite En in Cg. cbn [bind] in Cg. apply capital_ok in En as [-> Ne]. apply bind_ok in Cg as (fs & Fs & Cg). injection Cg as <-.
    assert (Ifc : In (mkGc (capital name) "xsd.AttributeGroup" [] fs None) (fst code)) by (rewrite Fc, !in_app_iff; auto).
    eapply (group_made 2 _ (capital name) aps (snd p1)) in Ifc; auto.
    - now apply (simple_known p1 sts).
    - now apply attributes_printed with (attrs := attrs).
    - rewrite !in_app_iff. auto.
  Qed.
End Groups.
