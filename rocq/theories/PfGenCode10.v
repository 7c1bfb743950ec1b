(** Generated classes: types that refer to attribute groups. *)
From Coq Require Import String Ascii List ZArith NArith Bool Lia Permutation.
From Verif Require Import PyBase PyVal XsdSimple XsdComplex XsdMeta LibClasses Py2Xsd GenNames GenOrder SpecOrder PfOrder2 Xsd2Py PyLoad SpecNames SpecGenCode SpecGenCode2 SpecService
  PfBase PfMeta PfMeta2 PfLoad PfLoad2 PfSimple PfService PfGenCode PfGenCode2 PfGenCode3 PfGenCode4 PfGenCode9.
Import ListNotations.
Open Scope nat_scope.
Open Scope string_scope.
Open Scope list_scope.

Section Class.
  Variables (rt : runtime) (m : module) (g : gclass) (b : nat).
  Variables (consts : list (string * pyx)) (i : option indicator) (names : list string) (els : list pyval).
  Hypothesis Gf : map gf_attr (gc_fields g) = names.
  Hypothesis Gk : gc_consts g = consts ++ match i with Some i => [("INDICATOR", XCode (indicator_code i))] | None => [] end.
  Hypothesis Gcr : gc_create g = match i with Some ISequence => Some (create_params els) | _ => None end.
  Hypothesis Hc : map fst consts = [] \/ map fst consts = ["INHERITANCE"].
  Hypothesis U : NoDup names.
  Hypothesis V : forall n, In n names -> ~ In n ["create"; "INDICATOR"; "INHERITANCE"].

  Lemma own_ind : own_indicator g = i.
  Proof.
    unfold own_indicator. rewrite Gk.
    assert (N : assoc "INDICATOR" consts = None) by (apply assoc_none; destruct Hc as [-> | ->]; cbn; intuition discriminate).
    rewrite (assoc_app_r _ _ _ N). destruct i as [[]|]; reflexivity.
  Qed.
  Lemma in_reserved s : In s (created g ++ const_names g) -> In s ["create"; "INDICATOR"; "INHERITANCE"].
  Proof.
    unfold created, const_names. rewrite Gcr, Gk, map_app. intros H. apply in_app_or in H as [H | H].
    - destruct i as [[]|]; cbn in H |- *; tauto.
    - apply in_app_or in H as [H | H]; [destruct Hc as [E | E]; rewrite E in H; cbn in H |- *; tauto|].
      destruct i as [[]|]; cbn in H |- *; tauto.
  Qed.

  (** As [class_made], for any fields. *)
  Lemma class_built ms1 : good ms1 -> forall ms2 ms, exec_class rt ms1 g = Ok ms2 -> good ms2 -> ext ms1 ms2 -> ext ms2 ms -> ext ms (md_state m) ->
    good (md_state m) -> ms_world (md_state m) = ms_world ms -> ms_class (md_state m) = ms_class ms ->
    eval_type ms1 (gc_base g) = Ok (TvClass (MComplex b)) -> b < length (ms_class ms1) ->
    (forall c, assoc (gc_name g) (ms_names ms) = Some (MComplex c) ->
       forall f, In f (class_fields (ms_world ms) c) -> exists t, resolve (md_state m) (f_type f) = Ok t) ->
    (forall f, In f (class_fields (ms_world ms1) b) -> ~ In (f_name f) ["create"; "INDICATOR"; "INHERITANCE"]) ->
    exists c fs, module_class m (gc_name g) (class_def (md_state m) c) /\ c = length (ms_class ms1) /\
      cd_fields (class_def (md_state m) c) =
        filter (fun f => negb (str_in (f_name f) names)) (cd_fields (class_def (md_state m) b)) ++ map (retype (md_state m)) fs /\
      mapM (make_field rt ms1) (gc_fields g) = Ok fs /\ (forall f, In f fs -> exists t, resolve (md_state m) (f_type f) = Ok t) /\
      cd_ind (class_def (md_state m) c) = match i with Some i => i | None => cd_ind (class_def (md_state m) b) end /\
      cd_mro (class_def (md_state m) c) = gc_name g :: cd_mro (class_def (md_state m) b) /\
      cd_kind (class_def (md_state m) c) = if Nat.eqb c 1 then CKGroup else cd_kind (class_def (md_state m) b).
  Proof.
    intros G1 ms2 ms X G2 E12 E23 Em Gm Ww Wc Ev Hb Rs Bn. unfold exec_class in X.
    destruct (identifier (gc_name g)) eqn:Id; cbn [negb] in X; [|discriminate].
    destruct (assoc (gc_name g) (ms_names ms1)) eqn:As; [discriminate|]. rewrite Ev in X. cbn [bind] in X.
    destruct (define_step rt ms1 g b ms2 G1 Id As Hb X) as (_ & _ & Nm & Nc & Mr & _ & fs & Fs & Cf). cbn zeta in *.
    set (c := length (ms_class ms1)) in *.
    assert (Lc : c < length (ms_class ms2)).
    { destruct (nth_error (ms_class ms2) c) eqn:E; [apply nth_error_Some; congruence|]. exfalso. apply nth_error_None in E. rewrite (nth_overflow _ _ E) in Nc. injection Nc as N0 _. rewrite <- N0 in Id. discriminate. }
    assert (Ac : assoc (gc_name g) (ms_names (md_state m)) = Some (MComplex c)).
    { apply (ext_bound _ _ _ _ Em), (ext_bound _ _ _ _ E23). rewrite Nm. rewrite (assoc_app_r _ _ _ As). cbn. now rewrite String.eqb_refl. }
    assert (Acs : assoc (gc_name g) (ms_names ms) = Some (MComplex c)).
    { apply (ext_bound _ _ _ _ E23). rewrite Nm. rewrite (assoc_app_r _ _ _ As). cbn. now rewrite String.eqb_refl. }
    assert (E2m : ext ms2 (md_state m)) by (eapply ext_trans; eauto).
    assert (E1m : ext ms1 (md_state m)) by (eapply ext_trans; eauto).
    assert (Cm : class_fields (ms_world (md_state m)) c = class_fields (ms_world ms2) c) by now apply ext_class_fields.
    assert (Bm : class_fields (ms_world (md_state m)) b = class_fields (ms_world ms1) b) by now apply ext_class_fields.
    assert (Surv : surviving (created g) fs = fs).
    { apply surviving_all.
      - rewrite (make_fields_names _ _ _ _ Fs), Gf. exact U.
      - intros f Hf Cr. apply (V (f_name f)).
        + rewrite <- Gf, <- (make_fields_names _ _ _ _ Fs). now apply in_map.
        + apply in_reserved, in_or_app. now left. }
    rewrite Surv in Cf.
    assert (Res : forall f, In f fs -> exists t, resolve (md_state m) (f_type f) = Ok t).
    { intros f Hf. apply (Rs c Acs). rewrite <- Ww, Cm, Cf. apply in_or_app. now right. }
    assert (Nms : map f_name fs = names) by (rewrite (make_fields_names _ _ _ _ Fs); exact Gf).
    exists c, fs. split; [|split; [reflexivity|split; [|split; [exact Fs|split; [exact Res|split; [|split]]]]]].
    - unfold module_class, module_env. cbn [e_cls]. now rewrite Ac.
    - unfold class_def. cbn [cd_fields]. rewrite Cm, Bm, Cf, map_app. f_equal.
      assert (Rn : forall f, f_name (retype (md_state m) f) = f_name f) by reflexivity.
      assert (Eq : filter (fun f => negb (str_in (f_name f) (body_names g))) (class_fields (ms_world ms1) b) =
                   filter (fun f => negb (str_in (f_name f) names)) (class_fields (ms_world ms1) b)).
      { apply filter_in_ext. intros f Hf. f_equal. unfold body_names. rewrite !str_in_app.
        rewrite <- (make_fields_names _ _ _ _ Fs), Nms. specialize (Bn f Hf).
        destruct (str_in (f_name f) (created g)) eqn:E1; [apply str_in_spec in E1; exfalso; apply Bn, in_reserved, in_or_app; now left|].
        destruct (str_in (f_name f) (const_names g)) eqn:E2; [apply str_in_spec in E2; exfalso; apply Bn, in_reserved, in_or_app; now right|].
        now rewrite orb_false_r. }
      rewrite Eq. clear. induction (class_fields (ms_world ms1) b) as [|f l IH]; [reflexivity|]. cbn [filter map f_name retype].
      destruct (negb _); cbn [map]; [f_equal|]; exact IH.
    - unfold class_def. cbn [cd_ind]. rewrite (ext_class_name _ _ c E2m) by lia. rewrite Nc. cbn [snd]. rewrite own_ind.
      destruct i; [reflexivity|]. now rewrite (ext_class_name _ _ b E1m).
    - unfold class_def. cbn [cd_mro]. rewrite (ext_mro _ _ c G2 E2m) by lia. rewrite Mr. cbn [map]. f_equal.
      + unfold class_name. rewrite (ext_class_name _ _ c E2m) by lia. now rewrite Nc.
      + f_equal. symmetry. now apply ext_mro.
    - unfold class_def. cbn [cd_kind]. rewrite (ext_mro _ _ c G2 E2m) by lia. rewrite Mr. cbn [existsb]. rewrite (ext_mro _ _ b G1 E1m Hb).
      rewrite Nat.eqb_sym. now destruct (Nat.eqb c 1).
  Qed.
End Class.

(** ** What is printed *)
Definition printed_ref (nss : list (option string)) (k : list string) (q : option string * string) (g : gfield) : Prop :=
  exists t s, qualified_name s (fst q) (snd q) /\ snd q <> "" /\ get_type nss (Some k) s = Ok t /\ g = mkGf (snd q) "Ref" t None [].
Lemma qualified_refers s p n : qualified_name s p n -> refers_to s n.
Proof. intros (C & H). split; [exact C|]. destruct p as [p|]; [right; exists p; apply H|left; exact H]. Qed.
Lemma reference_printed nss k g q h : states_reference g q -> attrgroup_field nss k g = Ok h -> printed_ref nss k q h.
Proof.
  intros (s & _ & Hs & Q) H. unfold attrgroup_field in H. rewrite (has_jget _ _ _ Hs) in H. apply bind_ok in H as (t & Ht & H).
  assert (Eh : h = mkGf (local_part (VStr s)) "Ref" t None []) by congruence.
  assert (Gt : get_type nss (Some k) s = Ok t) by exact Ht.
  destruct (get_type_ok _ _ _ _ Gt) as (p & local & Q' & Ne & _). destruct (qualified_unique _ _ _ _ _ Q Q') as [_ El].
  exists t, s. rewrite <- El in Ne. split; [exact Q|]. split; [exact Ne|]. split; [exact Gt|].
  now rewrite (refers_local s (snd q) (qualified_refers _ _ _ Q) Ne) in Eh.
Qed.
Lemma references_printed nss k gs qs f2 : Forall2 states_reference gs qs -> mapM (attrgroup_field nss k) gs = Ok f2 -> Forall2 (printed_ref nss k) qs f2.
Proof.
  intros R H. apply mapM_forall2 in H. revert qs R. induction H as [|a h gs f2 H F IH]; intros qs R; inversion_clear R as [|? q ? qs' Rq Rs]; constructor; auto.
  eapply reference_printed; eauto.
Qed.
Lemma body_printed_refs nss k name base consts content i els attrs refs eps aps qs g :
  states_content_refs content i els attrs refs -> Forall2 states_element els eps -> Forall2 states_attribute attrs aps -> Forall2 states_reference refs qs ->
  class_body nss k name base consts content = Ok g ->
  gc_name g = name /\ gc_base g = base /\
  (exists f1 f2 f3, gc_fields g = f1 ++ f2 ++ f3 /\ Forall2 (printed nss k) aps f1 /\ Forall2 (printed_ref nss k) qs f2 /\ Forall2 (printed nss k) eps f3) /\
  gc_consts g = consts ++ match i with Some i => [("INDICATOR", XCode (indicator_code i))] | None => [] end /\
  gc_create g = match i with Some ISequence => Some (create_params els) | _ => None end.
Proof.
  intros (C & (b1 & Ha) & (b2 & Hg)) Se Sa Sr H. unfold class_body in H. rewrite (has_jget _ _ _ Ha), (has_jget _ _ _ Hg) in H. cbn [jlist bind mapM] in H.
  assert (X : exists p, (if py_truthy (jget content "sequence") then (["xsd.Sequence"], jget content "sequence")
           else if py_truthy (jget content "all") then (["xsd.All"], jget content "all")
           else if py_truthy (jget content "choice") then (["xsd.Choice"], jget content "choice")
           else ([], VNone)) = p /\ match snd p with VNone => Ok [] | o => jlist (jget o "elements") end = Ok els /\
           fst p = match i with Some i => [indicator_code i] | None => [] end /\
           py_truthy (jget content "sequence") = match i with Some ISequence => true | _ => false end).
  { eexists. split; [reflexivity|]. destruct i as [i|].
    - destruct C as ((s & b & Hs & Is & Hel) & L).
      assert (Je : jlist (jget s "elements") = Ok els) by now rewrite (has_jget _ _ _ Hel).
      destruct i; cbn [group_of] in Hs.
      + rewrite (has_jget _ _ _ Hs), (obj_truthy _ _ Is). cbn [snd fst py_truthy]. split; [destruct Is as (xe & fs & ->); exact Je|split; reflexivity].
      + pose proof (lacks_jget _ _ (L ISequence ltac:(discriminate))) as L1. pose proof (lacks_jget _ _ (L IAll ltac:(discriminate))) as L2.
        cbn [group_of] in L1, L2. rewrite L1, L2, (has_jget _ _ _ Hs), (obj_truthy _ _ Is). cbn [snd fst py_truthy]. split; [destruct Is as (xe & fs & ->); exact Je|split; reflexivity].
      + pose proof (lacks_jget _ _ (L ISequence ltac:(discriminate))) as L1. pose proof (lacks_jget _ _ (L IChoice ltac:(discriminate))) as L2.
        cbn [group_of] in L1, L2. rewrite L1, (has_jget _ _ _ Hs), (obj_truthy _ _ Is). cbn [snd fst py_truthy]. split; [destruct Is as (xe & fs & ->); exact Je|split; reflexivity].
    - destruct C as (-> & L). pose proof (lacks_jget _ _ (L ISequence)) as L1. pose proof (lacks_jget _ _ (L IChoice)) as L2. pose proof (lacks_jget _ _ (L IAll)) as L3.
      cbn [group_of] in L1, L2, L3. rewrite L1, L2, L3. cbn. auto. }
  destruct X as (p & Ep & X1 & X2 & X3). cbn zeta in H. rewrite Ep in H.
  match type of H with bind ?t _ = _ => assert (X1' : t = Ok els) by exact X1; rewrite X1' in H end. rewrite X2, X3 in H. cbn [bind] in H.
  apply bind_ok in H as (f1 & F1 & H). apply bind_ok in H as (f2 & F2 & H). apply bind_ok in H as (f3 & F3 & H). injection H as <-. cbn [gc_name gc_base gc_consts gc_fields gc_create].
  split; [reflexivity|]. split; [reflexivity|]. split; [|split].
  - exists f1, f2, (concat f3). split; [reflexivity|]. split; [now apply (attributes_printed nss k attrs)|]. split; [now apply (references_printed nss k refs)|now apply (elements_printed nss k els)].
  - f_equal. destruct i; reflexivity.
  - destruct i as [[]|]; reflexivity.
Qed.

(** ** Names *)
Lemma printed_names nss k ps f : Forall2 (printed nss k) ps f -> map gf_attr f = map (fun p => python_name (pt_name p)) ps.
Proof. induction 1 as [|p h ps f Hp F IH]; cbn; [reflexivity|]. now rewrite IH, (printed_attr _ _ _ _ Hp). Qed.
Lemma names_of nss k g aps eps qs f1 f2 f3 : gc_fields g = f1 ++ f2 ++ f3 -> Forall2 (printed nss k) aps f1 -> Forall2 (printed_ref nss k) qs f2 ->
  Forall2 (printed nss k) eps f3 -> map gf_attr (gc_fields g) = field_names aps eps qs.
Proof.
  intros -> P1 P2 P3. unfold field_names. rewrite !map_app, (printed_names _ _ _ _ P1), (printed_names _ _ _ _ P3). do 2 f_equal.
  clear - P2. induction P2 as [|q h qs f (t & s & _ & _ & _ & ->) F IH]; cbn; [reflexivity|]. now rewrite IH.
Qed.
Lemma names_perm aps eps qs : Permutation (map (fun p => python_name (pt_name p)) (aps ++ eps) ++ map snd qs) (field_names aps eps qs).
Proof. unfold field_names. rewrite map_app, <- app_assoc. apply Permutation_app_head, Permutation_app_comm. Qed.
Lemma names_nodup aps eps qs : usable_refs (aps ++ eps) qs -> NoDup (field_names aps eps qs).
Proof. intros (N & _). eapply Permutation_NoDup; [apply names_perm|exact N]. Qed.
Lemma names_free aps eps qs : usable_refs (aps ++ eps) qs -> forall n, In n (field_names aps eps qs) -> ~ In n ["create"; "INDICATOR"; "INHERITANCE"].
Proof.
  intros (_ & A & B) n I R. eapply Permutation_in in I; [|apply Permutation_sym, names_perm]. apply in_app_or in I as [I | I].
  - apply in_map_iff in I as (p & E & I). apply (A p I). now rewrite (python_name_reserved _ _ R E).
  - apply in_map_iff in I as (q & E & I). apply (B q I). now rewrite E.
Qed.

(** ** The fields *)
Lemma refs_made (m : module) nss k rt ms qs gs fs : good ms -> ext ms (md_state m) -> good (md_state m) ->
  (forall n, In n k -> identifier n = true) -> Forall2 (printed_ref nss k) qs gs -> mapM (make_field rt ms) gs = Ok fs ->
  (forall f, In f fs -> exists t, resolve (md_state m) (f_type f) = Ok t) -> Forall2 (refers m nss) qs (map (retype (md_state m)) fs).
Proof.
  intros G Ex Gm Kid P M R. apply mapM_forall2 in M. revert fs M R. induction P as [|q g qs gs (t & s & Q & Ne & Gt & ->) P IH]; intros fs M; inversion_clear M as [|? f ? fs' Hf M']; intros R; cbn [map]; [constructor|].
  constructor; [|apply IH; auto; intros; apply R; now right].
  unfold make_field in Hf. cbn [gf_attr gf_cls gf_kw] in Hf. destruct (identifier (snd q)); cbn [negb] in Hf; [|discriminate].
  apply bind_ok in Hf as (ty & Ft & Hf). cbn in Hf. injection Hf as <-.
  destruct (R _ (or_introl eq_refl)) as (t0 & R0). cbn [f_type] in R0.
  destruct (type_denotes m nss k s t rt ms (mkGf (snd q) "Ref" t None []) ty G Ex Gm Kid Gt eq_refl eq_refl Ft) as (t' & R' & (p & local & Q' & _ & D)); [eauto|].
  destruct (qualified_unique _ _ _ _ _ Q Q') as [<- <-].
  unfold refers, retype. cbn [f_name f_kind f_type f_tag f_min f_max f_nillable f_default f_ns]. rewrite R'. auto 12.
Qed.
Lemma mapM_app_inv {A B} (f : A -> res B) l1 l2 r : mapM f (l1 ++ l2) = Ok r -> exists r1 r2, r = r1 ++ r2 /\ mapM f l1 = Ok r1 /\ mapM f l2 = Ok r2.
Proof.
  revert r. induction l1 as [|x l1 IH]; intros r H; cbn [app mapM] in H |- *; [exists [], r; auto|].
  apply bind_ok in H as (y & Hy & H). apply bind_ok in H as (r' & Hr & H). injection H as <-. destruct (IH _ Hr) as (r1 & r2 & -> & H1 & H2).
  exists (y :: r1), r2. rewrite Hy, H1. auto.
Qed.
Lemma fields_refs (m : module) nss k rt ms aps eps qs g f1 f2 f3 fs : good ms -> ext ms (md_state m) -> good (md_state m) ->
  (forall n, In n k -> identifier n = true) -> gc_fields g = f1 ++ f2 ++ f3 -> Forall2 (printed nss k) aps f1 -> Forall2 (printed_ref nss k) qs f2 ->
  Forall2 (printed nss k) eps f3 -> mapM (make_field rt ms) (gc_fields g) = Ok fs ->
  (forall f, In f fs -> exists t, resolve (md_state m) (f_type f) = Ok t) ->
  exists o1 o2 o3, map (retype (md_state m)) fs = o1 ++ o2 ++ o3 /\ Forall2 (mirrors m nss) aps o1 /\ Forall2 (refers m nss) qs o2 /\ Forall2 (mirrors m nss) eps o3.
Proof.
  intros G Ex Gm Kid Ef P1 P2 P3 M R. rewrite Ef in M. apply mapM_app_inv in M as (r1 & r' & -> & M1 & M). apply mapM_app_inv in M as (r2 & r3 & -> & M2 & M3).
  exists (map (retype (md_state m)) r1), (map (retype (md_state m)) r2), (map (retype (md_state m)) r3). split; [now rewrite !map_app|]. split; [|split].
  - refine (proj1 (fields_mirror m nss k rt ms _ _ _ G Ex Gm Kid P1 M1 _)). intros f Hf. apply R, in_or_app. now left.
  - refine (refs_made m nss k rt ms _ _ _ G Ex Gm Kid P2 M2 _). intros f Hf. apply R, in_or_app. right. apply in_or_app. now left.
  - refine (proj1 (fields_mirror m nss k rt ms _ _ _ G Ex Gm Kid P3 M3 _)). intros f Hf. apply R, in_or_app. right. apply in_or_app. now right.
Qed.

Section Types.
  Variable ms0 : mstate.
  Hypothesis G0 : good ms0.
  Hypothesis E0 : ext start ms0.
  Variables (rt : runtime) (limit : nat) (O : oracle) (nss : list (option string)) (known : list string) (x : pyval).
  Variables (code : list gclass * gschema_st) (m : module) (bl : bool) (cts : list pyval) (ct : pyval) (name : string).
  Variables (i : option indicator) (els attrs refs : list pyval) (eps aps : list particle) (qs : list (option string * string)).
  Hypothesis Kn : Forall (fun n => identifier n = true) known.
  Hypothesis C : schema_code nss known x = Ok code.
  Hypothesis L : load_from rt limit O ms0 code = Ok m.
  Hypothesis Hx : has x "complexTypes" (VList bl cts).
  Hypothesis Hct : In ct cts.
  Hypothesis Hn : has ct "name" (VStr name).
  Hypothesis Se : Forall2 states_element els eps.
  Hypothesis Sa : Forall2 states_attribute attrs aps.
  Hypothesis Sr : Forall2 states_reference refs qs.
  Hypothesis U : usable_refs (aps ++ eps) qs.

  Lemma plain_refs_from : lacks ct "complexContent" -> states_content_refs ct i els attrs refs ->
    exists d, module_class m (capital name) d /\ cd_mro d = [capital name; "xsd.ComplexType"] /\ cd_kind d = CKPlain /\
      cd_ind d = match i with Some i => i | None => ISequence end /\
      exists o1 o2 o3, cd_fields d = o1 ++ o2 ++ o3 /\ Forall2 (mirrors m nss) aps o1 /\ Forall2 (refers m nss) qs o2 /\ Forall2 (mirrors m nss) eps o3.
  Proof.
    intros Lc Sc. destruct (schema_complex _ _ _ _ _ _ _ C Hx Hct) as (k & g & n & Cg & Ig & En & Inn & Kk).
    rewrite (has_jget _ _ _ Hn) in En, Cg. cbn [cap] in En. rewrite class_of_type_body in Cg. unfold class_head in Cg. rewrite (lacks_jget _ _ Lc) in Cg. cbn [py_truthy cap] in Cg.
    rewrite En in Cg. cbn [bind] in Cg. apply capital_ok in En as [-> Ne].
    destruct (body_printed_refs _ _ _ _ _ _ _ _ _ _ _ _ _ _ Sc Se Sa Sr Cg) as (Gn & Gb & (f1 & f2 & f3 & Ef & P1 & P2 & P3) & Gk & Gcr).
    destruct (load_from_spec _ _ _ _ _ _ G0 L) as (ms & Fm & G & Gm & Em & Ww & Wn & Wc & Is & Ic).
    assert (Kid : forall n, In n k -> identifier n = true).
    { intros n0 I. apply Kk in I as [I | [I | I]]; [rewrite Forall_forall in Kn; now apply Kn|now apply Is|now apply Ic]. }
    destruct (class_reached_from _ _ _ _ _ G0 E0 Fm Ig) as (ms1 & ms2 & G1 & X & G2 & E12 & E2 & Es).
    assert (Ev : eval_type ms1 (gc_base g) = Ok (TvClass (MComplex 0))) by (rewrite Gb; reflexivity).
    assert (B0 : 0 < length (ms_class ms1)) by (pose proof (proj1 (gd_base ms1 G1)); lia).
    destruct (gd_base ms1 G1) as (L3 & F3 & Z). specialize (Z 0 ltac:(lia)).
    assert (E1m : ext ms1 (md_state m)) by (eapply ext_trans; [|eapply ext_trans]; eauto).
    assert (Zm : class_fields (ms_world (md_state m)) 0 = []) by (rewrite (ext_class_fields ms1 _ 0 G1 E1m B0); exact Z).
    assert (Mm : mro_of (md_state m) 0 = [0]) by (rewrite (ext_mro start _ 0 start_good (ext_trans _ _ _ Es E1m)); [reflexivity|cbn; lia]).
    destruct (class_built rt m g 0 _ i _ els (names_of nss k g aps eps qs f1 f2 f3 Ef P1 P2 P3) Gk Gcr) with (ms1 := ms1) (ms2 := ms2) (ms := ms) as (c & fs & Mc & Ec & Cf & Fs & Rf & Ci & Cm & Ck); auto.
    - destruct (py_truthy _); cbn; auto.
    - apply (names_nodup aps eps qs U).
    - apply (names_free aps eps qs U).
    - intros c Hc. destruct (Ic _ Inn) as (_ & c' & Hc' & R). rewrite Gn in Hc. rewrite Hc' in Hc. injection Hc as ->. exact R.
    - rewrite Z. intros f [].
    - exists (class_def (md_state m) c). rewrite Gn in Mc, Cm. split; [exact Mc|]. split; [|split; [|split]].
      + rewrite Cm. unfold class_def. cbn [cd_mro]. rewrite Mm. cbn [map]. now rewrite (base_name _ 0 Gm) by lia.
      + rewrite Ck. rewrite Ec. destruct (Nat.eqb_spec (length (ms_class ms1)) 1); [lia|]. unfold class_def. cbn [cd_kind]. now rewrite Mm.
      + rewrite Ci. destruct i; [reflexivity|]. unfold class_def. cbn [cd_ind].
        rewrite (ext_class_name start _ 0 (ext_trans _ _ _ Es E1m)) by (cbn; lia). reflexivity.
      + destruct (fields_refs m nss k rt ms1 aps eps qs g f1 f2 f3 fs G1 E1m Gm Kid Ef P1 P2 P3 Fs Rf) as (o1 & o2 & o3 & Eo & M1 & M2 & M3).
        exists o1, o2, o3. rewrite Cf, Eo. unfold class_def at 1. cbn [cd_fields]. rewrite Zm. auto.
  Qed.

  Lemma derived_refs_from cc ex q p local : has ct "complexContent" cc -> is_a cc "ComplexContent" -> lacks cc "restriction" ->
    has cc "extension" ex -> is_a ex "Extension" -> has ex "base" (VStr q) -> qualified_name q p local -> ~ In p nss ->
    states_content_refs ex i els attrs refs ->
    (forall db f, module_class m (capital local) db -> In f (cd_fields db) -> ~ In (f_name f) ["create"; "INDICATOR"; "INHERITANCE"]) ->
    exists d db o1 o2 o3, module_class m (capital name) d /\ module_class m (capital local) db /\
      cd_mro d = capital name :: cd_mro db /\ cd_kind d = cd_kind db /\
      cd_ind d = match i with Some i => i | None => cd_ind db end /\
      cd_fields d = filter (fun f => negb (str_in (f_name f) (field_names aps eps qs))) (cd_fields db) ++ o1 ++ o2 ++ o3 /\
      Forall2 (mirrors m nss) aps o1 /\ Forall2 (refers m nss) qs o2 /\ Forall2 (mirrors m nss) eps o3.
  Proof.
    intros Hcc Icc Lr Hex Iex Hq Q Nq Sc Res. destruct (schema_complex _ _ _ _ _ _ _ C Hx Hct) as (k & g & n & Cg & Ig & En & Inn & Kk).
    rewrite (has_jget _ _ _ Hn) in En, Cg. rewrite class_of_type_body in Cg. unfold class_head in Cg.
    rewrite (has_jget _ _ _ Hcc), (obj_truthy _ _ Icc), (lacks_jget _ _ Lr), (has_jget _ _ _ Hex), (has_jget _ _ _ Hn), En in Cg. cbn [bind py_truthy] in Cg.
    cbn [cap] in En. apply capital_ok in En as [-> Ne].
    apply bind_ok in Cg as (h & Hh & Cg). apply bind_ok in Hh as (bx & Hb & Hh). injection Hh as <-. cbn iota beta in Cg.
    assert (Gt : get_type nss (Some k) q = Ok bx).
    { rewrite <- Hb. destruct Iex as (xe & fs & Ee). unfold type_expr. rewrite (has_jget _ _ _ Hq). rewrite Ee. reflexivity. }
    destruct (body_printed_refs _ _ _ _ _ _ _ _ _ _ _ _ _ _ Sc Se Sa Sr Cg) as (Gn & Gb & (f1 & f2 & f3 & Ef & P1 & P2 & P3) & Gk & Gcr).
    destruct (load_from_spec _ _ _ _ _ _ G0 L) as (ms & Fm & G & Gm & Em & Ww & Wn & Wc & Is & Ic).
    assert (Kid : forall n, In n k -> identifier n = true).
    { intros n0 I. apply Kk in I as [I | [I | I]]; [rewrite Forall_forall in Kn; now apply Kn|now apply Is|now apply Ic]. }
    destruct (class_reached_from _ _ _ _ _ G0 E0 Fm Ig) as (ms1 & ms2 & G1 & X & G2 & E12 & E2 & Es).
    assert (E1m : ext ms1 (md_state m)) by (eapply ext_trans; [|eapply ext_trans]; eauto).
    (* the base is a class of the module *)
    assert (Bs : exists b, eval_type ms1 (gc_base g) = Ok (TvClass (MComplex b)) /\ assoc (capital local) (ms_names ms1) = Some (MComplex b)).
    { pose proof X as X'. unfold exec_class in X'. destruct (identifier (gc_name g)); cbn [negb] in X'; [|discriminate].
      destruct (assoc (gc_name g) (ms_names ms1)) eqn:As; [discriminate|]. apply bind_ok in X' as (tv & Etv & X'). rewrite Etv. rewrite Gb in Etv.
      apply get_type_ok in Gt as (p' & local' & Q' & _ & Cases). destruct (qualified_unique _ _ _ _ _ Q Q') as [<- <-].
      destruct Cases as [[Y _]|[_ [[Ik ->]|Ebx]]]; [contradiction| |].
      - rewrite (eval_name _ _ (Kid _ Ik)) in Etv. destruct (assoc (capital local) (ms_names ms1)) as [[b|s]|] eqn:Eb; [| |discriminate].
        + injection Etv as <-. eauto.
        + injection Etv as <-. exfalso. apply bind_ok in X' as (kw & _ & X'). apply bind_ok in X' as (t' & _ & X'). injection X' as <-.
          destruct (Ic _ Inn) as (_ & c & Hc & _).
          assert (Hs : assoc (capital name) (ms_names ms) = Some (MSimple t')).
          { apply (ext_bound _ _ _ _ E2). cbn [ms_names]. rewrite <- Gn, (assoc_app_r _ _ _ As). cbn. now rewrite String.eqb_refl. }
          congruence.
      - rewrite Ebx, eval_lazy in Etv. injection Etv as <-. discriminate. }
    destruct Bs as (b & Ev & Ab). assert (Bl : b < length (ms_class ms1)) by now apply (gd_names ms1 G1) in Ab.
    assert (Mb : module_class m (capital local) (class_def (md_state m) b)).
    { unfold module_class, module_env. cbn [e_cls]. now rewrite (ext_bound _ _ _ _ E1m Ab). }
    destruct (class_built rt m g b _ i _ els (names_of nss k g aps eps qs f1 f2 f3 Ef P1 P2 P3) Gk Gcr) with (ms1 := ms1) (ms2 := ms2) (ms := ms) as (c & fs & Mc & Ec & Cf & Fs & Rf & Ci & Cm & Ck); auto.
    - apply (names_nodup aps eps qs U).
    - apply (names_free aps eps qs U).
    - intros c Hc. destruct (Ic _ Inn) as (_ & c' & Hc' & R). rewrite Gn in Hc. rewrite Hc' in Hc. injection Hc as ->. exact R.
    - intros f Hf. apply (Res _ (retype (md_state m) f) Mb). unfold class_def. cbn [cd_fields]. apply in_map. now rewrite (ext_class_fields ms1 _ b G1 E1m Bl).
    - destruct (fields_refs m nss k rt ms1 aps eps qs g f1 f2 f3 fs G1 E1m Gm Kid Ef P1 P2 P3 Fs Rf) as (o1 & o2 & o3 & Eo & M1 & M2 & M3). rewrite Eo in Cf.
      exists (class_def (md_state m) c), (class_def (md_state m) b), o1, o2, o3. rewrite Gn in Mc, Cm. split; [exact Mc|]. split; [exact Mb|].
      split; [exact Cm|]. split; [|auto 10]. rewrite Ck, Ec. pose proof (proj1 (gd_base ms1 G1)). destruct (Nat.eqb_spec (length (ms_class ms1)) 1); [lia|reflexivity].
  Qed.
End Types.
Definition plain_refs := plain_refs_from start start_good (ext_refl start).
Definition derived_refs := derived_refs_from start start_good (ext_refl start).
Lemma plain_refs_printed :
  forall sort n rt limit O nss known x code m bl cts ct name i els attrs refs eps aps qs, list_sort sort ->
  Forall (fun n => identifier n = true) known -> schema_to_py sort n nss known x = Ok code -> load rt limit O code = Ok m ->
  has x "complexTypes" (VList bl cts) -> In ct cts -> has ct "name" (VStr name) ->
  Forall2 states_element els eps -> Forall2 states_attribute attrs aps -> Forall2 states_reference refs qs -> usable_refs (aps ++ eps) qs ->
  lacks ct "complexContent" -> states_content_refs ct i els attrs refs ->
  exists d, module_class m (capital name) d /\ cd_mro d = [capital name; "xsd.ComplexType"] /\ cd_kind d = CKPlain /\
    cd_ind d = match i with Some i => i | None => ISequence end /\
    exists o1 o2 o3, cd_fields d = o1 ++ o2 ++ o3 /\ Forall2 (mirrors m nss) aps o1 /\ Forall2 (refers m nss) qs o2 /\ Forall2 (mirrors m nss) eps o3.
Proof. printed plain_refs. Qed.
Lemma derived_refs_printed :
  forall sort n rt limit O nss known x code m bl cts ct name i els attrs refs eps aps qs, list_sort sort ->
  Forall (fun n => identifier n = true) known -> schema_to_py sort n nss known x = Ok code -> load rt limit O code = Ok m ->
  has x "complexTypes" (VList bl cts) -> In ct cts -> has ct "name" (VStr name) ->
  Forall2 states_element els eps -> Forall2 states_attribute attrs aps -> Forall2 states_reference refs qs -> usable_refs (aps ++ eps) qs ->
  forall cc ex q p local, has ct "complexContent" cc -> is_a cc "ComplexContent" -> lacks cc "restriction" ->
  has cc "extension" ex -> is_a ex "Extension" -> has ex "base" (VStr q) -> qualified_name q p local -> ~ In p nss ->
  states_content_refs ex i els attrs refs ->
  (forall db f, module_class m (capital local) db -> In f (cd_fields db) -> ~ In (f_name f) ["create"; "INDICATOR"; "INHERITANCE"]) ->
  exists d db o1 o2 o3, module_class m (capital name) d /\ module_class m (capital local) db /\
    cd_mro d = capital name :: cd_mro db /\ cd_kind d = cd_kind db /\
    cd_ind d = match i with Some i => i | None => cd_ind db end /\
    cd_fields d = filter (fun f => negb (str_in (f_name f) (field_names aps eps qs))) (cd_fields db) ++ o1 ++ o2 ++ o3 /\
    Forall2 (mirrors m nss) aps o1 /\ Forall2 (refers m nss) qs o2 /\ Forall2 (mirrors m nss) eps o3.
Proof. printed derived_refs. Qed.
