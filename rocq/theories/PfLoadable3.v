(** Modules that can be imported: the whole document. *)
From Coq Require Import String Ascii List ZArith NArith Bool Permutation Lia.
From Verif Require Import PyBase PyVal XsdSimple XsdComplex XsdMeta LibClasses Py2Xsd GenNames Xsd2Py PyLoad SpecNames SpecGenCode SpecTotal
  SpecUrl SpecService SpecLoadable PfBase PfMeta PfMeta2 PfLoad PfLoad2 PfSimple PfGenCode PfGenCode2 PfGenCode3 PfGenCode4 PfGenCode5 PfGenCode7 PfLoadable PfLoadable2.
From Verif Require PfNames PfService2 PfTotal.
Import ListNotations.
Open Scope nat_scope.
Open Scope string_scope.
Open Scope list_scope.

Lemma nodup_mid {A} (x : A) l1 l2 : NoDup (l1 ++ x :: l2) -> ~ In x l1.
Proof. intros N I. apply (NoDup_remove_2 _ _ _ N). apply in_or_app. now left. Qed.
Lemma nodup_left {A} (l1 l2 : list A) : NoDup (l1 ++ l2) -> NoDup l1.
Proof. induction l1 as [|x l1 IH]; [constructor|]. cbn [app]. intros N. inversion_clear N as [|? ? Nx Nl]. constructor; [|auto]. intros I. apply Nx, in_or_app. now left. Qed.

Section Document.
  Variables (rt : runtime) (nss : list (option string)) (limit : nat) (pre : list schema_plan) (s : schema_plan) (rank : string -> nat) (O : oracle).
  Variables (kt0 k0 : list string).
  Notation u := (joined pre s).
  Hypothesis W : ordered_works nss limit pre s rank.
  Hypothesis K0 : forall n, In n kt0 <-> In n (flat_map simple_names pre ++ flat_map complex_names pre).
  Hypothesis B0 : Permutation k0 (flat_map simple_names pre ++ flat_map complex_names pre ++ flat_map own_names pre).
  Notation built := (built u rank).

  (** Names, from earlier documents and from this one. *)
  Definition known : list string := kt0 ++ simple_names s ++ complex_names s.
  Definition all_names : list string := k0 ++ simple_names s ++ complex_names s ++ own_names s.
  Lemma names_perm : Permutation all_names (simple_names u ++ complex_names u ++ own_names u).
  Proof.
    rewrite joined_simple, joined_complex, joined_own. unfold all_names.
    generalize (flat_map simple_names pre) (flat_map complex_names pre) (flat_map own_names pre) B0. intros a b c P.
    transitivity ((a ++ b ++ c) ++ simple_names s ++ complex_names s ++ own_names s); [now apply Permutation_app_tail|].
    rewrite <- !app_assoc. apply Permutation_app_head.
    transitivity (b ++ simple_names s ++ c ++ complex_names s ++ own_names s).
    { apply Permutation_app_head. rewrite !app_assoc. do 2 apply Permutation_app_tail. apply Permutation_app_comm. }
    transitivity (simple_names s ++ b ++ c ++ complex_names s ++ own_names s).
    { rewrite !app_assoc. do 3 apply Permutation_app_tail. apply Permutation_app_comm. }
    do 2 apply Permutation_app_head. rewrite !app_assoc. apply Permutation_app_tail. apply Permutation_app_comm.
  Qed.
  Lemma names_once : NoDup all_names.
  Proof. apply (Permutation_NoDup (Permutation_sym names_perm)). apply W. Qed.
  Lemma names_iff n : In n all_names <-> In n (simple_names u ++ complex_names u ++ own_names u).
  Proof. split; apply Permutation_in; [exact names_perm|exact (Permutation_sym names_perm)]. Qed.
  Lemma known_iff n : In n known <-> In n (simple_names u ++ complex_names u).
  Proof. unfold known. rewrite joined_simple, joined_complex, !in_app_iff, K0, in_app_iff. tauto. Qed.
  Lemma early_known : incl kt0 k0.
  Proof. intros n I. apply (Permutation_in _ (Permutation_sym B0)). apply K0 in I. rewrite app_assoc. apply in_or_app. now left. Qed.
  Lemma known_bound : incl known (k0 ++ simple_names s ++ complex_names s).
  Proof. intros n I. unfold known in I. apply in_app_or in I as [I | I]; apply in_or_app; [left; now apply early_known|now right]. Qed.
  Lemma known_names n : In n known -> In n all_names.
  Proof. intros I. apply known_bound in I. unfold all_names. rewrite !in_app_iff in *. tauto. Qed.
  Lemma class_all n : In n (complex_names u ++ own_names u) -> In n all_names.
  Proof. intros I. apply names_iff. apply in_or_app. now right. Qed.

  Definition snames (l : list simple_plan) : list string := map (fun p => capital (sp_name p)) l.
  Definition cnames (l : list complex_plan) : list string := map (fun p => capital (cp_name p)) l.

  Lemma simples_total l ps : Forall2 states_simple l ps -> forall before, sc_simples s = before ++ ps ->
    exists r, known_loop (simple_classes nss) (kt0 ++ snames before) l = Ok r /\ snd r = kt0 ++ snames (before ++ ps) /\
      forall ms, built ms (k0 ++ snames before) -> exists ms', foldM (exec_class rt) ms (fst r) = Ok ms' /\ built ms' (k0 ++ snames (before ++ ps)).
  Proof.
    induction 1 as [|st p l ps S F IH]; intros before E.
    - eexists. split; [reflexivity|]. cbn [snd fst]. rewrite app_nil_r. split; [reflexivity|]. intros ms B. exists ms. auto.
    - destruct (simple_step_total rt nss limit pre s rank W st p before ps (kt0 ++ snames before) (k0 ++ snames before) E S) as (g & Hg & Hc & Hx).
      { intros b I. apply in_app_or in I as [I | I]; apply in_or_app.
        - left. apply K0. apply in_or_app. left. apply in_flat_map in I as (d & Id & I). apply in_flat_map. exists d. split; [exact Id|].
          unfold simple_names. apply (in_map (fun p => capital (sp_name p)) _ _ I).
        - right. unfold snames. now apply (in_map (fun p => capital (sp_name p))). }
      { intros n I. apply in_app_or in I as [I | I]; apply in_or_app; [left; now apply early_known|now right]. }
      destruct (IH (before ++ [p])) as (r & Hr & Hs & Hb); [now rewrite <- app_assoc|].
      rewrite <- (app_assoc before) in Hs, Hb. cbn [app] in Hs, Hb.
      assert (E1 : snames (before ++ [p]) = snames before ++ [capital (sp_name p)]) by (unfold snames; now rewrite map_app).
      rewrite E1, app_assoc in Hr. rewrite E1, (app_assoc k0) in Hb. cbn [known_loop]. rewrite Hg, Hc. cbn [bind]. rewrite Hr. cbn [bind]. eexists. split; [reflexivity|]. cbn [fst snd].
      split; [exact Hs|]. intros ms B. destruct (Hx ms B) as (ms1 & X1 & B1).
      { pose proof names_once as N. unfold all_names in N. rewrite app_assoc in N. apply nodup_left in N. unfold simple_names in N. rewrite E, map_app, app_assoc in N. cbn [map] in N. now apply nodup_mid in N. }
      destruct (Hb ms1 B1) as (ms2 & X2 & B2). exists ms2. split; [|exact B2]. cbn [app foldM]. now rewrite X1.
  Qed.

  Lemma complex_head ct p k before : states_complex ct p -> complex_ordered nss limit u rank before p -> capital (cp_name p) <> "" ->
    (forall b, In b before -> In (capital (cp_name b)) k /\ In (capital (cp_name b)) (complex_names u)) ->
    cap (jget ct "name") = Ok (capital (cp_name p)) /\
    exists base consts content, class_head nss k (jget ct "name") ct = Ok (capital (cp_name p), base, consts, content) /\
      states_plan content (cp_content p) /\ (map fst consts = [] \/ map fst consts = ["INHERITANCE"]) /\
      (base = "xsd.ComplexType" \/ (In base k /\ In base (complex_names u) /\ rank base <= rank (capital (cp_name p)))).
  Proof.
    intros (Hn & Hc) (_ & _ & Wb) Ne Hk. apply capital_nil in Ne.
    assert (Cp : cap (jget ct "name") = Ok (capital (cp_name p))) by (rewrite (has_jget _ _ _ Hn); now apply capitalize_ok).
    split; [exact Cp|]. unfold class_head. cbn zeta. destruct (cp_base p) as [q|].
    - destruct Hc as (cc & ex & Hcc & Icc & Lr & Hex & Iex & Hq & Sp). rewrite (has_jget _ _ _ Hcc), (obj_truthy _ _ Icc), Cp, (lacks_jget _ _ Lr), (has_jget _ _ _ Hex).
      cbn [bind py_truthy]. destruct (Wb q eq_refl) as (n & On & Ib & Rk). apply in_map_iff in Ib as (b & <- & Ib). destruct (Hk b Ib) as [Ik Ic].
      assert (Te : type_expr nss k ex = Ok (capital (cp_name b))).
      { assert (Eb : get_type nss (Some k) q = Ok (capital (cp_name b))).
        { rewrite (own_expr nss k q _ On). apply str_in_spec in Ik. now rewrite Ik. }
        rewrite <- Eb. destruct Iex as (xe & fs & Er). unfold type_expr. rewrite (has_jget _ _ _ Hq). rewrite Er. reflexivity. }
      rewrite Te. cbn [bind]. do 3 eexists. split; [reflexivity|]. split; [exact Sp|]. split; [now right|right]. auto.
    - destruct Hc as (Lc & Sp). rewrite (lacks_jget _ _ Lc), Cp. cbn [bind py_truthy]. do 3 eexists. split; [reflexivity|]. split; [exact Sp|].
      split; [|now left]. destruct (py_truthy _); [now right|now left].
  Qed.

  Definition emit_complex (k : list string) (ct : pyval) : res (list gclass) := c <- class_of_type nss k (jget ct "name") ct ;; Ok [c].

  Lemma in_complex p before after : sc_complexes s = before ++ p :: after -> In (capital (cp_name p)) (complex_names s).
  Proof. intros E. unfold complex_names. rewrite E. apply (in_map (fun p => capital (cp_name p))), in_elt. Qed.
  Lemma name_filled n : In n (simple_names s ++ complex_names s ++ own_names s) -> n <> "".
  Proof. intros I. destruct W as (_ & _ & U & _). rewrite Forall_forall in U. destruct (U n I) as ((c & t & -> & _) & _). discriminate. Qed.

  Lemma complexes_total l ps : Forall2 states_complex l ps -> forall before, sc_complexes s = before ++ ps ->
    exists r, known_loop emit_complex ((kt0 ++ simple_names s) ++ cnames before) l = Ok r /\ snd r = (kt0 ++ simple_names s) ++ cnames (before ++ ps) /\
      forall ms, built ms ((k0 ++ simple_names s) ++ cnames before) -> exists ms', foldM (exec_class rt) ms (fst r) = Ok ms' /\ built ms' ((k0 ++ simple_names s) ++ cnames (before ++ ps)).
  Proof.
    induction 1 as [|ct p l ps S F IH]; intros before E.
    - eexists. split; [reflexivity|]. cbn [snd fst]. rewrite app_nil_r. split; [reflexivity|]. intros ms B. exists ms. auto.
    - set (k := (kt0 ++ simple_names s) ++ cnames before). set (k' := (k0 ++ simple_names s) ++ cnames before).
      assert (Wp : complex_ordered nss limit u rank (flat_map sc_complexes pre ++ before) p) by (destruct W as (_ & _ & _ & _ & _ & _ & _ & Wc & _); exact (Wc _ _ _ E)).
      pose proof (in_complex p before ps E) as Ic.
      destruct (complex_head ct p k _ S Wp) as (Cp & base & consts & content & Hh & Sp & Hco & Hb).
      { apply name_filled. apply in_or_app. right. apply in_or_app. now left. }
      { intros b I. apply in_app_or in I as [I | I].
        - assert (J : In (capital (cp_name b)) (flat_map complex_names pre)).
          { apply in_flat_map in I as (d & Id & I). apply in_flat_map. exists d. split; [exact Id|]. unfold complex_names. apply (in_map (fun p => capital (cp_name p)) _ _ I). }
          split; [do 2 (apply in_or_app; left); apply K0; apply in_or_app; now right|]. rewrite joined_complex. apply in_or_app. now left.
        - assert (J : In (capital (cp_name b)) (cnames before)) by (unfold cnames; now apply (in_map (fun p => capital (cp_name p)))).
          split; [apply in_or_app; now right|]. rewrite joined_complex. apply in_or_app. right. unfold complex_names. rewrite E, map_app. apply in_or_app. now left. }
      destruct (class_total rt nss limit pre s rank W content (cp_content p) (capital (cp_name p)) base consts k k' Sp (proj1 Wp)) as (g & Hg & Hx); auto.
      { apply in_or_app. now left. }
      { intros n I. unfold k in I. unfold k'. rewrite !in_app_iff in *. destruct I as [[I | I] | I]; auto. left. left. now apply early_known. }
      assert (Eg : emit_complex k ct = Ok [g]).
      { unfold emit_complex. rewrite class_of_type_body, Hh. cbn [bind]. rewrite Hg. reflexivity. }
      destruct (IH (before ++ [p])) as (r & Hr & Hs & Hbu); [now rewrite <- app_assoc|].
      rewrite <- (app_assoc before) in Hs, Hbu. cbn [app] in Hs, Hbu.
      assert (E1 : forall l0, l0 ++ cnames (before ++ [p]) = (l0 ++ cnames before) ++ [capital (cp_name p)]) by (intros l0; unfold cnames; now rewrite map_app, app_assoc).
      rewrite E1 in Hr. rewrite (E1 (k0 ++ simple_names s)) in Hbu. fold k in Hr. fold k' in Hbu. cbn [known_loop]. rewrite Eg, Cp. cbn [bind]. rewrite Hr. cbn [bind]. eexists. split; [reflexivity|]. cbn [fst snd].
      split; [exact Hs|]. intros ms B. destruct (Hx ms B) as (ms1 & X1 & B1).
      { pose proof names_once as N. unfold all_names in N. rewrite !app_assoc in N. apply nodup_left in N. unfold complex_names in N. rewrite E, map_app, app_assoc in N. cbn [map] in N. now apply nodup_mid in N. }
      destruct (Hbu ms1 B1) as (ms2 & X2 & B2). exists ms2. split; [|exact B2]. cbn [app foldM]. now rewrite X1.
  Qed.

  (** *** Elements with a type of their own *)
  Definition own_of (t : top_plan) : list complex_plan := match tp_content t with TopOwn c => [mkXp (tp_name t) None c] | TopNamed _ => [] end.
  Definition emit_own (k : list string) (e : pyval) : res gclass := class_of_type nss k (jget e "name") (jget e "complexType").
  Definition before_own : list string := k0 ++ simple_names s ++ complex_names s.

  Lemma owns_total l ts : Forall2 states_top l ts -> forall before, sc_tops s = before ++ ts ->
    exists gs, mapM (emit_own known) (filter (fun e => py_truthy (jget e "complexType")) l) = Ok gs /\
      forall ms, built ms (before_own ++ cnames (flat_map own_of before)) ->
        exists ms', foldM (exec_class rt) ms gs = Ok ms' /\ built ms' (before_own ++ cnames (flat_map own_of (before ++ ts))).
  Proof.
    induction 1 as [|e t l ts S F IH]; intros before E.
    - eexists. split; [reflexivity|]. rewrite app_nil_r. intros ms B. exists ms. auto.
    - destruct (IH (before ++ [t])) as (gs & Hgs & Hb); [now rewrite <- app_assoc|]. rewrite <- app_assoc in Hb. cbn [app] in Hb.
      rewrite flat_map_app in Hb. cbn [flat_map] in Hb. rewrite app_nil_r in Hb.
      destruct S as (Ie & Hn & _ & _ & Hc). cbn [filter]. unfold own_of in Hb at 2. destruct (tp_content t) as [q|c] eqn:Et.
      + destruct Hc as (_ & _ & Lc). rewrite (lacks_jget _ _ Lc). cbn [py_truthy]. exists gs. split; [exact Hgs|]. rewrite app_nil_r in Hb. exact Hb.
      + destruct Hc as (_ & ct & Hct & Ict & Lcc & Sp). rewrite (has_jget _ _ _ Hct), (obj_truthy _ _ Ict).
        assert (It : In (mkXp (tp_name t) None c) (own_tops s)).
        { unfold own_tops. apply in_flat_map. exists t. split; [rewrite E; apply in_elt|]. rewrite Et. now left. }
        assert (In_ : In (capital (tp_name t)) (own_names s)) by (unfold own_names; apply (in_map (fun p => capital (cp_name p)) _ _ It)).
        assert (Wp : complex_ordered nss limit u rank [] (mkXp (tp_name t) None c)) by (destruct W as (_ & _ & _ & _ & _ & _ & _ & _ & Wo & _); now apply Wo).
        assert (Ne : tp_name t <> "").
        { apply capital_nil. apply name_filled. apply in_or_app. right. apply in_or_app. now right. }
        assert (Hh : class_head nss known (jget e "name") (jget e "complexType") =
           Ok (capital (tp_name t), "xsd.ComplexType", if py_truthy (jget ct "sequence") then [("INHERITANCE", XCode "None")] else [], ct)).
        { rewrite (has_jget _ _ _ Hct). unfold class_head. rewrite (lacks_jget _ _ Lcc), (has_jget _ _ _ Hn). cbn [py_truthy cap]. rewrite (capitalize_ok _ Ne). reflexivity. }
        destruct (class_total rt nss limit pre s rank W ct c (capital (tp_name t)) "xsd.ComplexType"
          (if py_truthy (jget ct "sequence") then [("INHERITANCE", XCode "None")] else []) known (before_own ++ cnames (flat_map own_of before)) Sp (proj1 Wp)) as (g & Hg & Hx).
        { apply in_or_app. now right. }
        { apply incl_appl, known_bound. }
        { destruct (py_truthy _); [now right|now left]. }
        { now left. }
        assert (Eg : emit_own known e = Ok g).
        { unfold emit_own. rewrite class_of_type_body, Hh. cbn [bind]. exact Hg. }
        cbn [mapM]. rewrite Eg, Hgs. cbn [bind]. eexists. split; [reflexivity|]. intros ms B. destruct (Hx ms B) as (ms1 & X1 & B1).
        { pose proof names_once as N. unfold all_names in N. rewrite !app_assoc in N. unfold own_names, own_tops in N. rewrite E, flat_map_app, map_app, app_assoc in N. cbn [flat_map] in N.
          rewrite Et in N. cbn [app map] in N. apply nodup_mid in N. unfold before_own. rewrite app_assoc. exact N. }
        assert (E2 : before_own ++ cnames (flat_map own_of before ++ [mkXp (tp_name t) None c]) = (before_own ++ cnames (flat_map own_of before)) ++ [capital (tp_name t)]).
        { unfold cnames. now rewrite map_app, app_assoc. }
        rewrite E2 in Hb. destruct (Hb ms1 B1) as (ms2 & X2 & B2). exists ms2. split; [|exact B2]. cbn [foldM]. now rewrite X1.
  Qed.

  (** *** Calling the classes *)
  Lemma none_accepted t : t <> SAbstract -> exists v, st_accept O t VNone = Ok v.
  Proof. destruct t; cbn; eauto. congruence. Qed.
  Lemma resolve_known ms n : built ms all_names -> In n known -> exists t, resolve ms (TComplex n) = Ok t /\
    (In n (simple_names u) -> exists st, t = TSimple st /\ st <> SAbstract) /\ (In n (complex_names u) -> t = TComplex n).
  Proof.
    intros B I. assert (J : In n all_names) by now apply known_names. cbn [resolve]. apply known_iff in I. apply in_app_or in I as [I | I].
    - destruct (bt_simple _ _ _ _ B n J I) as (t & -> & Na). eexists. split; [reflexivity|]. split; [eauto|]. intros Ic. exfalso.
      apply (apart nss limit pre s rank W n I). apply in_or_app. now left.
    - destruct (bt_complex _ _ _ _ B n J) as (c & ->); [apply in_or_app; now left|]. eexists. split; [reflexivity|]. split; [|auto]. intros Is. exfalso.
      apply (apart nss limit pre s rank W n Is). apply in_or_app. now left.
  Qed.
  Lemma built_schema ms l k : built ms k -> built (mkMs (ms_world ms) (ms_names ms) (ms_class ms) l) k.
  Proof.
    intros [[G1 G2 G3 G4 G5 G6 G7] B2 B3 B4 B5]. split; auto. split; auto.
  Qed.
  Lemma class_layered ms : built ms all_names -> layered O (module_env limit ms) (fun n => In n (complex_names u ++ own_names u)) rank.
  Proof.
    intros B n In_. assert (J : In n all_names) by now apply class_all.
    destruct (bt_complex _ _ _ _ B n J In_) as (c & A). exists (class_def ms c).
    assert (Ec : e_cls (module_env limit ms) n = Some (class_def ms c)) by (cbn; now rewrite A).
    destruct (bt_fields _ _ _ _ B n c A) as [N F]. destruct (gd_names ms (bt_good _ _ _ _ B) _ _ A) as [Lc Nc].
    split; [exact Ec|]. cbn [class_def cd_fields cd_mro].
    assert (Rf : forall f, In f (class_fields (ms_world ms) c) ->
      (exists st, f_type (retype ms f) = TSimple st /\ st <> SAbstract) \/
      (exists n', f_type (retype ms f) = TComplex n' /\ In n' (complex_names u) /\ (f_kind f <> KList -> rank n' < rank n))).
    { intros f If. destruct (F f If) as (_ & _ & T). unfold retype. cbn [f_type]. destruct (f_type f) as [st|n'].
      - left. cbn. eauto.
      - assert (Ik : In n' known) by (apply known_iff, in_or_app; tauto).
        destruct (resolve_known ms n' B Ik) as (t & -> & Hs & Hc). destruct T as [T | [Ic Rk]]; [left; exact (Hs T)|right]. exists n'. auto. }
    split; [|split; [|split]].
    - rewrite map_map. exact N.
    - assert (Mr : exists t, mro_of ms c = c :: t).
      { unfold mro_of. destruct (nth_error (w_classes (ms_world ms)) c) as [kc|] eqn:Ek; [exact (gd_mro ms (bt_good _ _ _ _ B) c kc Ek)|].
        apply nth_error_None in Ek. rewrite <- (gd_class ms (bt_good _ _ _ _ B)) in Ek. lia. }
      destruct Mr as (t & ->). left. exact Nc.
    - intros c' (d & f & Hd & If & Kf & Tf). rewrite Ec in Hd. assert (Ed : d = class_def ms c) by congruence. subst d. cbn [class_def cd_fields] in If.
      apply in_map_iff in If as (f0 & <- & If). cbn [retype f_kind] in Kf. destruct (Rf f0 If) as [(st & Ts & _)|(n' & Tn & Ic & Rk)]; rewrite Tf in *; [discriminate|].
      injection Tn as <-. split; [apply in_or_app; now left|]. now apply Rk.
    - intros f If. apply in_map_iff in If as (f0 & <- & If). destruct (F f0 If) as (K & D & _). cbn [retype f_kind f_default].
      assert (Acc : f_kind f0 <> KList -> exists v, field_accept O (module_env limit ms) (retype ms f0) VNone = Ok v).
      { intros Nk. unfold field_accept. cbn [retype f_kind]. fold (retype ms f0).
        assert (Ta : exists v, type_accept O (module_env limit ms) (f_type (retype ms f0)) VNone = Ok v).
        { destruct (Rf f0 If) as [(st & -> & Na)|(n' & -> & Ic & _)]; cbn [type_accept]; [now apply none_accepted|].
          unfold complex_accept, get_class.
          destruct (bt_complex _ _ _ _ B n') as (c' & A'); [apply class_all, in_or_app; now left|apply in_or_app; now left|].
          cbn. rewrite A'. cbn. destruct (existsb _ _); eauto. }
        destruct (f_kind f0); try exact Ta; congruence. }
      rewrite D. destruct K as [K | [K | K]]; rewrite K; auto; apply Acc; congruence.
  Qed.
  Lemma new_total ms n : built ms all_names -> In n (complex_names u ++ own_names u) -> exists fs, new_instance O (module_env limit ms) n = Ok fs.
  Proof.
    intros B I. unfold new_instance. apply (PfTotal.layered_inst O _ _ rank (class_layered ms B)); [exact I|]. cbn [e_limit module_env].
    now apply W.
  Qed.
  Lemma force_total ms n : built ms all_names -> In n all_names -> exists t, force limit O ms (TComplex n) = Ok t.
  Proof.
    intros B J. unfold force. cbn [resolve]. pose proof J as I. apply names_iff in I. apply in_app_or in I as [I | I].
    - destruct (bt_simple _ _ _ _ B n J I) as (t & -> & _). cbn. eauto.
    - destruct (bt_complex _ _ _ _ B n J I) as (c & ->). cbn [bind]. destruct (new_total ms n B I) as (fs & ->). cbn. eauto.
  Qed.

  (** *** The Schema statement *)
  Definition top_expr (g : gtop) (t : top_plan) : Prop :=
    match tp_content t with
    | TopNamed q => exists e, g = TopType e /\ get_type nss (Some known) q = Ok e
    | TopOwn _ => g = TopNew (capital (tp_name t))
    end.
  Lemma top_prints e t : states_top e t -> In t (sc_tops s) -> exists g,
    (t <- (if py_truthy (jget e "type") then res_map TopType (type_expr nss known e) else res_map TopNew (cap (jget e "name"))) ;;
     let sg := jget e "substitutionGroup" in Ok (jtext (jget e "name"), (t, if py_truthy sg then Some (jtext sg) else None))) = Ok g /\
    fst g = tp_name t /\ top_expr (fst (snd g)) t /\ snd (snd g) = tp_group t.
  Proof.
    intros (Ie & Hn & Lr & Hs & Hc) It.
    assert (Gr : (if py_truthy (jget e "substitutionGroup") then Some (jtext (jget e "substitutionGroup")) else None) = tp_group t).
    { destruct (tp_group t) as [v|]; [destruct Hs as [Hs Nv]; rewrite (has_jget _ _ _ Hs); cbn; destruct (String.eqb_spec v ""); [contradiction|reflexivity]|].
      now rewrite (lacks_jget _ _ Hs). }
    unfold top_expr. destruct (tp_content t) as [q|c] eqn:Et.
    - destruct Hc as (Hq & Nq & _). rewrite (has_jget _ _ _ Hq), (has_jget _ _ _ Hn).
      assert (Tr : py_truthy (VStr q) = true) by (cbn; destruct (String.eqb_spec q ""); [contradiction|reflexivity]).
      rewrite Tr, (type_expr_element nss known e "Element" q) by auto.
      assert (Gt : exists x, get_type nss (Some known) q = Ok x).
      { destruct W as (_ & _ & _ & _ & _ & _ & _ & _ & _ & Wt). destruct (Wt t q It Et) as [L | (n & On & _)].
        - destruct (library_expr nss known q L) as (n & x & E & _). eauto.
        - rewrite (own_expr nss known q n On). eauto. }
      destruct Gt as (x & ->). cbn. eexists. split; [reflexivity|]. cbn. eauto 6.
    - destruct Hc as (Lt & _). rewrite (lacks_jget _ _ Lt), (has_jget _ _ _ Hn). cbn [py_truthy cap].
      assert (Ne : tp_name t <> "").
      { apply capital_nil, name_filled. apply in_or_app. right. apply in_or_app. right. unfold own_names, own_tops.
        apply (in_map (fun p => capital (cp_name p)) _ (mkXp (tp_name t) None c)). apply in_flat_map. exists t. split; [exact It|]. rewrite Et. now left. }
      rewrite (capitalize_ok _ Ne). cbn. eexists. split; [reflexivity|]. cbn. auto.
  Qed.
  Lemma top_works ms g t : built ms all_names -> In t (sc_tops s) -> top_expr g t ->
    exists ty, top_type limit O ms g = Ok ty /\
      match ty with TSimple _ => True | TComplex n => In n all_names end.
  Proof.
    intros B It. unfold top_expr. destruct (tp_content t) as [q|c] eqn:Et.
    - intros (x & -> & Gx). cbn [top_type]. destruct W as (_ & _ & _ & _ & _ & _ & _ & _ & _ & Wt). destruct (Wt t q It Et) as [L | (n & On & Ik)].
      + destruct (library_expr nss known q L) as (n & st & E & El & _). assert (x = ("xsd." ++ n)%string) by congruence. subst x.
        rewrite eval_lib, El. cbn [bind]. eexists. split; [reflexivity|exact I].
      + rewrite (own_expr nss known q n On) in Gx. pose proof (proj2 (known_iff n) Ik) as Ik'. apply str_in_spec in Ik'. rewrite Ik' in Gx. assert (x = n) by congruence. subst x.
        assert (J : In n all_names) by (apply known_names, known_iff; exact Ik). rewrite (eval_name ms n (built_ident u rank _ _ _ B J)).
        apply in_app_or in Ik as [Ik | Ik].
        * destruct (bt_simple _ _ _ _ B n J Ik) as (st & -> & _). cbn [bind]. eexists. split; [reflexivity|exact I].
        * destruct (bt_complex _ _ _ _ B n J) as (c & A); [apply in_or_app; now left|]. rewrite A. cbn [bind]. eexists. split; [reflexivity|].
          rewrite (proj2 (gd_names ms (bt_good _ _ _ _ B) _ _ A)). exact J.
    - intros ->. cbn [top_type].
      assert (In_ : In (capital (tp_name t)) (own_names s)).
      { unfold own_names, own_tops. apply (in_map (fun p => capital (cp_name p)) _ (mkXp (tp_name t) None c)). apply in_flat_map. exists t. split; [exact It|]. rewrite Et. now left. }
      assert (Jc : In (capital (tp_name t)) (complex_names u ++ own_names u)) by (apply in_or_app; right; rewrite joined_own; apply in_or_app; now right).
      assert (J : In (capital (tp_name t)) all_names) by now apply class_all.
      unfold bound. rewrite (built_ident u rank _ _ _ B J). destruct (bt_complex _ _ _ _ B _ J Jc) as (c' & ->). cbn [bind].
      destruct (new_total ms _ B Jc) as (fs & ->). cbn. eexists. split; [reflexivity|]. exact J.
  Qed.

  Lemma forall2_total {A B C} (R : A -> B -> Prop) (f : A -> res C) (Q : C -> B -> Prop) l l' : Forall2 R l l' ->
    (forall a b, In b l' -> R a b -> exists c, f a = Ok c /\ Q c b) -> exists cs, mapM f l = Ok cs /\ Forall2 Q cs l'.
  Proof.
    induction 1 as [|a b l l' H F IH]; intros X; cbn [mapM]; [exists []; split; [reflexivity|constructor]|].
    destruct (X a b (or_introl eq_refl) H) as (c & -> & Qc). destruct IH as (cs & -> & Qs); [intros; apply X; auto; now right|].
    cbn [bind]. eexists. split; [reflexivity|]. now constructor.
  Qed.
  Lemma forall2_map_eq {A B} (f : A -> B) l l' : Forall2 (fun c b => c = f b) l l' -> l = map f l'.
  Proof. induction 1 as [|a b l l' E F IH]; [reflexivity|]. cbn. now rewrite E, IH. Qed.

  (** The Schema statement of the document. *)
  Definition statement_of (st : gschema_st) : Prop :=
    gz_tns st = sc_tns s /\ gz_efd st = sc_efd s /\ gz_attrgroups st = [] /\ gz_groups st = [] /\ gz_complex st = complex_names s /\
    Forall2 (fun g t => fst g = tp_name t /\ top_expr (fst (snd g)) t /\ snd (snd g) = tp_group t) (gz_elements st) (sc_tops s).
  Lemma importable_from x : states_schema x s -> exists cs st, schema_classes nss kt0 x = Ok (cs, known) /\ schema_statement nss known x = Ok st /\
    statement_of st /\ forall ms0, built ms0 k0 -> exists m, load_from rt limit O ms0 (cs, st) = Ok m /\ built (md_state m) all_names.
  Proof.
    intros (Ht & He & (b1 & sts & H1 & F1) & (b2 & cts & H2 & F2) & (b3 & els & H3 & F3) & (b4 & H4) & (b5 & H5)).
    destruct (simples_total sts (sc_simples s) F1 [] eq_refl) as (p1 & P1 & K1 & B1). cbn [app snames map] in P1, K1, B1. fold (simple_names s) in K1, B1. rewrite app_nil_r in P1, B1.
    destruct (complexes_total cts (sc_complexes s) F2 [] eq_refl) as (p4 & P4 & K4 & B4). cbn [app cnames map] in P4, K4, B4. fold (complex_names s) in K4, B4. rewrite app_nil_r in P4, B4. rewrite <- app_assoc in K4. rewrite <- (app_assoc k0 (simple_names s) (complex_names s)) in B4.
    destruct (owns_total els (sc_tops s) F3 [] eq_refl) as (c5 & P5 & B5). cbn [app cnames map flat_map] in P5, B5. rewrite app_nil_r in B5.
    change (map (fun p => capital (cp_name p)) (flat_map own_of (sc_tops s))) with (own_names s) in B5.
    fold known in K4. fold before_own in B4.
    assert (Ea : before_own ++ own_names s = all_names) by (unfold before_own, all_names; now rewrite <- !app_assoc). rewrite Ea in B5.
    assert (N1 : mapM (fun o => cap (jget o "name")) sts = Ok (simple_names s)).
    { destruct (forall2_total states_simple (fun o => cap (jget o "name")) (fun c p => c = capital (sp_name p)) sts (sc_simples s) F1) as (cs & -> & Q).
      - intros st p Ip (Hn & _). rewrite (has_jget _ _ _ Hn). eexists. split; [|reflexivity]. apply capitalize_ok, capital_nil, name_filled.
        apply in_or_app. left. unfold simple_names. apply (in_map (fun p => capital (sp_name p)) _ _ Ip).
      - now rewrite (forall2_map_eq _ _ _ Q). }
    assert (N4 : mapM (fun o => cap (jget o "name")) cts = Ok (complex_names s)).
    { destruct (forall2_total states_complex (fun o => cap (jget o "name")) (fun c p => c = capital (cp_name p)) cts (sc_complexes s) F2) as (cs & -> & Q).
      - intros st p Ip (Hn & _). rewrite (has_jget _ _ _ Hn). eexists. split; [|reflexivity]. apply capitalize_ok, capital_nil, name_filled.
        apply in_or_app. right. apply in_or_app. left. unfold complex_names. apply (in_map (fun p => capital (cp_name p)) _ _ Ip).
      - now rewrite (forall2_map_eq _ _ _ Q). }
    set (top_of := fun e => t <- (if py_truthy (jget e "type") then res_map TopType (type_expr nss known e) else res_map TopNew (cap (jget e "name"))) ;;
       let sg := jget e "substitutionGroup" in Ok (jtext (jget e "name"), (t, if py_truthy sg then Some (jtext sg) else None))).
    destruct (forall2_total states_top top_of (fun g t => fst g = tp_name t /\ top_expr (fst (snd g)) t /\ snd (snd g) = tp_group t) els (sc_tops s) F3) as (tops & Ts & Qt).
    { intros e t It St. exact (top_prints e t St It). }
    assert (Cc : schema_classes nss kt0 x = Ok (fst p1 ++ fst p4 ++ c5, known)).
    { unfold schema_classes. rewrite (has_jget _ _ _ H1), (has_jget _ _ _ H2), (has_jget _ _ _ H3), (has_jget _ _ _ H4), (has_jget _ _ _ H5). cbn [jlist bind].
      rewrite P1. cbn [bind mapM]. rewrite K1. change (known_loop _ (kt0 ++ simple_names s) cts) with (known_loop emit_complex (kt0 ++ simple_names s) cts). rewrite P4. cbn [bind]. rewrite K4.
      match goal with |- bind ?t _ = _ => change t with (mapM (emit_own known) (filter (fun e => py_truthy (jget e "complexType")) els)) end.
      rewrite P5. reflexivity. }
    assert (Cs : schema_statement nss known x = Ok (mkGsch (sc_tns s) (sc_efd s) (simple_names s) [] [] (complex_names s) tops)).
    { unfold schema_statement. rewrite (has_jget _ _ _ Ht), (has_jget _ _ _ H1), (has_jget _ _ _ H2), (has_jget _ _ _ H3), (has_jget _ _ _ H4), (has_jget _ _ _ H5). cbn [jlist bind].
      rewrite N1, N4. cbn [bind mapM]. fold top_of.
      match goal with |- bind ?t _ = _ => change t with (mapM top_of els) end. rewrite Ts. cbn [bind].
      now rewrite (has_jget _ _ _ He). }
    exists (fst p1 ++ fst p4 ++ c5), (mkGsch (sc_tns s) (sc_efd s) (simple_names s) [] [] (complex_names s) tops).
    split; [exact Cc|]. split; [exact Cs|]. split; [repeat (split; [reflexivity|]); exact Qt|]. intros ms0 Bm0. destruct (B1 ms0 Bm0) as (ms1 & X1 & Bm1). destruct (B4 ms1 Bm1) as (ms4 & X4 & Bm4). destruct (B5 ms4 Bm4) as (ms & X5 & B).
    { unfold load_from. cbn [fst snd]. rewrite !foldM_app, X1. cbn [bind]. rewrite foldM_app, X4. cbn [bind]. rewrite X5. cbn [bind].
      assert (Bd : forall n, In n all_names -> exists v, bound ms n = Ok v).
      { intros n I. unfold bound. rewrite (built_ident u rank _ _ _ B I). rewrite <- (bt_names _ _ _ _ B) in I. apply assoc_some_in in I as (v & ->). eauto. }
      unfold exec_schema. cbn [gz_simple gz_attrgroups gz_groups gz_complex gz_tns gz_efd gz_elements].
      destruct (mapM_total (bound ms) (simple_names s)) as (u1 & ->).
      { intros n I. apply Bd. unfold all_names. apply in_or_app. right. apply in_or_app. now left. }
      cbn [bind mapM].
      assert (Mc : exists ids, mapM (bound_class ms) (complex_names s) = Ok ids /\ Forall (fun c => exists n, assoc n (ms_names ms) = Some (MComplex c)) ids).
      { assert (I0 : forall n, In n (complex_names s) -> exists c, bound_class ms n = Ok c /\ assoc n (ms_names ms) = Some (MComplex c)).
        { intros n I. assert (Iu : In n (complex_names u ++ own_names u)) by (apply joins_classes, in_or_app; now left).
          assert (J : In n all_names) by now apply class_all. destruct (bt_complex _ _ _ _ B n J Iu) as (c & A). exists c. split; [|exact A]. unfold bound_class, bound.
          rewrite (built_ident u rank _ _ _ B J), A. reflexivity. }
        clear - I0. induction (complex_names s) as [|n l IH]; cbn [mapM]; [exists []; split; [reflexivity|constructor]|].
        destruct (I0 n (or_introl eq_refl)) as (c & -> & A). destruct IH as (ids & -> & F); [intros m I; apply I0; now right|]. cbn [bind].
        eexists. split; [reflexivity|]. constructor; eauto. }
      destruct Mc as (ids & -> & Fi). cbn [bind].
      destruct W as (_ & _ & _ & Pt & Pe & Pn & _). rewrite (plain_literal rt false _ Pt), (plain_literal rt false _ Pe). cbn [bind].
      assert (Mt : exists tl, mapM (fun p => n <- literal rt false (fst p) ;; t <- top_type limit O ms (fst (snd p)) ;; sg <- group_value rt (snd (snd p)) ;; Ok (n, (t, sg))) tops = Ok tl /\
        Forall (fun p => match fst (snd p) with TSimple _ => True | TComplex n => In n all_names end) tl).
      { assert (Qt' : forall g, In g tops -> exists t, In t (sc_tops s) /\ fst g = tp_name t /\ top_expr (fst (snd g)) t /\ snd (snd g) = tp_group t).
        { clear - Qt. induction Qt as [|g t gs ts H F IH]; [intros g []|]. intros g' [<- | I]; [exists t; split; [now left|exact H]|].
          destruct (IH g' I) as (t' & I' & H'). exists t'. split; [now right|exact H']. }
        clear Ts Qt Cs. induction tops as [|[gn [gg gs]] tops IH]; cbn [mapM]; [exists []; split; [reflexivity|constructor]|]. cbn [fst snd].
        destruct (Qt' _ (or_introl eq_refl)) as (t & It & En & Xp & Eg). cbn [fst snd] in En, Xp, Eg. rewrite En, Eg.
        assert (Pn' : plain_text (tp_name t)) by (rewrite Forall_forall in Pn; now apply Pn). rewrite (plain_literal rt false _ Pn'). cbn [bind].
        destruct (top_works ms gg t B It Xp) as (ty & -> & Hty). cbn [bind].
        assert (Pg : group_value rt (tp_group t) = Ok (tp_group t)) by (rewrite Forall_forall in Pn; destruct (Pn t It) as [_ Pg]; destruct (tp_group t) as [v|]; [now apply plain_group, Pg|reflexivity]).
        rewrite Pg. cbn [bind]. destruct IH as (tl & -> & Fl); [intros g I; apply Qt'; now right|]. cbn [bind].
        eexists. split; [reflexivity|]. constructor; [exact Hty|exact Fl]. }
      destruct Mt as (tl & -> & Fl). cbn [bind]. cbn zeta.
      match goal with |- context [mkMs (ms_world ms) (ms_names ms) (ms_class ms) ?l] => set (ms' := mkMs (ms_world ms) (ms_names ms) (ms_class ms) l) end.
      assert (B' : built ms' all_names) by now apply built_schema.
      assert (Fc : exists u, mapM (fun c => mapM (fun f => force limit O ms' (f_type f)) (class_fields (ms_world ms') c)) (ids ++ [] ++ []) = Ok u).
      { apply mapM_total. intros c I. rewrite app_nil_r in I. rewrite Forall_forall in Fi. destruct (Fi c I) as (n & A). apply mapM_total. intros f If.
        destruct (bt_fields _ _ _ _ B' n c A) as [_ Ff]. destruct (Ff f If) as (_ & _ & T). destruct (f_type f) as [st|n']; [cbn; eauto|].
        apply force_total; [exact B'|]. apply names_iff. rewrite !in_app_iff. tauto. }
      destruct Fc as (uc & ->). cbn [bind].
      assert (Fe : exists els', mapM (fun p => t <- force limit O ms' (fst (snd p)) ;; Ok (fst p, (t, snd (snd p)))) tl = Ok els').
      { apply mapM_total. intros [n [ty sg]] I. cbn [fst snd]. rewrite Forall_forall in Fl. specialize (Fl _ I). cbn [fst snd] in Fl. destruct ty as [st|n']; [cbn; eauto|].
        destruct (force_total ms' n' B' Fl) as (t & ->). cbn. eauto. }
      destruct Fe as (els' & ->). cbn [bind]. eexists. split; [reflexivity|exact B']. }
  Qed.
End Document.

(** Before any document. *)
Lemma built_start u rank : built u rank start [].
Proof. split; [exact start_good|reflexivity|intros n []|intros n []|intros n c A; discriminate]. Qed.
Lemma known_none n : In n [] <-> In n (flat_map simple_names [] ++ flat_map complex_names []).
Proof. reflexivity. Qed.
Lemma importable rt nss limit s rank O x : ordered_works nss limit [] s rank -> states_schema x s ->
  exists code m, schema_code nss [] x = Ok code /\ load rt limit O code = Ok m /\ built (joined [] s) rank (md_state m) (all_names s []).
Proof.
  intros W S. destruct (importable_from rt nss limit [] s rank O [] [] W known_none (Permutation_refl _) x S) as (cs & st & C & T & _ & L).
  destruct (L start (built_start _ _)) as (m & Lm & B). exists (cs, st), m. split; [unfold schema_code; rewrite C; cbn [bind snd fst]; now rewrite T|]. split; [exact Lm|exact B].
Qed.
