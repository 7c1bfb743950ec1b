(** Generated classes: a class has the content of its type. *)
From Coq Require Import String Ascii List ZArith NArith Bool Lia.
From Verif Require Import PyBase PyVal XsdSimple XsdComplex XsdMeta LibClasses Py2Xsd GenNames Xsd2Py PyLoad SpecNames SpecGenCode
  PfBase PfMeta PfMeta2 PfLoad PfLoad2 PfSimple PfGenCode PfGenCode2 PfGenCode3.
Import ListNotations.
Open Scope nat_scope.
Open Scope string_scope.
Open Scope list_scope.

Lemma class_reached_from ms0 rt code ms g : good ms0 -> ext start ms0 -> foldM (exec_class rt) ms0 code = Ok ms -> In g code ->
  exists ms1 ms2, good ms1 /\ exec_class rt ms1 g = Ok ms2 /\ good ms2 /\ ext ms1 ms2 /\ ext ms2 ms /\ ext start ms1.
Proof.
  intros G0 E0 H I. apply in_split in I as (l1 & l2 & ->). rewrite foldM_app in H. apply bind_ok in H as (ms1 & H1 & H). cbn [foldM] in H.
  apply bind_ok in H as (ms2 & H2 & H). destruct (exec_classes_step _ _ _ _ G0 H1) as [G1 E1]. destruct (exec_class_step _ _ _ _ G1 H2) as [G2 E2].
  destruct (exec_classes_step _ _ _ _ G2 H) as [G3 E3]. exists ms1, ms2. pose proof (ext_trans _ _ _ E0 E1). auto 10.
Qed.
Lemma class_reached rt code ms g : foldM (exec_class rt) start code = Ok ms -> In g code ->
  exists ms1 ms2, good ms1 /\ exec_class rt ms1 g = Ok ms2 /\ good ms2 /\ ext ms1 ms2 /\ ext ms2 ms /\ ext start ms1.
Proof. exact (class_reached_from start rt code ms g start_good (ext_refl start)). Qed.

Lemma surviving_all created fs : NoDup (map f_name fs) -> (forall f, In f fs -> ~ In (f_name f) created) -> surviving created fs = fs.
Proof.
  induction fs as [|f t IH]; intros N C; [reflexivity|]. cbn [map] in N. inversion_clear N as [|? ? Nf Nt]. cbn [surviving].
  destruct (str_in (f_name f) created) eqn:E1; [apply str_in_spec in E1; exfalso; apply (C f); [now left|exact E1]|].
  destruct (str_in (f_name f) (map f_name t)) eqn:E2; [apply str_in_spec in E2; contradiction|]. cbn [orb]. f_equal. apply IH; auto.
  intros h Hh. apply C. now right.
Qed.
Lemma python_name_reserved n r : In r ["create"; "INDICATOR"; "INHERITANCE"] -> python_name n = r -> n = r.
Proof.
  intros I. unfold python_name. destruct (str_in n _) eqn:K; [|auto]. intros <-. exfalso. cbn in I. destruct I as [I | [I | [I | []]]]; discriminate.
Qed.

(** Fields of a class that was made from printed fields. *)
Lemma fields_mirror (m : module) nss k rt ms ps gs fs : good ms -> ext ms (md_state m) -> good (md_state m) ->
  (forall n, In n k -> identifier n = true) -> Forall2 (printed nss k) ps gs -> mapM (make_field rt ms) gs = Ok fs ->
  (forall f, In f fs -> exists t, resolve (md_state m) (f_type f) = Ok t) ->
  Forall2 (mirrors m nss) ps (map (retype (md_state m)) fs) /\ map f_name fs = map (fun p => python_name (pt_name p)) ps.
Proof.
  intros G Ex Gm Kid P M R. apply mapM_forall2 in M. revert fs M R. induction P as [|p g ps gs Hp P IH]; intros fs M; inversion_clear M as [|? f ? fs' Hf M']; intros R; cbn [map]; [split; constructor|].
  destruct (printed_made _ _ _ _ _ _ _ Hp Hf) as ((T & Tg & N & Ni & De & Ns & K) & Gt & Gc & Ft).
  destruct (type_denotes m nss k (pt_type p) (gf_type g) rt ms g (f_type f) G Ex Gm Kid Gt eq_refl Gc Ft (R f (or_introl eq_refl))) as (t' & R' & D).
  destruct (IH fs' M') as [IH1 IH2]; [intros; apply R; now right|].
  split; [|now rewrite IH2, N]. constructor; [|exact IH1].
  unfold mirrors, retype. rewrite R'. cbn [f_name f_kind f_type f_tag f_min f_max f_nillable f_default f_ns].
  split; [exact T|]. split; [exact Tg|]. auto 10.
Qed.

Section Class.
  Variables (rt : runtime) (limit : nat) (O : oracle) (nss : list (option string)) (k : list string) (m : module).
  Variables (code : list gclass * gschema_st) (g : gclass) (b : nat) (bexpr : string).
  Variables (consts : list (string * pyx)) (i : option indicator) (ps : list particle) (els : list pyval).
  Hypothesis L : load rt limit O code = Ok m.
  Hypothesis Ig : In g (fst code).
  Hypothesis Kid : forall n, In n k -> identifier n = true.
  Hypothesis Gf : Forall2 (printed nss k) ps (gc_fields g).
  Hypothesis Gk : gc_consts g = consts ++ match i with Some i => [("INDICATOR", XCode (indicator_code i))] | None => [] end.
  Hypothesis Gcr : gc_create g = match i with Some ISequence => Some (create_params els) | _ => None end.
  Hypothesis Hc : map fst consts = [] \/ map fst consts = ["INHERITANCE"].
  Hypothesis U : usable ps.

  Lemma own_ind : own_indicator g = i.
  Proof.
    unfold own_indicator. rewrite Gk.
    assert (N : assoc "INDICATOR" consts = None) by (apply assoc_none; destruct Hc as [-> | ->]; cbn; intuition discriminate).
    rewrite (assoc_app_r _ _ _ N). destruct i as [[]|]; reflexivity.
  Qed.
  Lemma in_reserved s : In s (created g ++ const_names g) -> In s ["create"; "INDICATOR"; "INHERITANCE"].
  Proof.
    unfold created, const_names. rewrite Gcr, Gk, map_app. intros H. apply in_app_or in H as [H | H].
    - destruct i as [[]|]; cbn in H |- *; tauto.
    - apply in_app_or in H as [H | H]; [destruct Hc as [E | E]; rewrite E in H; cbn in H |- *; tauto|].
      destruct i as [[]|]; cbn in H |- *; tauto.
  Qed.

  (** The class exists; its fields are those of its base that it does not
      redefine, and its own. *)
  Lemma class_made ms1 : good ms1 -> forall ms2 ms, exec_class rt ms1 g = Ok ms2 -> good ms2 -> ext ms1 ms2 -> ext ms2 ms -> ext ms (md_state m) ->
    good (md_state m) -> ms_world (md_state m) = ms_world ms -> ms_class (md_state m) = ms_class ms ->
    eval_type ms1 (gc_base g) = Ok (TvClass (MComplex b)) -> b < length (ms_class ms1) ->
    (forall c, assoc (gc_name g) (ms_names ms) = Some (MComplex c) ->
       forall f, In f (class_fields (ms_world ms) c) -> exists t, resolve (md_state m) (f_type f) = Ok t) ->
    (forall f, In f (class_fields (ms_world ms1) b) -> ~ In (f_name f) ["create"; "INDICATOR"; "INHERITANCE"]) ->
    exists c own, module_class m (gc_name g) (class_def (md_state m) c) /\ c = length (ms_class ms1) /\
      cd_fields (class_def (md_state m) c) =
        filter (fun f => negb (str_in (f_name f) (map (fun p => python_name (pt_name p)) ps))) (cd_fields (class_def (md_state m) b)) ++ own /\
      Forall2 (mirrors m nss) ps own /\
      cd_ind (class_def (md_state m) c) = match i with Some i => i | None => cd_ind (class_def (md_state m) b) end /\
      cd_mro (class_def (md_state m) c) = gc_name g :: cd_mro (class_def (md_state m) b) /\
      cd_kind (class_def (md_state m) c) = if Nat.eqb c 1 then CKGroup else cd_kind (class_def (md_state m) b).
  Proof.
    intros G1 ms2 ms X G2 E12 E23 Em Gm Ww Wc Ev Hb Rs Bn. unfold exec_class in X.
    destruct (identifier (gc_name g)) eqn:Id; cbn [negb] in X; [|discriminate].
    destruct (assoc (gc_name g) (ms_names ms1)) eqn:As; [discriminate|]. rewrite Ev in X. cbn [bind] in X.
    destruct (define_step rt ms1 g b ms2 G1 Id As Hb X) as (_ & _ & Nm & Nc & Mr & _ & fs & Fs & Cf). cbn zeta in *.
    set (c := length (ms_class ms1)) in *.
    assert (Lc : c < length (ms_class ms2)).
    { destruct (nth_error (ms_class ms2) c) eqn:E; [apply nth_error_Some; congruence|]. exfalso. apply nth_error_None in E. rewrite (nth_overflow _ _ E) in Nc. injection Nc as N0 _. rewrite <- N0 in Id. discriminate. }
    assert (Ac : assoc (gc_name g) (ms_names (md_state m)) = Some (MComplex c)).
    { apply (ext_bound _ _ _ _ Em), (ext_bound _ _ _ _ E23). rewrite Nm. rewrite (assoc_app_r _ _ _ As). cbn. now rewrite String.eqb_refl. }
    assert (Acs : assoc (gc_name g) (ms_names ms) = Some (MComplex c)).
    { apply (ext_bound _ _ _ _ E23). rewrite Nm. rewrite (assoc_app_r _ _ _ As). cbn. now rewrite String.eqb_refl. }
    assert (E2m : ext ms2 (md_state m)) by (eapply ext_trans; eauto).
    assert (E1m : ext ms1 (md_state m)) by (eapply ext_trans; eauto).
    assert (Cm : class_fields (ms_world (md_state m)) c = class_fields (ms_world ms2) c) by now apply ext_class_fields.
    assert (Bm : class_fields (ms_world (md_state m)) b = class_fields (ms_world ms1) b) by now apply ext_class_fields.
    assert (Surv : surviving (created g) fs = fs).
    { apply surviving_all.
      - rewrite (make_fields_names _ _ _ _ Fs). destruct U as [N _].
        replace (map gf_attr (gc_fields g)) with (map (fun p => python_name (pt_name p)) ps); [exact N|].
        clear - Gf. induction Gf as [|p h ps' gs' Hp F IH]; cbn; [reflexivity|]. now rewrite (IH F), (printed_attr _ _ _ _ Hp).
      - intros f Hf C. assert (Nf : In (f_name f) (map gf_attr (gc_fields g))) by (rewrite <- (make_fields_names _ _ _ _ Fs); now apply in_map).
        assert (Nf' : exists p, In p ps /\ python_name (pt_name p) = f_name f).
        { clear - Gf Nf. induction Gf as [|p h ps' gs' Hp F IH]; cbn in Nf; [destruct Nf|]. destruct Nf as [E | I].
          - exists p. split; [now left|]. now rewrite <- (printed_attr _ _ _ _ Hp).
          - destruct (IH F I) as (p' & I' & E'). exists p'. split; [now right|exact E']. }
        destruct Nf' as (p & Ip & Ep). apply (proj2 U p Ip).
        assert (Rv : In (f_name f) ["create"; "INDICATOR"; "INHERITANCE"]) by (apply in_reserved, in_or_app; now left).
        rewrite (python_name_reserved _ _ Rv Ep). exact Rv. }
    rewrite Surv in Cf.
    assert (Res : forall f, In f fs -> exists t, resolve (md_state m) (f_type f) = Ok t).
    { intros f Hf. apply (Rs c Acs). rewrite <- Ww, Cm, Cf. apply in_or_app. now right. }
    destruct (fields_mirror m nss k rt ms1 ps (gc_fields g) fs G1 E1m Gm Kid Gf Fs Res) as [Mir Nms].
    exists c, (map (retype (md_state m)) fs). split; [|split; [reflexivity|split; [|split; [exact Mir|split; [|split]]]]].
    - unfold module_class, module_env. cbn [e_cls]. now rewrite Ac.
    - unfold class_def. cbn [cd_fields]. rewrite Cm, Bm, Cf, map_app. f_equal.
      assert (Rn : forall f, f_name (retype (md_state m) f) = f_name f) by reflexivity.
      assert (Eq : filter (fun f => negb (str_in (f_name f) (body_names g))) (class_fields (ms_world ms1) b) =
                   filter (fun f => negb (str_in (f_name f) (map (fun p => python_name (pt_name p)) ps))) (class_fields (ms_world ms1) b)).
      { apply filter_in_ext. intros f Hf. f_equal. unfold body_names. rewrite !str_in_app.
        rewrite <- (make_fields_names _ _ _ _ Fs), Nms. specialize (Bn f Hf).
        destruct (str_in (f_name f) (created g)) eqn:E1; [apply str_in_spec in E1; exfalso; apply Bn, in_reserved, in_or_app; now left|].
        destruct (str_in (f_name f) (const_names g)) eqn:E2; [apply str_in_spec in E2; exfalso; apply Bn, in_reserved, in_or_app; now right|].
        now rewrite orb_false_r. }
      rewrite Eq. clear. induction (class_fields (ms_world ms1) b) as [|f l IH]; [reflexivity|]. cbn [filter map f_name retype].
      destruct (negb _); cbn [map]; [f_equal|]; exact IH.
    - unfold class_def. cbn [cd_ind]. rewrite (ext_class_name _ _ c E2m) by lia. rewrite Nc. cbn [snd]. rewrite own_ind.
      destruct i; [reflexivity|]. now rewrite (ext_class_name _ _ b E1m).
    - unfold class_def. cbn [cd_mro]. rewrite (ext_mro _ _ c G2 E2m) by lia. rewrite Mr. cbn [map]. f_equal.
      + unfold class_name. rewrite (ext_class_name _ _ c E2m) by lia. now rewrite Nc.
      + f_equal. symmetry. now apply ext_mro.
    - unfold class_def. cbn [cd_kind]. rewrite (ext_mro _ _ c G2 E2m) by lia. rewrite Mr. cbn [existsb]. rewrite (ext_mro _ _ b G1 E1m Hb).
      rewrite Nat.eqb_sym. now destruct (Nat.eqb c 1).
  Qed.
End Class.

Lemma truthy_str_or o n v : has o n v -> py_truthy (jget o n) = py_truthy v.
Proof. intros H. now rewrite (has_jget _ _ _ H). Qed.

Lemma qualified_unique q p local p' local' : qualified_name q p local -> qualified_name q p' local' -> p = p' /\ local = local'.
Proof.
  assert (Cf : forall a b c d, colon_free a -> colon_free c -> (a ++ ":" ++ b = c ++ ":" ++ d)%string -> a = c /\ b = d).
  { induction a as [|x a IH]; intros b c d Ha Hc E.
    - destruct c as [|y c]; cbn in E; [injection E as <-; auto|]. injection E as <- _. exfalso. apply Hc. now left.
    - destruct c as [|y c]; cbn in E; [injection E as -> _; exfalso; apply Ha; now left|]. injection E as -> E.
      apply IH in E as [-> ->]; [auto|..]; intros I; [apply Ha|apply Hc]; now right. }
  assert (In_c : forall a b, In ":"%char (list_ascii_of_string (a ++ ":" ++ b))).
  { induction a as [|x a IH]; intros b; cbn; [now left|right; apply IH]. }
  intros [L H] [L' H']. destruct p as [p|], p' as [p'|].
  - destruct H as [Hp ->], H' as [Hp' E]. apply Cf in E as [-> ->]; auto.
  - destruct H as [Hp ->]. subst. exfalso. apply L'. apply In_c.
  - destruct H' as [Hp' ->]. subst. exfalso. apply L. apply In_c.
  - split; congruence.
Qed.

Section Types.
  Variable ms0 : mstate.
  Hypothesis G0 : good ms0.
  Hypothesis E0 : ext start ms0.
  Variables (rt : runtime) (limit : nat) (O : oracle) (nss : list (option string)) (known : list string) (x : pyval).
  Variables (code : list gclass * gschema_st) (m : module) (bl : bool) (cts : list pyval) (ct : pyval) (name : string).
  Variables (i : option indicator) (els attrs : list pyval) (eps aps : list particle).
  Hypothesis Kn : Forall (fun n => identifier n = true) known.
  Hypothesis C : schema_code nss known x = Ok code.
  Hypothesis L : load_from rt limit O ms0 code = Ok m.
  Hypothesis Hx : has x "complexTypes" (VList bl cts).
  Hypothesis Hct : In ct cts.
  Hypothesis Hn : has ct "name" (VStr name).
  Hypothesis Se : Forall2 states_element els eps.
  Hypothesis Sa : Forall2 states_attribute attrs aps.
  Hypothesis U : usable (aps ++ eps).

  Lemma plain_class_from : lacks ct "complexContent" -> states_content ct i els attrs ->
    exists d, module_class m (capital name) d /\ cd_mro d = [capital name; "xsd.ComplexType"] /\ cd_kind d = CKPlain /\
      cd_ind d = match i with Some i => i | None => ISequence end /\ Forall2 (mirrors m nss) (aps ++ eps) (cd_fields d).
  Proof.
    intros Lc Sc. destruct (schema_complex _ _ _ _ _ _ _ C Hx Hct) as (k & g & n & Cg & Ig & En & Inn & Kk).
    rewrite (has_jget _ _ _ Hn) in En, Cg. cbn [cap] in En. rewrite class_of_type_body in Cg. unfold class_head in Cg. rewrite (lacks_jget _ _ Lc) in Cg. cbn [py_truthy cap] in Cg.
    rewrite En in Cg. cbn [bind] in Cg. apply capital_ok in En as [-> Ne].
    destruct (body_printed _ _ _ _ _ _ _ _ _ _ _ _ Sc Se Sa Cg) as (Gn & Gb & Gf & Gk & Gcr).
    destruct (load_from_spec _ _ _ _ _ _ G0 L) as (ms & Fm & G & Gm & Em & Ww & Wn & Wc & Is & Ic).
    assert (Kid : forall n, In n k -> identifier n = true).
    { intros n0 I. apply Kk in I as [I | [I | I]]; [rewrite Forall_forall in Kn; now apply Kn|now apply Is|now apply Ic]. }
    destruct (class_reached_from _ _ _ _ _ G0 E0 Fm Ig) as (ms1 & ms2 & G1 & X & G2 & E12 & E2 & Es).
    assert (Ev : eval_type ms1 (gc_base g) = Ok (TvClass (MComplex 0))) by (rewrite Gb; reflexivity).
    assert (B0 : 0 < length (ms_class ms1)) by (pose proof (proj1 (gd_base ms1 G1)); lia).
    destruct (gd_base ms1 G1) as (L3 & F3 & Z). specialize (Z 0 ltac:(lia)).
    assert (E1m : ext ms1 (md_state m)) by (eapply ext_trans; [|eapply ext_trans]; eauto).
    assert (Zm : class_fields (ms_world (md_state m)) 0 = []) by (rewrite (ext_class_fields ms1 _ 0 G1 E1m B0); exact Z).
    assert (Mm : mro_of (md_state m) 0 = [0]) by (rewrite (ext_mro start _ 0 start_good (ext_trans _ _ _ Es E1m)); [reflexivity|cbn; lia]).
    destruct (class_made rt nss k m g 0 _ i (aps ++ eps) els Kid Gf Gk Gcr) with (ms1 := ms1) (ms2 := ms2) (ms := ms) as (c & own & Mc & Ec & Cf & Mi & Ci & Cm & Ck); auto.
    - destruct (py_truthy _); cbn; auto.
    - intros c Hc. destruct (Ic _ Inn) as (_ & c' & Hc' & R). rewrite Gn in Hc. rewrite Hc' in Hc. injection Hc as ->. exact R.
    - rewrite Z. intros f [].
    - exists (class_def (md_state m) c). rewrite Gn in Mc, Cm. split; [exact Mc|]. split; [|split; [|split]].
      + rewrite Cm. unfold class_def. cbn [cd_mro]. rewrite Mm. cbn [map]. now rewrite (base_name _ 0 Gm) by lia.
      + rewrite Ck. rewrite Ec. destruct (Nat.eqb_spec (length (ms_class ms1)) 1); [lia|]. unfold class_def. cbn [cd_kind]. now rewrite Mm.
      + rewrite Ci. destruct i; [reflexivity|]. unfold class_def. cbn [cd_ind].
        rewrite (ext_class_name start _ 0 (ext_trans _ _ _ Es E1m)) by (cbn; lia). reflexivity.
      + rewrite Cf. unfold class_def at 1. cbn [cd_fields]. rewrite Zm. exact Mi.
  Qed.

  Lemma derived_class_from cc ex q p local : has ct "complexContent" cc -> is_a cc "ComplexContent" -> lacks cc "restriction" ->
    has cc "extension" ex -> is_a ex "Extension" -> has ex "base" (VStr q) -> qualified_name q p local -> ~ In p nss ->
    states_content ex i els attrs ->
    (forall db f, module_class m (capital local) db -> In f (cd_fields db) -> ~ In (f_name f) ["create"; "INDICATOR"; "INHERITANCE"]) ->
    exists d db own, module_class m (capital name) d /\ module_class m (capital local) db /\
      cd_mro d = capital name :: cd_mro db /\ cd_kind d = cd_kind db /\
      cd_ind d = match i with Some i => i | None => cd_ind db end /\
      cd_fields d = filter (fun f => negb (str_in (f_name f) (map (fun p => python_name (pt_name p)) (aps ++ eps)))) (cd_fields db) ++ own /\
      Forall2 (mirrors m nss) (aps ++ eps) own.
  Proof.
    intros Hcc Icc Lr Hex Iex Hq Q Nq Sc Res. destruct (schema_complex _ _ _ _ _ _ _ C Hx Hct) as (k & g & n & Cg & Ig & En & Inn & Kk).
    rewrite (has_jget _ _ _ Hn) in En, Cg. rewrite class_of_type_body in Cg. unfold class_head in Cg.
    rewrite (has_jget _ _ _ Hcc), (obj_truthy _ _ Icc), (lacks_jget _ _ Lr), (has_jget _ _ _ Hex), (has_jget _ _ _ Hn), En in Cg. cbn [bind py_truthy] in Cg.
    cbn [cap] in En. apply capital_ok in En as [-> Ne].
    apply bind_ok in Cg as (h & Hh & Cg). apply bind_ok in Hh as (bx & Hb & Hh). injection Hh as <-. cbn iota beta in Cg.
    assert (Gt : get_type nss (Some k) q = Ok bx).
    { rewrite <- Hb. destruct Iex as (xe & fs & Ee). unfold type_expr. rewrite (has_jget _ _ _ Hq). rewrite Ee. reflexivity. }
    destruct (body_printed _ _ _ _ _ _ _ _ _ _ _ _ Sc Se Sa Cg) as (Gn & Gb & Gf & Gk & Gcr).
    destruct (load_from_spec _ _ _ _ _ _ G0 L) as (ms & Fm & G & Gm & Em & Ww & Wn & Wc & Is & Ic).
    assert (Kid : forall n, In n k -> identifier n = true).
    { intros n0 I. apply Kk in I as [I | [I | I]]; [rewrite Forall_forall in Kn; now apply Kn|now apply Is|now apply Ic]. }
    destruct (class_reached_from _ _ _ _ _ G0 E0 Fm Ig) as (ms1 & ms2 & G1 & X & G2 & E12 & E2 & Es).
    assert (E1m : ext ms1 (md_state m)) by (eapply ext_trans; [|eapply ext_trans]; eauto).
    (* the base is a class of the module *)
    assert (Bs : exists b, eval_type ms1 (gc_base g) = Ok (TvClass (MComplex b)) /\ assoc (capital local) (ms_names ms1) = Some (MComplex b)).
    { pose proof X as X'. unfold exec_class in X'. destruct (identifier (gc_name g)); cbn [negb] in X'; [|discriminate].
      destruct (assoc (gc_name g) (ms_names ms1)) eqn:As; [discriminate|]. apply bind_ok in X' as (tv & Etv & X'). rewrite Etv. rewrite Gb in Etv.
      apply get_type_ok in Gt as (p' & local' & Q' & _ & Cases). destruct (qualified_unique _ _ _ _ _ Q Q') as [<- <-].
      destruct Cases as [[Y _]|[_ [[Ik ->]|Ebx]]]; [contradiction| |].
      - rewrite (eval_name _ _ (Kid _ Ik)) in Etv. destruct (assoc (capital local) (ms_names ms1)) as [[b|s]|] eqn:Eb; [| |discriminate].
        + injection Etv as <-. eauto.
        + injection Etv as <-. exfalso. apply bind_ok in X' as (kw & _ & X'). apply bind_ok in X' as (t' & _ & X'). injection X' as <-.
          destruct (Ic _ Inn) as (_ & c & Hc & _).
          assert (Hs : assoc (capital name) (ms_names ms) = Some (MSimple t')).
          { apply (ext_bound _ _ _ _ E2). cbn [ms_names]. rewrite <- Gn, (assoc_app_r _ _ _ As). cbn. now rewrite String.eqb_refl. }
          congruence.
      - rewrite Ebx, eval_lazy in Etv. injection Etv as <-. discriminate. }
    destruct Bs as (b & Ev & Ab). assert (Bl : b < length (ms_class ms1)) by now apply (gd_names ms1 G1) in Ab.
    assert (Mb : module_class m (capital local) (class_def (md_state m) b)).
    { unfold module_class, module_env. cbn [e_cls]. now rewrite (ext_bound _ _ _ _ E1m Ab). }
    destruct (class_made rt nss k m g b _ i (aps ++ eps) els Kid Gf Gk Gcr) with (ms1 := ms1) (ms2 := ms2) (ms := ms) as (c & own & Mc & Ec & Cf & Mi & Ci & Cm & Ck); auto.
    - intros c Hc. destruct (Ic _ Inn) as (_ & c' & Hc' & R). rewrite Gn in Hc. rewrite Hc' in Hc. injection Hc as ->. exact R.
    - intros f Hf. apply (Res _ (retype (md_state m) f) Mb). unfold class_def. cbn [cd_fields]. apply in_map. now rewrite (ext_class_fields ms1 _ b G1 E1m Bl).
    - exists (class_def (md_state m) c), (class_def (md_state m) b), own. rewrite Gn in Mc, Cm. split; [exact Mc|]. split; [exact Mb|].
      split; [exact Cm|]. split; [|auto]. rewrite Ck, Ec. pose proof (proj1 (gd_base ms1 G1)). destruct (Nat.eqb_spec (length (ms_class ms1)) 1); [lia|reflexivity].
  Qed.
End Types.
Definition plain_class := plain_class_from start start_good (ext_refl start).
Definition derived_class := derived_class_from start start_good (ext_refl start).
