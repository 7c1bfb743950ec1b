(** Modules that can be imported: executing the class statements. *)
From Coq Require Import String Ascii List ZArith NArith Bool Lia.
From Verif Require Import PyBase PyVal XsdSimple XsdComplex XsdMeta LibClasses Py2Xsd GenNames Xsd2Py PyLoad SpecNames SpecGenCode
  SpecUrl SpecService SpecLoadable PfBase PfMeta PfMeta2 PfLoad PfLoad2 PfSimple PfGenCode PfGenCode2 PfGenCode3 PfGenCode4 PfGenCode5 PfGenCode7 PfLoadable.
From Verif Require PfNames PfService2.
Import ListNotations.
Open Scope nat_scope.
Open Scope string_scope.
Open Scope list_scope.

Section Built.
  Variables (u : schema_plan) (rank : string -> nat).

  (** A field that does no harm when a class is called. *)
  Definition fine (c : string) (f : field) : Prop :=
    (f_kind f = KElement \/ f_kind f = KList \/ f_kind f = KAttribute) /\ f_default f = VNone /\
    match f_type f with
    | TSimple t => t <> SAbstract
    | TComplex n => In n (simple_names u) \/ (In n (complex_names u) /\ (f_kind f <> KList -> rank n < rank c))
    end.
  (** The names [k] are bound as they should. *)
  Record built (ms : mstate) (k : list string) : Prop := {
    bt_good : good ms;
    bt_names : map fst (ms_names ms) = k;
    bt_simple : forall n, In n k -> In n (simple_names u) -> exists t, assoc n (ms_names ms) = Some (MSimple t) /\ t <> SAbstract;
    bt_complex : forall n, In n k -> In n (complex_names u ++ own_names u) -> exists c, assoc n (ms_names ms) = Some (MComplex c);
    bt_fields : forall n c, assoc n (ms_names ms) = Some (MComplex c) ->
      NoDup (map f_name (class_fields (ms_world ms) c)) /\ forall f, In f (class_fields (ms_world ms) c) -> fine n f }.

  Lemma built_ident ms k n : built ms k -> In n k -> identifier n = true.
  Proof.
    intros B I. rewrite <- (bt_names _ _ B) in I. apply assoc_some_in in I as (v & Hv). now apply (gd_ident ms (bt_good _ _ B)) in Hv.
  Qed.
  Lemma built_fresh ms k n : built ms k -> ~ In n k -> assoc n (ms_names ms) = None.
  Proof. intros B I. apply assoc_none. now rewrite (bt_names _ _ B). Qed.
End Built.

Section Module.
  Variables (rt : runtime) (nss : list (option string)) (limit : nat) (pre : list schema_plan) (s : schema_plan) (rank : string -> nat).
  Notation u := (joined pre s).
  Notation fine := (fine u rank).
  Notation built := (built u rank).
  Notation built_ident := (built_ident u rank).
  Notation built_fresh := (built_fresh u rank).
  Notation bt_good := (bt_good u rank).
  Notation bt_names := (bt_names u rank).
  Notation bt_simple := (bt_simple u rank).
  Notation bt_complex := (bt_complex u rank).
  Notation bt_fields := (bt_fields u rank).
  Hypothesis W : ordered_works nss limit pre s rank.

  Lemma apart n : In n (simple_names u) -> In n (complex_names u ++ own_names u) -> False.
  Proof.
    destruct W as (N & _). intros I J. induction (simple_names u) as [|x l IH]; [destruct I|]. cbn [app] in N. inversion_clear N as [|? ? Nx Nl].
    destruct I as [-> | I]; [|auto]. apply Nx. apply in_or_app. now right.
  Qed.
  Lemma joins_simple n : In n (simple_names s) -> In n (simple_names u).
  Proof. rewrite joined_simple. intros I. apply in_or_app. now right. Qed.
  Lemma joins_complex n : In n (complex_names s) -> In n (complex_names u).
  Proof. rewrite joined_complex. intros I. apply in_or_app. now right. Qed.
  Lemma joins_own n : In n (own_names s) -> In n (own_names u).
  Proof. rewrite joined_own. intros I. apply in_or_app. now right. Qed.
  Lemma joins_classes n : In n (complex_names s ++ own_names s) -> In n (complex_names u ++ own_names u).
  Proof. intros I. apply in_app_or in I as [I | I]; apply in_or_app; [left; now apply joins_complex|right; now apply joins_own]. Qed.

  (** *** Simple types *)
  Lemma simple_sub name t kw : t <> SAbstract ->
    (forall k v, In (k, v) kw -> (k = "enumeration" -> exists l, v = VList false (map VStr l)) /\ (k <> "enumeration" -> exists x, v = VStr x)) ->
    exists t', simple_subclass rt name t kw = Ok t' /\ t' <> SAbstract.
  Proof.
    intros Na H. unfold simple_subclass. destruct t; try (eexists; split; [reflexivity|congruence]).
    assert (X : exists f', foldM (fun f p => if str_in (fst p) ["enumeration"; "pattern"] then string_arg rt f p else Ok f) f kw = Ok f').
    { clear Na. revert f. induction kw as [|[k v] kw IH]; intros f; cbn [foldM]; [eauto|]. cbn [fst]. destruct (H k v (or_introl eq_refl)) as [H1 H2].
      assert (Y : exists f', (if str_in k ["enumeration"; "pattern"] then string_arg rt f (k, v) else Ok f) = Ok f').
      { destruct (str_in k ["enumeration"; "pattern"]) eqn:E; [|eauto]. apply str_in_spec in E. destruct E as [<- | [<- | []]].
        - destruct (H1 eq_refl) as (l & ->). rewrite enumeration_arg. eauto.
        - destruct (H2 ltac:(discriminate)) as (x & ->). cbn. eauto. }
      destruct Y as (f' & ->). cbn [bind]. apply IH. intros k' v' I. apply H. now right. }
    destruct X as (f' & ->). cbn. eexists. split; [reflexivity|discriminate].
  Qed.

  Definition facet_names : list string := ["pattern"; "minInclusive"; "minExclusive"; "maxInclusive"; "maxExclusive"].
  Lemma facet_text_eq r n v : states_facet r n v -> facet_text r n = v.
  Proof.
    unfold facet_text, states_facet. destruct v as [x|]; intros H.
    - destruct H as (o & Ho & Io & Hv). rewrite (has_jget _ _ _ Ho), (obj_truthy _ _ Io), (has_jget _ _ _ Hv). reflexivity.
    - rewrite (lacks_jget _ _ H). reflexivity.
  Qed.
  Lemma eval_kw_total (kw : list (string * pyx)) :
    (forall n x, In (n, x) kw -> (n = "enumeration" /\ exists l, x = XList l /\ Forall plain_text l) \/ (n <> "enumeration" /\ exists v, x = XRaw v /\ plain_pattern v)) ->
    exists vs, eval_kw rt kw = Ok vs /\
      forall k v, In (k, v) vs -> (k = "enumeration" -> exists l, v = VList false (map VStr l)) /\ (k <> "enumeration" -> exists x, v = VStr x).
  Proof.
    unfold eval_kw. induction kw as [|[n x] kw IH]; intros H; cbn [mapM]; [exists []; split; [reflexivity|intros ? ? []]|].
    destruct IH as (vs & -> & Hvs); [intros n' x' I; apply H; now right|]. cbn [fst snd].
    destruct (H n x (or_introl eq_refl)) as [(-> & l & -> & Pl)|(Nn & v & -> & Pv)]; cbn [eval_pyx].
    - rewrite (mapM_literal rt l Pl). cbn [res_map bind]. eexists. split; [reflexivity|]. intros k v [[= <- <-] | I]; [|now apply Hvs].
      split; [eauto|congruence].
    - rewrite (plain_pattern_literal rt v Pv). cbn [res_map bind]. eexists. split; [reflexivity|]. intros k v' [[= <- <-] | I]; [|now apply Hvs].
      split; [congruence|eauto].
  Qed.
  Lemma enums_eq es vs : Forall2 (fun e x => has e "value" (VStr x)) es vs -> map (fun e => jtext (jget e "value")) es = vs.
  Proof. induction 1 as [|e x es vs H F IH]; [reflexivity|]. cbn [map]. now rewrite IH, (has_jget _ _ _ H). Qed.

  Lemma simple_step_total st p before after k bound : sc_simples s = before ++ p :: after -> states_simple st p ->
    (forall b, In b (flat_map sc_simples pre ++ before) -> In (capital (sp_name b)) k) -> incl k bound ->
    exists g, simple_classes nss k st = Ok [g] /\ cap (jget st "name") = Ok (capital (sp_name p)) /\
      forall ms, built ms bound -> ~ In (capital (sp_name p)) bound -> exists ms', exec_class rt ms g = Ok ms' /\ built ms' (bound ++ [capital (sp_name p)]).
  Proof.
    intros E (Hn & Hl & r & b & es & Hr & Ir & Hb & He & Fe & Hf) Bk Ik.
    assert (Inn : In (capital (sp_name p)) (simple_names s)) by (unfold simple_names; rewrite E; apply (in_map (fun p => capital (sp_name p))), in_elt).
    destruct W as (_ & _ & Us & _ & _ & _ & Ws & _). specialize (Ws _ _ _ E). destruct Ws as (Wb & We & Wf).
    assert (Id : identifier (capital (sp_name p)) = true).
    { apply PfService2.usable_ident. rewrite Forall_forall in Us. apply Us. apply in_or_app. now left. }
    assert (Nn : sp_name p <> "") by (intros E0; rewrite E0 in Id; discriminate).
    assert (Cp : cap (jget st "name") = Ok (capital (sp_name p))) by (rewrite (has_jget _ _ _ Hn); now apply capitalize_ok).
    assert (Bt : exists be, get_type nss (Some k) (sp_base p) = Ok be /\ forall ms, built ms bound -> exists t, eval_type ms be = Ok (TvClass (MSimple t)) /\ t <> SAbstract).
    { destruct Wb as [Wb | (n & On & Ib)].
      - destruct (library_expr nss k _ Wb) as (n & t & Eg & El & Na). exists ("xsd." ++ n)%string. split; [exact Eg|]. intros ms B. exists t. rewrite eval_lib, El. auto.
      - assert (Ikn : In n k) by (apply in_map_iff in Ib as (b' & <- & Ib); now apply Bk).
        exists n. split; [rewrite (own_expr nss k _ n On); pose proof Ikn as Ikn'; apply str_in_spec in Ikn'; now rewrite Ikn'|]. apply Ik in Ikn. intros ms B.
        rewrite (eval_name ms n (built_ident _ _ _ B Ikn)).
        destruct (bt_simple _ _ B n Ikn) as (t & -> & Na).
        { unfold simple_names. cbn [joined sc_simples]. rewrite E, app_assoc, map_app. apply in_or_app. now left. }
        exists t. auto. }
    destruct Bt as (be & Eb & Ev).
    unfold simple_classes. rewrite (has_jget _ _ _ Hr), (obj_truthy _ _ Ir), (lacks_jget _ _ Hl). cbn [py_truthy].
    unfold restriction_class. rewrite Cp. cbn [bind].
    assert (Te : type_expr nss k r = Ok be).
    { rewrite <- Eb. destruct Ir as (xe & fs & Er). unfold type_expr. rewrite (has_jget _ _ _ Hb). rewrite Er. reflexivity. }
    rewrite Te. unfold enum_texts. rewrite (has_jget _ _ _ He). cbn [jlist bind]. rewrite (enums_eq _ _ Fe).
    rewrite (facet_text_eq r "pattern" _ (Hf "pattern" ltac:(cbn; tauto))).
    rewrite (facet_text_eq r "minInclusive" _ (Hf "minInclusive" ltac:(cbn; tauto))).
    rewrite (facet_text_eq r "minExclusive" _ (Hf "minExclusive" ltac:(cbn; tauto))).
    rewrite (facet_text_eq r "maxInclusive" _ (Hf "maxInclusive" ltac:(cbn; tauto))).
    rewrite (facet_text_eq r "maxExclusive" _ (Hf "maxExclusive" ltac:(cbn; tauto))).
    cbn [bind app]. eexists. split; [reflexivity|]. split; [reflexivity|]. intros ms B Fr.
    unfold exec_class. cbn [gc_name gc_base gc_consts]. rewrite Id, (built_fresh ms bound _ B Fr). cbn [negb].
    destruct (Ev ms B) as (t & -> & Na). cbn [bind].
    match goal with |- context [eval_kw rt ?l] => set (kw := l) end.
    destruct (eval_kw_total kw) as (vs & -> & Hvs).
    { intros n x I.
      assert (Pf : forall n v, assoc n (sp_facets p) = Some v -> plain_pattern v).
      { intros n' v Ha. apply assoc_in in Ha. rewrite Forall_forall in Wf. exact (Wf _ Ha). }
      assert (Oc : forall n', n' <> "enumeration" -> In (n, x) (opt_const n' XRaw (assoc n' (sp_facets p))) -> n <> "enumeration" /\ exists v, x = XRaw v /\ plain_pattern v).
      { intros n' N' J. destruct (assoc n' (sp_facets p)) as [v|] eqn:Ea; cbn in J; [|destruct J]. destruct J as [[= <- <-] | []]. split; [exact N'|]. eauto. }
      unfold kw in I. apply in_app_or in I as [I | I].
      - left. destruct (sp_enums p) as [|e0 l0] eqn:Ee; [destruct I|]. destruct I as [[= <- <-] | []]. split; [reflexivity|]. exists (e0 :: l0). split; [reflexivity|exact We].
      - right. apply in_app_or in I as [I | I]; [now apply (Oc "pattern")|]. apply in_app_or in I as [I | I].
        + destruct (assoc "minInclusive" (sp_facets p)) as [v|] eqn:Ea; [|now apply (Oc "minExclusive")]. destruct I as [[= <- <-] | []]. split; [discriminate|eauto].
        + destruct (assoc "maxInclusive" (sp_facets p)) as [v|] eqn:Ea; [|now apply (Oc "maxExclusive")]. destruct I as [[= <- <-] | []]. split; [discriminate|eauto]. }
    cbn [bind]. destruct (simple_sub (capital (sp_name p)) t vs Na Hvs) as (t' & -> & Na'). cbn [bind].
    eexists. split; [reflexivity|]. pose proof (built_fresh ms bound _ B Fr) as As.
    destruct (simple_step ms (mkGc (capital (sp_name p)) be kw [] None) t' _ (bt_good _ _ B) Id As eq_refl) as [G' Ex].
    split; cbn [ms_names ms_world].
    - exact G'.
    - rewrite map_app, (bt_names _ _ B). reflexivity.
    - intros n I J. apply in_app_or in I as [I | [<- | []]].
      + destruct (bt_simple _ _ B n I J) as (t0 & A & N0). exists t0. split; [now apply assoc_app_l|exact N0].
      + exists t'. split; [|exact Na']. rewrite (assoc_app_r _ _ _ As). cbn. now rewrite String.eqb_refl.
    - intros n I J. apply in_app_or in I as [I | [<- | []]]; [|destruct (apart _ (joins_simple _ Inn) J)].
      destruct (bt_complex _ _ B n I J) as (c & A). exists c. now apply assoc_app_l.
    - intros n c A. apply (bt_fields _ _ B n c). destruct (assoc n (ms_names ms)) as [m|] eqn:En.
      + now rewrite (assoc_app_l _ _ _ _ En) in A.
      + rewrite (assoc_app_r _ _ _ En) in A. cbn in A. destruct (String.eqb n _); discriminate.
  Qed.

  (** *** Complex types *)
  Lemma particle_gettable c p : particle_works nss u rank c p -> gettable nss (pt_type p).
  Proof.
    intros (_ & _ & [L | (n & O & _)]) k.
    - destruct (library_expr nss k _ L) as (n & t & E & _). eauto.
    - rewrite (own_expr nss k _ n O). eauto.
  Qed.

  Lemma field_total ms bound k c p g : built ms bound -> incl k bound -> particle_works nss u rank c p -> printed nss k p g ->
    exists f, make_field rt ms g = Ok f /\ fine c f.
  Proof.
    intros B Ik (Wd & Mn & Ty) P.
    assert (Id : identifier (python_name (pt_name p)) = true) by now apply word_ident.
    (* the type *)
    assert (Tm : exists t, field_type rt ms g = Ok t /\
      match t with TSimple t => t <> SAbstract
                 | TComplex n => In n (simple_names u) \/ (In n (complex_names u) /\ (many (pt_max p) = false -> rank n < rank c)) end).
    { assert (Gt : get_type nss (Some k) (pt_type p) = Ok (gf_type g) /\ gf_call g = None) by (destruct P as (t & Gt & [[_ ->]|(a & _ & ->)]); auto).
      destruct Gt as [Gt Gc]. unfold field_type. rewrite Gc. destruct Ty as [L | (n & O & Hn)].
      - destruct (library_expr nss k _ L) as (n & t & E & El & Na). assert (Gt' : gf_type g = ("xsd." ++ n)%string) by congruence. rewrite Gt', eval_lib, El. cbn [bind]. eauto.
      - rewrite (own_expr nss k _ n O) in Gt. destruct (str_in n k) eqn:Ek.
        + apply str_in_spec in Ek. apply Ik in Ek. assert (Gt' : gf_type g = n) by congruence. rewrite Gt', (eval_name ms n (built_ident _ _ _ B Ek)). destruct Hn as [Hs | Hc].
          * destruct (bt_simple _ _ B n Ek Hs) as (t & -> & Na). cbn [bind]. eauto.
          * destruct (bt_complex _ _ B n Ek) as (c' & A); [apply in_or_app; left; apply Hc|]. rewrite A. cbn [bind]. eexists. split; [reflexivity|].
            rewrite (proj2 (gd_names ms (bt_good _ _ B) _ _ A)). now right.
        + assert (Gt' : gf_type g = ("__name__ + '." ++ n ++ "'")%string) by congruence. rewrite Gt', eval_lazy. cbn [bind]. eexists. split; [reflexivity|exact Hn]. }
    destruct Tm as (t & Ft & Tt).
    assert (X : exists f, make_field rt ms g = Ok f).
    { assert (Ga : gf_attr g = python_name (pt_name p)) by exact (printed_attr _ _ _ _ P).
      unfold make_field. rewrite Ga, Id, Ft. cbn [negb bind]. destruct P as (te & _ & [[At ->]|(a & Sa & ->)]); cbn [gf_kw gf_cls].
      - rewrite (element_eval rt p Id). cbn [bind]. destruct (many (pt_max p)) eqn:M; cbn [String.eqb Ascii.eqb Bool.eqb orb]; [eauto|].
        assert (E1 : opt_min (element_args p) = pt_min p).
        { unfold element_args. rewrite M, orb_false_r. destruct p as [a n q mn mx nl]. cbn [pt_name pt_min pt_nil pt_max] in *.
          destruct (is_keyword n), mn as [z|], nl; reflexivity. }
        rewrite E1. cbn zeta. destruct Mn as [Mn | [Mn | [-> | [-> | ->]]]]; try congruence; cbn; eauto.
      - assert (Ev : exists kw, eval_kw rt (attribute_kw p) = Ok kw).
        { unfold attribute_kw. rewrite eval_kw_app.
          assert (E1 : exists x, eval_kw rt (if is_keyword (pt_name p) then [("tagname", XStr (pt_name p))] else []) = Ok x).
          { destruct (is_keyword _); [|cbn; eauto]. unfold eval_kw. cbn [mapM fst snd eval_pyx]. rewrite (ident_literal rt false _ Id). cbn. eauto. }
          destruct E1 as (x & ->). cbn [bind]. destruct Sa as (_ & _ & _ & _ & _ & _ & _ & _ & [[-> _]|[-> _]]); cbn; eauto. }
        destruct Ev as (kw & ->). cbn [bind String.eqb Ascii.eqb Bool.eqb orb]. eauto. }
    destruct X as (f & Hf). exists f. split; [exact Hf|].
    destruct (printed_made _ _ _ _ _ _ _ P Hf) as ((_ & _ & _ & _ & De & _ & K) & _ & _ & Ft'). rewrite Ft in Ft'. injection Ft' as ->.
    unfold fine.
    assert (Ks : (f_kind f = KElement \/ f_kind f = KList \/ f_kind f = KAttribute) /\ (f_kind f <> KList -> many (pt_max p) = false)).
    { destruct (pt_attr p) eqn:At.
      - destruct K as [K _]. split; [auto|]. intros _. destruct P as (_ & _ & [[At' _]|(a & Sa & _)]); [congruence|]. destruct Sa as (_ & _ & _ & _ & _ & _ & -> & _). reflexivity.
      - destruct (many (pt_max p)); [destruct K as [K _]|destruct K as [K _]]; rewrite K; split; auto; congruence. }
    destruct Ks as [K1 K2]. split; [exact K1|]. split; [exact De|]. destruct (f_type f) as [t|n]; [exact Tt|].
    destruct Tt as [Tt | [Ic Rk]]; [now left|right]. split; [exact Ic|]. intros Nk. apply Rk. now apply K2.
  Qed.

  Lemma fine_up c c' f : rank c <= rank c' -> fine c f -> fine c' f.
  Proof.
    intros R (K & D & T). split; [exact K|]. split; [exact D|]. destruct (f_type f); [exact T|]. destruct T as [T | [I H]]; [now left|right].
    split; [exact I|]. intros Nk. specialize (H Nk). lia.
  Qed.

  (** A class statement: [base] is ComplexType or the class [n]. *)
  Lemma class_total content o name base consts k bound :
    states_plan content o -> content_works nss u rank name o -> In name (complex_names s ++ own_names s) -> incl k bound ->
    (map fst consts = [] \/ map fst consts = ["INHERITANCE"]) ->
    (base = "xsd.ComplexType" \/ (In base k /\ In base (complex_names u) /\ rank base <= rank name)) ->
    exists g, class_body nss k name base consts content = Ok g /\
      forall ms, built ms bound -> ~ In name bound -> exists ms', exec_class rt ms g = Ok ms' /\ built ms' (bound ++ [name]).
  Proof.
    intros Sp (Us & Ncls & Pw) Inn Ik Hc Hb.
    assert (Id : identifier name = true).
    { destruct W as (_ & _ & Uw & _). rewrite Forall_forall in Uw. apply PfService2.usable_ident, Uw. apply in_or_app. now right. }
    destruct (body_prints nss k name base consts content o Sp) as (g & Hg).
    { intros p Ip. now apply (particle_gettable name), Pw. }
    exists g. split; [exact Hg|]. intros ms B Fr. destruct Sp as (els & attrs & Sc & Se & Sa).
    destruct (body_printed _ _ _ _ _ _ _ _ _ _ _ _ Sc Se Sa Hg) as (Gn & Gb & Gf & Gk & Gcr).
    pose proof (built_fresh ms bound _ B Fr) as As.
    assert (Fs : exists fs, mapM (make_field rt ms) (gc_fields g) = Ok fs /\ Forall (fine name) fs).
    { clear - W B Ik Gf Pw. induction Gf as [|p gf ps gs P F IH]; [exists []; split; [reflexivity|constructor]|].
      destruct (field_total ms bound k name p gf B Ik (Pw p (or_introl eq_refl)) P) as (f & Hf & Ff).
      destruct IH as (fs & Hfs & Fl); [intros p' I; apply Pw; now right|]. exists (f :: fs). cbn [mapM]. rewrite Hf, Hfs. split; [reflexivity|now constructor]. }
    destruct Fs as (fs & Hfs & Ffs).
    assert (Bs : exists b, eval_type ms base = Ok (TvClass (MComplex b)) /\ b < length (ms_class ms) /\
      NoDup (map f_name (class_fields (ms_world ms) b)) /\ forall f, In f (class_fields (ms_world ms) b) -> fine name f).
    { destruct Hb as [-> | (Ib & Icn & Rb)].
      - exists 0. split; [reflexivity|]. destruct (gd_base ms (bt_good _ _ B)) as (L & _ & C). split; [lia|]. rewrite (C 0) by lia. split; [constructor|intros f []].
      - apply Ik in Ib. destruct (bt_complex _ _ B base Ib) as (b & A); [apply in_or_app; now left|]. exists b.
        split; [rewrite (eval_name ms base (built_ident _ _ _ B Ib)), A; reflexivity|].
        split; [apply (gd_names ms (bt_good _ _ B) _ _ A)|]. destruct (bt_fields _ _ B _ _ A) as [N F]. split; [exact N|].
        intros f If. apply (fine_up base); auto. }
    destruct Bs as (b & Eb & Lb & Nb & Fb).
    assert (Cr : match gc_create g with Some ps => forallb identifier ps && distinct_names ps && negb (str_in "cls" ps) | None => true end = true).
    { rewrite Gcr. destruct (co_ind o) as [[]|]; try reflexivity. rewrite (create_params_eq _ _ Se).
      apply andb_true_iff. split; [apply andb_true_iff; split|].
      - apply forallb_forall. intros x I. apply in_map_iff in I as (p & <- & I). apply filter_In in I as [I _].
        apply word_ident. apply (Pw p). apply in_or_app. now right.
      - apply distinct_nodup, nodup_filter. destruct Us as [Us _]. rewrite map_app in Us. clear - Us.
        induction (map _ (co_attrs o)) as [|x l IH]; [exact Us|]. cbn [app] in Us. inversion_clear Us. auto.
      - apply negb_true_iff. destruct (str_in "cls" _) eqn:E; [|reflexivity]. apply str_in_spec in E. apply in_map_iff in E as (p & E & I).
        apply filter_In in I as [I _]. exfalso. apply (Ncls p I). now apply python_name_cls. }
    destruct (define_total rt ms g b fs (bt_good _ _ B) Lb Hfs Cr) as (ms' & Hd).
    exists ms'. split.
    { unfold exec_class. rewrite Gn, Id, As, Gb, Eb. cbn [negb bind]. exact Hd. }
    rewrite <- Gn in Id, As.
    destruct (define_step rt ms g b ms' (bt_good _ _ B) Id As Lb Hd) as (G' & Ex & Nm & _ & _ & _ & fs' & Hfs' & Cf).
    rewrite Hfs in Hfs'. injection Hfs' as <-.
    assert (Nf : map f_name fs = map gf_attr (gc_fields g)) by exact (make_fields_names _ _ _ _ Hfs).
    assert (Ng : map gf_attr (gc_fields g) = map (fun p => python_name (pt_name p)) (co_attrs o ++ co_elems o)).
    { clear - Gf. induction Gf as [|p gf ps gs P F IH]; [reflexivity|]. cbn [map]. rewrite (printed_attr _ _ _ _ P). now rewrite IH. }
    assert (Sv : surviving (created g) fs = fs).
    { apply surviving_all; [rewrite Nf, Ng; apply Us|]. intros f If Ic. assert (J : In (f_name f) (map f_name fs)) by now apply in_map.
      rewrite Nf, Ng in J. apply in_map_iff in J as (p & E & Ip). unfold created in Ic. destruct (gc_create g); [|destruct Ic]. destruct Ic as [Ic | []].
      apply (proj2 Us p Ip). rewrite (python_name_reserved (pt_name p) "create"); [now left|now left|congruence]. }
    rewrite Sv in Cf. rewrite Gn in Nm.
    split.
    - exact G'.
    - rewrite Nm, map_app, (bt_names _ _ B). reflexivity.
    - intros n I J. apply in_app_or in I as [I | [<- | []]]; [|destruct (apart _ J (joins_classes _ Inn))].
      destruct (bt_simple _ _ B n I J) as (t0 & A & N0). exists t0. split; [now apply (ext_bound ms)|exact N0].
    - intros n I J. apply in_app_or in I as [I | [<- | []]].
      + destruct (bt_complex _ _ B n I J) as (c & A). exists c. now apply (ext_bound ms).
      + eexists. rewrite Nm. rewrite Gn in As. rewrite (assoc_app_r _ _ _ As). cbn. now rewrite String.eqb_refl.
    - intros n c A. rewrite Nm in A. destruct (assoc n (ms_names ms)) as [m|] eqn:En.
      + rewrite (assoc_app_l _ _ _ _ En) in A. injection A as ->. rewrite (ext_class_fields ms ms' c (bt_good _ _ B) Ex).
        * now apply (bt_fields _ _ B).
        * apply (gd_names ms (bt_good _ _ B) _ _ En).
      + rewrite (assoc_app_r _ _ _ En) in A. cbn in A. destruct (String.eqb n name) eqn:E; [|discriminate]. apply String.eqb_eq in E as ->. injection A as <-.
        rewrite Cf. split.
        * rewrite map_app. apply NoDup_app_intro; [now apply nodup_filter|rewrite Nf, Ng; apply Us|].
          intros x I J. apply in_map_iff in I as (f & <- & I). apply filter_In in I as [_ I]. apply negb_true_iff in I.
          assert (S : str_in (f_name f) (body_names g) = true); [|congruence]. apply str_in_spec. unfold body_names. apply in_or_app. right. apply in_or_app. left. now rewrite <- Nf.
        * intros f I. apply in_app_or in I as [I | I]; [apply filter_In in I as [I _]; now apply Fb|]. rewrite Forall_forall in Ffs. now apply Ffs.
  Qed.
End Module.
