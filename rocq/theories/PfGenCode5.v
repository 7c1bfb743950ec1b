(** Generated classes: top-level elements, and groups. *)
From Coq Require Import String Ascii List ZArith NArith Bool Lia.
From Verif Require Import PyBase PyVal XsdSimple XsdComplex XsdMeta LibClasses Py2Xsd GenNames Xsd2Py PyLoad SpecNames SpecGenCode
  PfBase PfMeta PfMeta2 PfLoad PfLoad2 PfSimple PfGenCode PfGenCode2 PfGenCode3 PfGenCode4.
Import ListNotations.
Open Scope nat_scope.
Open Scope string_scope.
Open Scope list_scope.

Lemma schema_parts nss known x code : schema_code nss known x = Ok code ->
  exists sts ags gs cts els p1 c2 c3 p4 c5,
    jlist (jget x "simpleTypes") = Ok sts /\ jlist (jget x "attributeGroups") = Ok ags /\ jlist (jget x "groups") = Ok gs /\
    jlist (jget x "complexTypes") = Ok cts /\ jlist (jget x "elements") = Ok els /\
    known_loop (simple_classes nss) known sts = Ok p1 /\
    mapM (attribute_group nss (snd p1)) ags = Ok c2 /\ mapM (group_class nss (snd p1)) gs = Ok c3 /\
    known_loop (fun k ct => c <- class_of_type nss k (jget ct "name") ct ;; Ok [c]) (snd p1) cts = Ok p4 /\
    mapM (fun e => class_of_type nss (snd p4) (jget e "name") (jget e "complexType")) (filter (fun e => py_truthy (jget e "complexType")) els) = Ok c5 /\
    fst code = fst p1 ++ c2 ++ c3 ++ fst p4 ++ c5 /\
    mapM (fun o => cap (jget o "name")) sts = Ok (gz_simple (snd code)) /\
    mapM (fun o => cap (jget o "name")) ags = Ok (gz_attrgroups (snd code)) /\
    mapM (fun o => cap (jget o "name")) gs = Ok (gz_groups (snd code)) /\
    mapM (fun o => cap (jget o "name")) cts = Ok (gz_complex (snd code)) /\
    gz_tns (snd code) = jtext (jget x "targetNamespace") /\ gz_efd (snd code) = jtext (jget x "elementFormDefault") /\
    mapM (fun e =>
            t <- (if py_truthy (jget e "type") then res_map TopType (type_expr nss (snd p4) e)
                  else res_map TopNew (cap (jget e "name"))) ;;
            let sg := jget e "substitutionGroup" in
            Ok (jtext (jget e "name"), (t, if py_truthy sg then Some (jtext sg) else None))) els = Ok (gz_elements (snd code)) /\
    (forall n, In n (snd p1) -> In n known \/ In n (gz_simple (snd code))) /\
    (forall n, In n (snd p4) -> In n known \/ In n (gz_simple (snd code)) \/ In n (gz_complex (snd code))).
Proof.
  intros H. unfold schema_code in H. apply bind_ok in H as ([cl k2] & Hp & H). apply bind_ok in H as (st & Hs & H). injection H as <-. cbn [fst snd].
  unfold schema_classes in Hp. unfold schema_statement in Hs. cbn [snd] in Hs.
  apply bind_ok in Hp as (sts & S1 & Hp). apply bind_ok in Hp as (ags & S2 & Hp). apply bind_ok in Hp as (gs & S3 & Hp). apply bind_ok in Hp as (cts & S5 & Hp).
  apply bind_ok in Hp as (els & S4 & Hp). apply bind_ok in Hp as (p1 & P1 & Hp). apply bind_ok in Hp as (c2 & C2 & Hp). apply bind_ok in Hp as (c3 & C3 & Hp).
  apply bind_ok in Hp as (p4 & P4 & Hp). apply bind_ok in Hp as (c5 & C5 & Hp). injection Hp as <- <-.
  rewrite S1, S2, S3, S4, S5 in Hs. apply bind_ok in Hs as (tns & Ht & Hs). cbn [bind] in Hs.
  assert (Et : tns = jtext (jget x "targetNamespace")) by (destruct (jget x "targetNamespace"); try discriminate; now injection Ht).
  apply bind_ok in Hs as (n1 & N1 & Hs). apply bind_ok in Hs as (n2 & N2 & Hs). apply bind_ok in Hs as (n3 & N3 & Hs). apply bind_ok in Hs as (n4 & N4 & Hs).
  apply bind_ok in Hs as (tops & T & Hs). injection Hs as <-. cbn [gz_complex gz_simple gz_attrgroups gz_groups gz_tns gz_efd gz_elements].
  destruct (known_loop_spec _ _ _ _ P1) as [_ B1]. destruct (known_loop_spec _ _ _ _ P4) as [_ B4].
  assert (K1 : forall n, In n (snd p1) -> In n known \/ In n n1).
  { intros n Hn. apply B1 in Hn as [Hn | (y & Iy & Ey)]; [now left|right]. destruct (mapM_in _ _ _ _ N1 Iy) as (z & Ez & Hz). congruence. }
  exists sts, ags, gs, cts, els, p1, c2, c3, p4, c5. repeat (split; [first [assumption|reflexivity]|]). 
  intros n Hn. apply B4 in Hn as [Hn | (y & Iy & Ey)].
  - apply K1 in Hn as [Hn | Hn]; auto.
  - right. right. destruct (mapM_in _ _ _ _ N4 Iy) as (z & Ez & Hz). congruence.
Qed.

(** What exec_schema has done. *)
Lemma schema_executed_from ms0 rt limit O code m : load_from rt limit O ms0 code = Ok m ->
  exists ms tops els, foldM (exec_class rt) ms0 (fst code) = Ok ms /\
    literal rt false (gz_tns (snd code)) = Ok (md_tns m) /\ literal rt false (gz_efd (snd code)) = Ok (md_efd m) /\
    mapM (fun p => n <- literal rt false (fst p) ;; t <- top_type limit O ms (fst (snd p)) ;; sg <- group_value rt (snd (snd p)) ;; Ok (n, (t, sg))) (gz_elements (snd code)) = Ok tops /\
    mapM (fun p => t <- force limit O (md_state m) (fst (snd p)) ;; Ok (fst p, (t, snd (snd p)))) tops = Ok els /\
    md_elements m = fold_left (fun d p => assoc_set (fst p) (snd p) d) els [] /\
    (forall n, In n (gz_attrgroups (snd code) ++ gz_groups (snd code) ++ gz_complex (snd code)) ->
       identifier n = true /\ exists c, assoc n (ms_names ms) = Some (MComplex c) /\
       nat_assoc c (ms_schema (md_state m)) = Some {| si_tns := Some (md_tns m); si_efd := md_efd m |} /\
       forall f, In f (class_fields (ms_world ms) c) -> exists t, force limit O (md_state m) (f_type f) = Ok t).
Proof.
  unfold load_from. intros H. apply bind_ok in H as (ms & Hms & H). exists ms.
  unfold exec_schema in H. apply bind_ok in H as (u1 & B1 & H). apply bind_ok in H as (ags & B2 & H). apply bind_ok in H as (gs & B3 & H).
  apply bind_ok in H as (cts & B4 & H). apply bind_ok in H as (tns & B5 & H). apply bind_ok in H as (efd & B6 & H). apply bind_ok in H as (tops & B7 & H).
  cbn zeta in H. apply bind_ok in H as (u2 & B8 & H). apply bind_ok in H as (els & B9 & H). injection H as <-. cbn [md_state md_tns md_efd md_elements].
  exists tops, els. split; [exact Hms|]. split; [exact B5|]. split; [exact B6|]. split; [exact B7|]. split; [exact B9|]. split; [reflexivity|].
  set (si := {| si_tns := Some tns; si_efd := efd |}) in *.
  assert (Sch : forall c l, In c (ags ++ gs ++ cts) -> Forall (fun p => snd p = si) l ->
    nat_assoc c (l ++ map (fun c => (c, si)) (ags ++ gs ++ cts) ++ ms_schema ms) = Some si).
  { intros c l Ic Fl. induction Fl as [|[c' s'] l Hs Fl IH]; cbn [app nat_assoc].
    - clear - Ic. induction (ags ++ gs ++ cts) as [|a t IH]; [destruct Ic|]. cbn [map app nat_assoc]. destruct (Nat.eqb_spec c a) as [->|N]; [reflexivity|].
      apply IH. destruct Ic as [-> | Ic]; [contradiction|exact Ic].
    - cbn in Hs. subst s'. now destruct (Nat.eqb c c'). }
  intros n Hn.
  assert (Bc : identifier n = true /\ exists c, assoc n (ms_names ms) = Some (MComplex c) /\ In c (ags ++ gs ++ cts)).
  { apply in_app_or in Hn as [Hn | Hn]; [|apply in_app_or in Hn as [Hn | Hn]].
    - destruct (mapM_in _ _ _ _ B2 Hn) as (c & Hc & Ic). unfold bound_class, bound in Hc. destruct (identifier n); [|discriminate]. split; [reflexivity|].
      destruct (assoc n (ms_names ms)) as [[c'|]|]; cbn in Hc; try discriminate. injection Hc as ->. exists c. split; [reflexivity|]. apply in_or_app. now left.
    - destruct (mapM_in _ _ _ _ B3 Hn) as (c & Hc & Ic). unfold bound_class, bound in Hc. destruct (identifier n); [|discriminate]. split; [reflexivity|].
      destruct (assoc n (ms_names ms)) as [[c'|]|]; cbn in Hc; try discriminate. injection Hc as ->. exists c. split; [reflexivity|]. apply in_or_app. right. apply in_or_app. now left.
    - destruct (mapM_in _ _ _ _ B4 Hn) as (c & Hc & Ic). unfold bound_class, bound in Hc. destruct (identifier n); [|discriminate]. split; [reflexivity|].
      destruct (assoc n (ms_names ms)) as [[c'|]|]; cbn in Hc; try discriminate. injection Hc as ->. exists c. split; [reflexivity|]. apply in_or_app. right. apply in_or_app. now right. }
  destruct Bc as (Id & c & Hc & Ic). split; [exact Id|]. exists c. split; [exact Hc|]. split.
  - cbn [ms_schema]. apply Sch; [exact Ic|]. apply Forall_rev. apply Forall_forall. intros p Hp. apply in_flat_map in Hp as (e & _ & Hp).
    unfold top_schema in Hp. destruct (fst (snd e)) as [|nm]; [destruct Hp|]. destruct (assoc nm (ms_names ms)) as [[c'|]|]; [destruct Hp as [<- | []]; reflexivity|destruct Hp|destruct Hp].
  - intros f Hf.
    assert (Ic' : In c (cts ++ ags ++ gs)).
    { rewrite !in_app_iff in *. tauto. }
    destruct (mapM_in _ _ _ _ B8 Ic') as (ys & Hys & _). cbn [ms_world] in Hys.
    destruct (mapM_in _ _ _ _ Hys Hf) as (t & Ht & _). now exists t.
Qed.
Lemma schema_executed rt limit O code m : load rt limit O code = Ok m ->
  exists ms tops els, foldM (exec_class rt) start (fst code) = Ok ms /\
    literal rt false (gz_tns (snd code)) = Ok (md_tns m) /\ literal rt false (gz_efd (snd code)) = Ok (md_efd m) /\
    mapM (fun p => n <- literal rt false (fst p) ;; t <- top_type limit O ms (fst (snd p)) ;; sg <- group_value rt (snd (snd p)) ;; Ok (n, (t, sg))) (gz_elements (snd code)) = Ok tops /\
    mapM (fun p => t <- force limit O (md_state m) (fst (snd p)) ;; Ok (fst p, (t, snd (snd p)))) tops = Ok els /\
    md_elements m = fold_left (fun d p => assoc_set (fst p) (snd p) d) els [] /\
    (forall n, In n (gz_attrgroups (snd code) ++ gz_groups (snd code) ++ gz_complex (snd code)) ->
       identifier n = true /\ exists c, assoc n (ms_names ms) = Some (MComplex c) /\
       nat_assoc c (ms_schema (md_state m)) = Some {| si_tns := Some (md_tns m); si_efd := md_efd m |} /\
       forall f, In f (class_fields (ms_world ms) c) -> exists t, force limit O (md_state m) (f_type f) = Ok t).
Proof. exact (schema_executed_from start rt limit O code m). Qed.

Lemma assoc_merge {A} (l : list (string * A)) : forall d k v, NoDup (map fst l) -> In (k, v) l ->
  assoc k (fold_left (fun d p => assoc_set (fst p) (snd p) d) l d) = Some v.
Proof.
  induction l as [|[k0 v0] l IH]; intros d k v N I; [destruct I|]. cbn [map fst] in N. inversion_clear N as [|? ? Nk Nl]. cbn [fold_left fst snd].
  destruct I as [[= -> ->]|I]; [|now apply IH].
  assert (Keep : forall (l : list (string * A)) d, ~ In k (map fst l) -> assoc k (fold_left (fun d p => assoc_set (fst p) (snd p) d) l d) = assoc k d).
  { clear. induction l as [|[k0 v0] l IH]; intros d N; [reflexivity|]. cbn [fold_left fst snd map In] in *. rewrite IH by tauto. apply assoc_set_other. intros ->. apply N. now left. }
  rewrite (Keep l _ Nk). apply assoc_set_same.
Qed.

Lemma unbroken s : no_break s -> breaks s = false.
Proof.
  intros [N N']. unfold breaks. destruct (char_in newline s) eqn:E; [apply char_in_spec in E; destruct (N E)|].
  destruct (char_in carriage_return s) eqn:E'; [apply char_in_spec in E'; destruct (N' E')|]. reflexivity.
Qed.
Lemma plain_literal rt raw n : plain_text n -> literal rt raw n = Ok n.
Proof.
  intros (Q & B & N). unfold literal.
  destruct (char_in quote n) eqn:E1; [apply char_in_spec in E1; contradiction|].
  rewrite (unbroken n N).
  destruct (char_in backslash n) eqn:E3; [apply char_in_spec in E3; contradiction|]. reflexivity.
Qed.
Lemma plain_group rt v : plain_quoted v -> group_value rt (Some v) = Ok (Some v).
Proof.
  intros (Q & B & N). unfold group_value, quoted. destruct (char_in double_quote v) eqn:E1; [apply char_in_spec in E1; contradiction|].
  rewrite (unbroken v N). destruct (char_in backslash v) eqn:E3; [apply char_in_spec in E3; contradiction|]. reflexivity.
Qed.
Definition group_text (e : pyval) : option string := let sg := jget e "substitutionGroup" in if py_truthy sg then Some (jtext sg) else None.
Lemma group_kept rt e sg : group_value rt (group_text e) = Ok sg -> keeps_group e sg.
Proof.
  unfold group_text. intros H. split.
  - intros L. rewrite (lacks_jget _ _ L) in H. cbn in H. now injection H.
  - intros v V N Q. rewrite (has_jget _ _ _ V) in H. cbn [py_truthy] in H. destruct (String.eqb_spec v ""); [contradiction|]. cbn [negb jtext] in H.
    rewrite (plain_group rt v Q) in H. now injection H.
Qed.
Lemma resolve_denoted (m : module) nss k q rt ms g t : good ms -> ext ms (md_state m) ->
  (forall n, In n k -> identifier n = true) -> get_type nss (Some k) q = Ok (gf_type g) -> gf_call g = None ->
  field_type rt ms g = Ok t -> (exists t', denotes m nss q t') -> exists t', resolve (md_state m) t = Ok t'.
Proof.
  intros G Ex Kid Gt Gc F (t' & p & local & Q & _ & D). apply get_type_ok in Gt as (p' & local' & Q' & L & Cases).
  destruct (qualified_unique _ _ _ _ _ Q Q') as [<- <-].
  unfold field_type in F. rewrite Gc in F. destruct Cases as [[Ip E]|[Ip [[Ik E]|E]]]; rewrite E in F.
  - rewrite eval_lib in F. destruct (lib_class (capital local)) as [[c|s]|] eqn:El; cbn [bind] in F; [| |discriminate].
    + apply lib_names in El as (N & Hc & S). rewrite (base_name ms c G Hc), N in F. assert (Et : t = TComplex ("xsd." ++ capital local)%string) by congruence.
      rewrite Et. unfold resolve. destruct (assoc ("xsd." ++ capital local) (ms_names (md_state m))) as [[]|]; eauto. rewrite S. eauto.
    + injection F as <-. cbn. eauto.
  - rewrite (eval_name ms _ (Kid _ Ik)) in F. destruct (assoc (capital local) (ms_names ms)) as [[c|s]|] eqn:Ea; cbn [bind] in F; [| |discriminate].
    + rewrite (proj2 (gd_names ms G _ _ Ea)) in F. injection F as <-. unfold resolve. rewrite (ext_bound _ _ _ _ Ex Ea). eauto.
    + injection F as <-. cbn. eauto.
  - rewrite eval_lazy in F. cbn [bind] in F. injection F as <-. destruct D as [[D _]|[_ D]]; [contradiction|]. unfold provides in D. unfold resolve.
    destruct (assoc (capital local) (ms_names (md_state m))) as [[c|s]|]; [eauto|eauto|destruct D].
Qed.

Section Elements.
  Variable ms0 : mstate.
  Hypothesis G0 : good ms0.
  Hypothesis E0 : ext start ms0.
  Variables (rt : runtime) (limit : nat) (O : oracle) (nss : list (option string)) (known : list string) (x : pyval).
  Variables (code : list gclass * gschema_st) (m : module) (bl : bool) (els : list pyval) (names : list string) (e : pyval) (n : string).
  Hypothesis Kn : Forall (fun n => identifier n = true) known.
  Hypothesis C : schema_code nss known x = Ok code.
  Hypothesis L : load_from rt limit O ms0 code = Ok m.
  Hypothesis Hx : has x "elements" (VList bl els).
  Hypothesis Hns : Forall2 (fun e n => has e "name" (VStr n)) els names.
  Hypothesis Nd : NoDup names.
  Hypothesis Pl : Forall plain_text names.
  Hypothesis Ie : In e els.
  Hypothesis Hn : has e "name" (VStr n).

  Lemma element_found ms tops els' t : foldM (exec_class rt) ms0 (fst code) = Ok ms ->
    mapM (fun p => n <- literal rt false (fst p) ;; t <- top_type limit O ms (fst (snd p)) ;; sg <- group_value rt (snd (snd p)) ;; Ok (n, (t, sg))) (gz_elements (snd code)) = Ok tops ->
    mapM (fun p => t <- force limit O (md_state m) (fst (snd p)) ;; Ok (fst p, (t, snd (snd p)))) tops = Ok els' ->
    md_elements m = fold_left (fun d p => assoc_set (fst p) (snd p) d) els' [] ->
    forall k4, mapM (fun e =>
            t <- (if py_truthy (jget e "type") then res_map TopType (type_expr nss k4 e)
                  else res_map TopNew (cap (jget e "name"))) ;;
            let sg := jget e "substitutionGroup" in
            Ok (jtext (jget e "name"), (t, if py_truthy sg then Some (jtext sg) else None))) els = Ok (gz_elements (snd code)) ->
    (if py_truthy (jget e "type") then res_map TopType (type_expr nss k4 e) else res_map TopNew (cap (jget e "name"))) = Ok t ->
    exists t1 t2 sg, top_type limit O ms t = Ok t1 /\ force limit O (md_state m) t1 = Ok t2 /\ keeps_group e sg /\
      assoc n (md_elements m) = Some (t2, sg).
  Proof.
    intros Fm T1 T2 Em k4 Ge Et.
    destruct (mapM_in _ _ _ _ Ge Ie) as (z & Hz & Iz). rewrite Et in Hz. cbn [bind] in Hz. rewrite (has_jget _ _ _ Hn) in Hz. cbn [jtext] in Hz. cbn zeta in Hz. injection Hz as <-.
    assert (In_n : In n names).
    { clear - Hns Ie Hn. induction Hns as [|e' n' es ns H F IH]; [destruct Ie|]. destruct Ie as [-> | I]; [left|right; auto].
      apply has_jget in H, Hn. congruence. }
    destruct (mapM_in _ _ _ _ T1 Iz) as (z1 & Hz1 & Iz1). cbn [fst snd] in Hz1.
    rewrite (plain_literal rt false n) in Hz1 by (rewrite Forall_forall in Pl; now apply Pl). cbn [bind] in Hz1.
    apply bind_ok in Hz1 as (t1 & Ht1 & Hz1). apply bind_ok in Hz1 as (sg & Hsg & Hz1). injection Hz1 as <-.
    destruct (mapM_in _ _ _ _ T2 Iz1) as (z2 & Hz2 & Iz2). cbn [fst snd] in Hz2. apply bind_ok in Hz2 as (t2 & Ht2 & Hz2). injection Hz2 as <-.
    exists t1, t2, sg. split; [exact Ht1|]. split; [exact Ht2|]. split; [exact (group_kept rt e sg Hsg)|]. rewrite Em. apply assoc_merge; [|exact Iz2].
    assert (E1 : map fst (gz_elements (snd code)) = names).
    { apply mapM_forall2 in Ge. clear - Ge Hns. revert Ge. generalize (gz_elements (snd code)). induction Hns as [|e' n' es ns H F IH]; intros l Ge; inversion_clear Ge as [|? g ? gs Hg Gs]; [reflexivity|].
      cbn [map]. rewrite (IH F _ Gs). f_equal. apply bind_ok in Hg as (t & _ & Hg). injection Hg as <-. cbn [fst]. now rewrite (has_jget _ _ _ H). }
    assert (E2 : map fst tops = names).
    { rewrite <- E1 in Pl |- *. apply mapM_forall2 in T1. clear - T1 Pl. induction T1 as [|p q l l' H F IH]; [reflexivity|]. cbn [map] in *. inversion_clear Pl as [|? ? P1 P2].
      rewrite (IH P2). f_equal. rewrite (plain_literal rt false _ P1) in H. cbn [bind] in H. apply bind_ok in H as (t & _ & H). apply bind_ok in H as (sg & _ & H). injection H as <-. reflexivity. }
    assert (E3 : map fst els' = names).
    { rewrite <- E2. apply mapM_forall2 in T2. clear - T2. induction T2 as [|p q l l' H F IH]; [reflexivity|]. cbn [map]. rewrite IH. f_equal. apply bind_ok in H as (t & _ & H). injection H as <-. reflexivity. }
    now rewrite E3.
  Qed.

  Lemma typed_element_from q : is_a e "Element" -> lacks e "ref" -> has e "type" (VStr q) -> q <> "" ->
    exists t sg, assoc n (md_elements m) = Some (t, sg) /\ denotes m nss q t /\ keeps_group e sg.
  Proof.
    intros Ia Lr Hq Nq. destruct (schema_parts _ _ _ _ C) as (sts & ags & gs & cts & els0 & p1 & c2 & c3 & p4 & c5 & _ & _ & _ & _ & J & _ & _ & _ & _ & _ & _ & _ & _ & _ & _ & _ & _ & Ge & _ & K4).
    rewrite (has_jget _ _ _ Hx) in J. injection J as <-.
    destruct (schema_executed_from _ _ _ _ _ _ L) as (ms & tops & els' & Fm & _ & _ & T1 & T2 & Em & _).
    destruct (load_from_spec _ _ _ _ _ _ G0 L) as (ms' & Fm' & G & Gm & Ex & _ & _ & _ & Is & Ic). rewrite Fm in Fm'. injection Fm' as <-.
    assert (Tr : py_truthy (jget e "type") = true) by (rewrite (has_jget _ _ _ Hq); cbn; destruct (String.eqb_spec q ""); [contradiction|reflexivity]).
    assert (Te : type_expr nss (snd p4) e = get_type nss (Some (snd p4)) q) by (apply (type_expr_element nss _ e "Element"); auto).
    assert (Ok4 : exists bx, get_type nss (Some (snd p4)) q = Ok bx).
    { destruct (mapM_in _ _ _ _ Ge Ie) as (z & Hz & _). rewrite Tr, Te in Hz. apply bind_ok in Hz as (t & Ht & _). destruct (get_type nss (Some (snd p4)) q); [eauto|discriminate]. }
    destruct Ok4 as (bx & Gt).
    destruct (element_found ms tops els' (TopType bx) Fm T1 T2 Em (snd p4) Ge) as (t1 & t2 & sg & H1 & H2 & Hg & H3).
    { rewrite Tr, Te, Gt. reflexivity. }
    exists t2, sg. split; [exact H3|]. split; [|exact Hg].
    assert (Kid : forall n, In n (snd p4) -> identifier n = true).
    { intros n0 I. apply K4 in I as [I | [I | I]]; [rewrite Forall_forall in Kn; now apply Kn|now apply Is|now apply Ic]. }
    assert (R2 : resolve (md_state m) t1 = Ok t2).
    { unfold force in H2. apply bind_ok in H2 as (t' & R & H2). rewrite R. f_equal. destruct t'; [now injection H2|]. apply bind_ok in H2 as (_ & _ & H2). now injection H2. }
    destruct (type_denotes m nss (snd p4) q bx rt ms (mkGf "" "" bx None []) t1) as (t' & R' & D); auto.
    - exists t2. exact R2.
    - congruence.
  Qed.

  Lemma anonymous_class_from ct i els0 attrs eps aps :
    lacks e "type" -> has e "complexType" ct -> is_a ct "XSDComplexType" -> lacks ct "complexContent" ->
    states_content ct i els0 attrs -> Forall2 states_element els0 eps -> Forall2 states_attribute attrs aps ->
    usable (aps ++ eps) -> (forall p, In p (aps ++ eps) -> exists t, denotes m nss (pt_type p) t) ->
    (exists sg, assoc n (md_elements m) = Some (TComplex (capital n), sg) /\ keeps_group e sg) /\
    exists d, module_class m (capital n) d /\ cd_mro d = [capital n; "xsd.ComplexType"] /\ cd_kind d = CKPlain /\
      cd_ind d = match i with Some i => i | None => ISequence end /\ Forall2 (mirrors m nss) (aps ++ eps) (cd_fields d).
  Proof.
    intros Lt Hct Ict Lc Sc Se Sa U De. destruct (schema_parts _ _ _ _ C) as (sts & ags & gs & cts & els1 & p1 & c2 & c3 & p4 & c5 & _ & _ & _ & _ & J & _ & _ & _ & _ & C5 & Fc & _ & _ & _ & _ & _ & _ & Ge & _ & K4).
    rewrite (has_jget _ _ _ Hx) in J. injection J as <-.
    destruct (schema_executed_from _ _ _ _ _ _ L) as (ms & tops & els' & Fm & _ & _ & T1 & T2 & Em & _).
    destruct (load_from_spec _ _ _ _ _ _ G0 L) as (ms' & Fm' & G & Gm & Ex & Ww & Wn & Wc & Is & Ic). rewrite Fm in Fm'. injection Fm' as <-.
    assert (If : In e (filter (fun e => py_truthy (jget e "complexType")) els)) by (apply filter_In; split; [exact Ie|]; rewrite (has_jget _ _ _ Hct); now apply (obj_truthy _ "XSDComplexType")).
    destruct (mapM_in _ _ _ _ C5 If) as (g & Cg & Ig). rewrite (has_jget _ _ _ Hct), (has_jget _ _ _ Hn) in Cg.
    rewrite class_of_type_body in Cg. unfold class_head in Cg. rewrite (lacks_jget _ _ Lc) in Cg. cbn [py_truthy] in Cg.
    apply bind_ok in Cg as (h & Hh & Cg). apply bind_ok in Hh as (cls & Hcls & Hh). injection Hh as <-. cbn iota beta in Cg.
    pose proof Hcls as Hcap. cbn [cap] in Hcls. apply capital_ok in Hcls as [-> Ne].
    destruct (body_printed _ _ _ _ _ _ _ _ _ _ _ _ Sc Se Sa Cg) as (Gn & Gb & Gf & Gk & Gcr).
    assert (Kid : forall n, In n (snd p4) -> identifier n = true).
    { intros n0 I. apply K4 in I as [I | [I | I]]; [rewrite Forall_forall in Kn; now apply Kn|now apply Is|now apply Ic]. }
    assert (Igc : In g (fst code)) by (rewrite Fc, !in_app_iff; auto).
    destruct (class_reached_from _ _ _ _ _ G0 E0 Fm Igc) as (ms1 & ms2 & G1 & X & G2 & E12 & E2 & Es).
    assert (Ev : eval_type ms1 (gc_base g) = Ok (TvClass (MComplex 0))) by (rewrite Gb; reflexivity).
    assert (B0 : 0 < length (ms_class ms1)) by (pose proof (proj1 (gd_base ms1 G1)); lia).
    destruct (gd_base ms1 G1) as (L3 & F3 & Z). specialize (Z 0 ltac:(lia)).
    assert (E1m : ext ms1 (md_state m)) by (eapply ext_trans; [|eapply ext_trans]; eauto).
    assert (Zm : class_fields (ms_world (md_state m)) 0 = []) by (rewrite (ext_class_fields ms1 _ 0 G1 E1m B0); exact Z).
    assert (Mm : mro_of (md_state m) 0 = [0]) by (rewrite (ext_mro start _ 0 start_good (ext_trans _ _ _ Es E1m)); [reflexivity|cbn; lia]).
    (* the class and its fields *)
    assert (Mk : exists fs, mapM (make_field rt ms1) (gc_fields g) = Ok fs /\ class_fields (ms_world ms2) (length (ms_class ms1)) = surviving (created g) fs /\
       assoc (gc_name g) (ms_names ms2) = Some (MComplex (length (ms_class ms1))) /\ length (ms_class ms1) < length (ms_class ms2)).
    { pose proof X as X'. unfold exec_class in X'. destruct (identifier (gc_name g)) eqn:Id; cbn [negb] in X'; [|discriminate].
      destruct (assoc (gc_name g) (ms_names ms1)) eqn:As; [discriminate|]. rewrite Ev in X'. cbn [bind] in X'.
      destruct (define_step rt ms1 g 0 ms2 G1 Id As B0 X') as (_ & _ & Nm & Nc & _ & _ & fs & Fs & Cf). exists fs. split; [exact Fs|]. rewrite Z in Cf. split; [exact Cf|].
      assert (Aa : assoc (gc_name g) (ms_names ms2) = Some (MComplex (length (ms_class ms1)))) by (rewrite Nm, (assoc_app_r _ _ _ As); cbn; now rewrite String.eqb_refl).
      split; [exact Aa|]. apply (gd_names ms2 G2) in Aa. lia. }
    destruct Mk as (fs & Fs & Cf & Aa & Ll).
    assert (Res : forall f, In f fs -> exists t, resolve (md_state m) (f_type f) = Ok t).
    { intros f Hf. apply mapM_forall2 in Fs. clear - Fs Gf Hf De G1 E1m Kid. revert fs Fs Hf. induction Gf as [|p h ps hs Hp F IH]; intros fs Fs Hf; inversion Fs as [|? f0 ? fs0 Hf0 Fs0]; subst; [destruct Hf|].
      destruct Hf as [<- | Hf].
      - destruct (printed_made _ _ _ _ _ _ _ Hp Hf0) as (_ & Gt & Gc & Ft). eapply (resolve_denoted m nss (snd p4) (pt_type p)); eauto. apply De. now left.
      - apply (IH (fun p' I => De p' (or_intror I)) _ Fs0 Hf). }
    destruct (class_made rt nss (snd p4) m g 0 _ i (aps ++ eps) els0 Kid Gf Gk Gcr) with (ms1 := ms1) (ms2 := ms2) (ms := ms) as (c & own & Mc & Ec & Cfm & Mi & Ci & Cm & Ck); auto.
    - destruct (py_truthy _); cbn; auto.
    - intros c Hc f Hf. assert (Hc2 : assoc (gc_name g) (ms_names ms) = Some (MComplex (length (ms_class ms1)))) by now apply (ext_bound _ _ _ _ E2).
      rewrite Hc2 in Hc. injection Hc as <-. rewrite (ext_class_fields ms2 ms _ G2 E2 Ll), Cf in Hf. apply Res.
      clear - Hf. induction fs as [|f0 t IH]; cbn in Hf; [destruct Hf|]. destruct (_ || _)%bool; [right; auto|]. destruct Hf as [<- | Hf]; [now left|right; auto].
    - rewrite Z. intros f [].
    - split.
      + destruct (element_found ms tops els' (TopNew (capital n)) Fm T1 T2 Em (snd p4) Ge) as (t1 & t2 & sg & H1 & H2 & Hg & H3).
        { rewrite (lacks_jget _ _ Lt). cbn [py_truthy]. rewrite (has_jget _ _ _ Hn), Hcap. reflexivity. }
        exists sg. split; [|exact Hg]. rewrite H3. repeat f_equal.
        assert (Hc2 : assoc (capital n) (ms_names ms) = Some (MComplex (length (ms_class ms1)))) by (rewrite <- Gn; now apply (ext_bound _ _ _ _ E2)).
        cbn [top_type] in H1. unfold bound in H1. destruct (identifier (capital n)); [|discriminate]. rewrite Hc2 in H1. cbn [bind] in H1.
        apply bind_ok in H1 as (_ & _ & H1). injection H1 as <-. unfold force, resolve in H2. rewrite Wn, Hc2 in H2. cbn [bind] in H2. apply bind_ok in H2 as (_ & _ & H2). now injection H2.
      + exists (class_def (md_state m) c). rewrite Gn in Mc, Cm. split; [exact Mc|]. split; [|split; [|split]].
        * rewrite Cm. unfold class_def. cbn [cd_mro]. rewrite Mm. cbn [map]. now rewrite (base_name _ 0 Gm) by lia.
        * rewrite Ck. rewrite Ec. destruct (Nat.eqb_spec (length (ms_class ms1)) 1); [lia|]. unfold class_def. cbn [cd_kind]. now rewrite Mm.
        * rewrite Ci. destruct i; [reflexivity|]. unfold class_def. cbn [cd_ind].
          rewrite (ext_class_name start _ 0 (ext_trans _ _ _ Es E1m)) by (cbn; lia). reflexivity.
        * rewrite Cfm. unfold class_def at 1. cbn [cd_fields]. rewrite Zm. exact Mi.
  Qed.
End Elements.
Definition typed_element := typed_element_from start start_good.
Definition anonymous_class := anonymous_class_from start start_good (ext_refl start).

(** The namespace of the classes. *)
Lemma class_namespace_from ms0 rt limit O nss known x code m bl cts ct name d tns efd : good ms0 -> schema_code nss known x = Ok code -> load_from rt limit O ms0 code = Ok m ->
  has x "complexTypes" (VList bl cts) -> In ct cts -> has ct "name" (VStr name) -> module_class m (capital name) d ->
  has x "targetNamespace" (VStr tns) -> has x "elementFormDefault" (VStr efd) -> plain_text tns -> plain_text efd ->
  cd_schema d = Some {| si_tns := Some tns; si_efd := efd |}.
Proof.
  intros G0 C L Hx Ict Hn Mc Ht He Pt Pe. destruct (schema_parts _ _ _ _ C) as (sts & ags & gs & cts0 & els1 & p1 & c2 & c3 & p4 & c5 & _ & _ & _ & J & _ & _ & _ & _ & _ & _ & _ & _ & _ & _ & N4 & Ts & Es & _).
  rewrite (has_jget _ _ _ Hx) in J. injection J as <-.
  destruct (schema_executed_from _ _ _ _ _ _ L) as (ms & tops & els' & Fm & Lt & Le & _ & _ & _ & Sc).
  destruct (load_from_spec _ _ _ _ _ _ G0 L) as (ms' & Fm' & G & Gm & Ex & Ww & Wn & Wc & _ & _). rewrite Fm in Fm'. injection Fm' as <-.
  rewrite Ts, (has_jget _ _ _ Ht) in Lt. rewrite Es, (has_jget _ _ _ He) in Le. cbn [jtext] in Lt, Le.
  rewrite (plain_literal rt false _ Pt) in Lt. rewrite (plain_literal rt false _ Pe) in Le. injection Lt as Lt. injection Le as Le.
  destruct (mapM_in _ _ _ _ N4 Ict) as (cn & Hcn & Icn). rewrite (has_jget _ _ _ Hn) in Hcn. cbn [cap] in Hcn. apply capital_ok in Hcn as [-> _].
  destruct (Sc (capital name)) as (_ & c & Ac & Na & _); [rewrite !in_app_iff; auto|].
  unfold module_class, module_env in Mc. cbn [e_cls] in Mc. rewrite Wn, Ac in Mc. injection Mc as <-. unfold class_def. cbn [cd_schema].
  assert (Mr : exists t, mro_of (md_state m) c = c :: t).
  { unfold mro_of. rewrite Ww. assert (Hc : c < length (w_classes (ms_world ms))) by (rewrite <- (gd_class ms G); now apply (gd_names ms G) in Ac).
    destruct (nth_error (w_classes (ms_world ms)) c) as [k|] eqn:E; [now apply (gd_mro ms G)|apply nth_error_None in E; lia]. }
  destruct Mr as (t & ->). cbn [schema_of]. rewrite Na. now rewrite <- Lt, <- Le.
Qed.
Lemma class_namespace rt limit O nss known x code m bl cts ct name d tns efd : schema_code nss known x = Ok code -> load rt limit O code = Ok m ->
  has x "complexTypes" (VList bl cts) -> In ct cts -> has ct "name" (VStr name) -> module_class m (capital name) d ->
  has x "targetNamespace" (VStr tns) -> has x "elementFormDefault" (VStr efd) -> plain_text tns -> plain_text efd ->
  cd_schema d = Some {| si_tns := Some tns; si_efd := efd |}.
Proof. exact (class_namespace_from start rt limit O nss known x code m bl cts ct name d tns efd start_good). Qed.
