(** Generated classes: simple types. *)
From Coq Require Import String Ascii List ZArith NArith Bool Lia.
From Verif Require Import PyBase PyRe PyVal XsdSimple XsdComplex XsdMeta LibClasses Py2Xsd GenNames Xsd2Py PyLoad SpecSimple SpecNames SpecGenCode
  PfBase PfMeta PfMeta2 PfLoad PfLoad2 PfSimple PfGenCode PfGenCode2 PfGenCode3 PfGenCode4 PfGenCode5 PfGenCode6.
Import ListNotations.
Open Scope nat_scope.
Open Scope string_scope.
Open Scope list_scope.

Lemma simple_statement nss known x code bl sts st : schema_code nss known x = Ok code -> has x "simpleTypes" (VList bl sts) -> In st sts ->
  exists k cs n, simple_classes nss k st = Ok cs /\ incl cs (fst code) /\ cap (jget st "name") = Ok n /\ In n (gz_simple (snd code)) /\
    forall m, In m k -> In m known \/ In m (gz_simple (snd code)).
Proof.
  intros C Hx I. destruct (schema_parts _ _ _ _ C) as (sts0 & ags & gs & cts & els & p1 & c2 & c3 & p4 & c5 & J & _ & _ & _ & _ & P1 & _ & _ & _ & _ & Fc & N1 & _).
  rewrite (has_jget _ _ _ Hx) in J. injection J as <-. destruct (known_loop_spec _ _ _ _ P1) as [A _].
  destruct (A st I) as (k & cs & E & Inc & Kn). destruct (mapM_in _ _ _ _ N1 I) as (n & En & Inn).
  exists k, cs, n. split; [exact E|]. split; [rewrite Fc; intros c Hc; apply in_or_app; left; now apply Inc|]. split; [exact En|]. split; [exact Inn|].
  intros m Hm. apply Kn in Hm as [Hm | (y & Iy & Ey)]; [now left|right]. destruct (mapM_in _ _ _ _ N1 Iy) as (z & Ez & Hz). congruence.
Qed.

(** What the class statement of a restriction binds its name to. *)
Lemma restriction_bound rt limit O nss known x code m bl sts st name r q p local t : Forall (fun n => identifier n = true) known ->
  schema_code nss known x = Ok code -> load rt limit O code = Ok m ->
  has x "simpleTypes" (VList bl sts) -> In st sts -> has st "name" (VStr name) -> has st "restriction" r -> is_a r "Restriction" ->
  has r "base" (VStr q) -> qualified_name q p local ->
  (In p nss /\ lib_class (capital local) = Some (MSimple t)) \/ (~ In p nss /\ assoc (capital local) (ms_names (md_state m)) = Some (MSimple t)) ->
  exists enums kw t', enum_texts r = Ok enums /\
    eval_kw rt (match enums with [] => [] | _ => [("enumeration", XList enums)] end ++
         opt_const "pattern" XRaw (facet_text r "pattern") ++
         match facet_text r "minInclusive" with
         | Some v => [("minInclusive", XRaw v)]
         | None => opt_const "minExclusive" XRaw (facet_text r "minExclusive")
         end ++
         match facet_text r "maxInclusive" with
         | Some v => [("maxInclusive", XRaw v)]
         | None => opt_const "maxExclusive" XRaw (facet_text r "maxExclusive")
         end) = Ok kw /\
    simple_subclass rt (capital name) t kw = Ok t' /\ assoc (capital name) (ms_names (md_state m)) = Some (MSimple t').
Proof.
  intros Kn C L Hx I Hn Hr Ir Hq Q B. destruct (simple_statement _ _ _ _ _ _ _ C Hx I) as (k & cs & n & E & Inc & En & Inn & Kk).
  destruct (load_spec _ _ _ _ _ L) as (ms & Fm & G & Gm & Em & Ww & Wn & Wc & Is & Ic).
  assert (Kid : forall n, In n k -> identifier n = true).
  { intros n0 I0. apply Kk in I0 as [I0 | I0]; [rewrite Forall_forall in Kn; now apply Kn|now apply Is]. }
  rewrite (has_jget _ _ _ Hn) in En. cbn [cap] in En.
  unfold simple_classes in E. rewrite (has_jget _ _ _ Hr), (obj_truthy _ _ Ir) in E. apply bind_ok in E as (a & Ha & E). apply bind_ok in Ha as (g & Hg & Ha). injection Ha as <-.
  apply bind_ok in E as (b & _ & E). injection E as <-. assert (Ig : In g (fst code)) by (apply Inc; now left).
  unfold restriction_class in Hg. rewrite (has_jget _ _ _ Hn) in Hg. cbn [cap] in Hg. rewrite En in Hg. cbn [bind] in Hg. apply capital_ok in En as [-> Ne].
  apply bind_ok in Hg as (bx & Hb & Hg). apply bind_ok in Hg as (enums & He & Hg).
  assert (Gt : get_type nss (Some k) q = Ok bx).
  { rewrite <- Hb. destruct Ir as (xe & fs & ->). unfold type_expr. rewrite (has_jget _ _ _ Hq). reflexivity. }
  destruct (class_reached _ _ _ _ Fm Ig) as (ms1 & ms2 & G1 & X & G2 & E12 & E2 & Es).
  assert (E1m : ext ms1 (md_state m)) by (eapply ext_trans; [|eapply ext_trans]; eauto).
  unfold exec_class in X. injection Hg as <-. cbn [gc_name gc_base gc_consts] in X.
  destruct (identifier (capital name)); cbn [negb] in X; [|discriminate]. destruct (assoc (capital name) (ms_names ms1)) eqn:As; [discriminate|].
  apply bind_ok in X as (tv & Ev & X).
  assert (Etv : tv = TvClass (MSimple t) \/ exists n, tv = TvText n).
  { apply get_type_ok in Gt as (p' & local' & Q' & _ & Cases). destruct (qualified_unique _ _ _ _ _ Q Q') as [<- <-].
    destruct Cases as [[Y ->]|[N [[Ik ->]|Ebx]]].
    - rewrite eval_lib in Ev. destruct B as [[_ B]|[B _]]; [|contradiction]. rewrite B in Ev. left. congruence.
    - rewrite (eval_name _ _ (Kid _ Ik)) in Ev. destruct B as [[B _]|[_ B]]; [contradiction|].
      destruct (assoc (capital local) (ms_names ms1)) as [v|] eqn:Eb; [|discriminate]. rewrite (ext_bound _ _ _ _ E1m Eb) in B. left. congruence.
    - rewrite Ebx, eval_lazy in Ev. right. exists (capital local). congruence. }
  destruct Etv as [-> | (n & ->)]; [|discriminate]. apply bind_ok in X as (kw & Hk & X). apply bind_ok in X as (t' & Ht & X). injection X as <-.
  exists enums, kw, t'. split; [exact He|]. split; [exact Hk|]. split; [exact Ht|].
  apply (ext_bound _ _ _ _ (ext_trans _ _ _ E2 Em)). cbn [ms_names]. rewrite (assoc_app_r _ _ _ As). cbn. now rewrite String.eqb_refl.
Qed.

(** Numbers: the class is its base. *)
Lemma number_restriction rt limit O nss known x code m bl sts st name r q p local t : Forall (fun n => identifier n = true) known ->
  schema_code nss known x = Ok code -> load rt limit O code = Ok m ->
  has x "simpleTypes" (VList bl sts) -> In st sts -> has st "name" (VStr name) -> has st "restriction" r -> is_a r "Restriction" ->
  has r "base" (VStr q) -> qualified_name q p local ->
  In p nss -> lib_class (capital local) = Some (MSimple t) -> numeric t = true ->
  exists t', provides m (capital name) (TSimple t') /\ forall v, st_accept O t' v = st_accept O t v.
Proof.
  intros Kn C L Hx I Hn Hr Ir Hq Q Ip Hl Nt.
  destruct (restriction_bound _ _ _ _ _ _ _ _ _ _ _ _ _ _ _ _ _ Kn C L Hx I Hn Hr Ir Hq Q (or_introl (conj Ip Hl))) as (enums & kw & t' & _ & _ & Hs & A).
  exists t'. unfold provides. rewrite A. split; [reflexivity|]. intros v. destruct t; try discriminate; cbn in Hs; injection Hs as <-; reflexivity.
Qed.

(** Strings: enumeration and pattern count. *)
Lemma mapM_literal rt l : Forall plain_text l -> mapM (literal rt false) l = Ok l.
Proof. induction 1 as [|a l H F IH]; [reflexivity|]. cbn [mapM]. now rewrite (plain_literal rt false a H), IH. Qed.
Lemma str_list_strs l : str_list (VList false (map VStr l)) = Ok l.
Proof. unfold str_list. induction l as [|a l IH]; [reflexivity|]. cbn [map mapM str_arg bind]. now rewrite IH. Qed.
Lemma enumeration_kw rt l : Forall plain_text l -> eval_kw rt [("enumeration", XList l)] = Ok [("enumeration", VList false (map VStr l))].
Proof. intros Pl. unfold eval_kw. cbn [mapM snd eval_pyx fst]. now rewrite (mapM_literal rt _ Pl). Qed.
Lemma enumeration_arg rt f l : string_arg rt f ("enumeration", VList false (map VStr l)) =
  Ok {| sf_enum := Some l; sf_pattern := sf_pattern f; sf_length := sf_length f; sf_minLength := sf_minLength f; sf_maxLength := sf_maxLength f; sf_ws := sf_ws f |}.
Proof. unfold string_arg. change (String.eqb "enumeration" "enumeration") with true. cbv iota. now rewrite str_list_strs. Qed.
Definition enum_facet (enums : list string) : option (list string) := match enums with [] => None | _ => Some enums end.
Definition pattern_facet (rt : runtime) (pat : option string) : option re :=
  match pat with Some s => pattern_of rt s | None => None end.
Lemma string_fold rt (name c : string) (enums : list string) (pat : option string) kw0 kw rest t' :
  Forall plain_text enums -> (forall s, pat = Some s -> literal rt true s = Ok s) ->
  (forall k, In k (map fst rest) -> ~ In k ["enumeration"; "pattern"]) ->
  kw0 = match enums with [] => [] | _ => [("enumeration", XList enums)] end ++ opt_const "pattern" XRaw pat ++ rest ->
  eval_kw rt kw0 = Ok kw -> simple_subclass rt name (SString c no_sfacets) kw = Ok t' ->
  t' = SString name {| sf_enum := enum_facet enums; sf_pattern := pattern_facet rt pat; sf_length := None; sf_minLength := None; sf_maxLength := None; sf_ws := None |}.
Proof.
  intros Pl Pp Rn -> Ek Hs. rewrite !eval_kw_app in Ek. apply bind_ok in Ek as (k1 & E1 & Ek). apply bind_ok in Ek as (k23 & E23 & Ek). injection Ek as <-.
  apply bind_ok in E23 as (k2 & E2 & E3). apply bind_ok in E3 as (k3 & E3 & Y). injection Y as <-.
  assert (R3 : forall k, In k (map fst k3) -> ~ In k ["enumeration"; "pattern"]).
  { intros k Hk. apply Rn. revert Hk. clear - E3. apply mapM_forall2 in E3. induction E3 as [|a b l l' H F IH]; [auto|]. cbn [map].
    apply bind_ok in H as (v & _ & H). injection H as <-. cbn [fst]. intros [E | E]; [now left|right; auto]. }
  unfold simple_subclass in Hs. apply bind_ok in Hs as (f' & Hf & Hs). injection Hs as <-. f_equal.
  rewrite foldM_app in Hf. apply bind_ok in Hf as (f1 & Hf1 & Hf). rewrite foldM_app in Hf. apply bind_ok in Hf as (f2 & Hf2 & Hf).
  assert (F3 : f' = f2).
  { clear - Hf R3. revert f2 Hf. induction k3 as [|[k v] k3 IH]; intros f2 Hf; cbn [foldM] in Hf; [congruence|].
    destruct (str_in (fst (k, v)) ["enumeration"; "pattern"]) eqn:S; [apply str_in_spec in S; exfalso; apply (R3 k); [now left|exact S]|].
    cbn [bind] in Hf. apply IH; [|exact Hf]. intros k' Hk. apply R3. now right. }
  subst f'. assert (F1 : f1 = {| sf_enum := enum_facet enums; sf_pattern := None; sf_length := None; sf_minLength := None; sf_maxLength := None; sf_ws := None |}).
  { destruct enums as [|e es].
    - cbn in E1. injection E1 as <-. cbn in Hf1. injection Hf1 as <-. reflexivity.
    - rewrite (enumeration_kw rt _ Pl) in E1. assert (K1 : k1 = [("enumeration", VList false (map VStr (e :: es)))]) by congruence. rewrite K1 in Hf1. cbn [foldM fst] in Hf1.
      change (str_in "enumeration" ["enumeration"; "pattern"]) with true in Hf1. cbv iota in Hf1. rewrite enumeration_arg in Hf1. cbn in Hf1. injection Hf1 as <-. reflexivity. }
  subst f1. destruct pat as [s|].
  - unfold opt_const, eval_kw in E2. cbn [mapM snd eval_pyx fst] in E2. rewrite (Pp s eq_refl) in E2. cbn in E2. injection E2 as <-. cbn in Hf2. injection Hf2 as <-. reflexivity.
  - cbn in E2. injection E2 as <-. cbn in Hf2. injection Hf2 as <-. reflexivity.
Qed.

Lemma plain_pattern_literal rt s : plain_pattern s -> literal rt true s = Ok s.
Proof.
  intros (Q & N & B). unfold literal.
  destruct (char_in quote s) eqn:E1; [apply char_in_spec in E1; contradiction|].
  rewrite (unbroken s N).
  destruct (Ascii.eqb_spec (last (to_l s) "x"%char) backslash) as [E|E]; [contradiction|]. cbn. now rewrite andb_false_r.
Qed.
Lemma string_restriction rt limit O nss known x code m bl sts st name r q p local c b es enums pat : Forall (fun n => identifier n = true) known ->
  schema_code nss known x = Ok code -> load rt limit O code = Ok m ->
  has x "simpleTypes" (VList bl sts) -> In st sts -> has st "name" (VStr name) -> has st "restriction" r -> is_a r "Restriction" ->
  has r "base" (VStr q) -> qualified_name q p local ->
  In p nss -> lib_class (capital local) = Some (MSimple (SString c no_sfacets)) ->
  has r "enumerations" (VList b es) -> Forall2 (fun e s => has e "value" (VStr s)) es enums -> Forall plain_text enums ->
  states_pattern r pat -> (forall s, pat = Some s -> s <> "" /\ plain_pattern s /\ no_top_alt (rt_re rt s) = true) ->
  exists t, provides m (capital name) (TSimple t) /\
    forall s, st_accept O t (VStr s) = Ok (VStr s) <-> (enums = [] \/ In s enums) /\ (forall p, pat = Some p -> pattern_sat (rt_re rt p) s).
Proof.
  intros Kn C L Hx I Hn Hr Ir Hq Q Ip Hl He Hes Pl Sp Pp.
  destruct (restriction_bound _ _ _ _ _ _ _ _ _ _ _ _ _ _ _ _ _ Kn C L Hx I Hn Hr Ir Hq Q (or_introl (conj Ip Hl))) as (enums' & kw & t' & Ee & Ek & Hs & A).
  exists t'. unfold provides. rewrite A. split; [reflexivity|].
  assert (enums' = enums).
  { unfold enum_texts in Ee. rewrite (has_jget _ _ _ He) in Ee. cbn [jlist bind] in Ee. injection Ee as <-. clear - Hes.
    induction Hes as [|e s es ss H F IH]; [reflexivity|]. cbn [map]. now rewrite (has_jget _ _ _ H), IH. }
  subst enums'.
  assert (Ft : facet_text r "pattern" = pat).
  { unfold facet_text. destruct pat as [s|]; cbn in Sp.
    - destruct Sp as (v & Hv & Iv & Vv). now rewrite (has_jget _ _ _ Hv), (obj_truthy _ _ Iv), (has_jget _ _ _ Vv).
    - now rewrite (lacks_jget _ _ Sp). }
  rewrite Ft in Ek.
  set (rest := match facet_text r "minInclusive" with Some v => [("minInclusive", XRaw v)] | None => opt_const "minExclusive" XRaw (facet_text r "minExclusive") end ++
    match facet_text r "maxInclusive" with Some v => [("maxInclusive", XRaw v)] | None => opt_const "maxExclusive" XRaw (facet_text r "maxExclusive") end) in Ek.
  assert (Et : t' = SString (capital name) {| sf_enum := enum_facet enums; sf_pattern := pattern_facet rt pat; sf_length := None; sf_minLength := None; sf_maxLength := None; sf_ws := None |}).
  { apply (string_fold rt (capital name) c enums pat _ kw rest t' Pl) with (4 := Ek); [| |reflexivity|exact Hs].
    - intros s ->. destruct (Pp s eq_refl) as (_ & Ps & _). now apply plain_pattern_literal.
    - intros k Hk. unfold rest in Hk. destruct (facet_text r "minInclusive"), (facet_text r "minExclusive"), (facet_text r "maxInclusive"), (facet_text r "maxExclusive"); cbn in Hk;
      intros Hk'; cbn in Hk'; repeat destruct Hk as [<- | Hk]; try destruct Hk; intuition discriminate. }
  - subst t'. set (f := {| sf_enum := enum_facet enums; sf_pattern := pattern_facet rt pat; sf_length := None; sf_minLength := None; sf_maxLength := None; sf_ws := None |}).
    assert (Fp : facets_proper f).
    { unfold facets_proper. cbn [f sf_enum sf_length sf_minLength sf_maxLength sf_pattern]. repeat split; try discriminate.
      - now destruct enums.
      - intros r' Hr'. destruct pat as [s|]; [|discriminate]. destruct (Pp s eq_refl) as (Ns & _ & Nt). cbn in Hr'. unfold pattern_of in Hr'.
        destruct (String.eqb s ""); [discriminate|]. injection Hr' as <-. exact Nt. }
    intros s. rewrite (string_accept_iff O (capital name) f s s Fp). cbn [f sf_ws].
    assert (W : ws_normal None s s) by (cbn; reflexivity). unfold facets_sat. cbn [f sf_enum sf_length sf_minLength sf_maxLength sf_pattern].
    split.
    + intros (_ & P & En & _). split; [destruct enums as [|e l]; [now left|right; now apply En]|].
      intros s' ->. apply P. cbn. unfold pattern_of. destruct (Pp s' eq_refl) as (Ns & _). destruct (String.eqb_spec s' ""); [contradiction|reflexivity].
    + intros [En P]. split; [exact W|]. split; [|split; [|repeat split; discriminate]].
      * intros r' Hr'. destruct pat as [s'|]; [|discriminate]. cbn in Hr'. unfold pattern_of in Hr'. destruct (String.eqb s' ""); [discriminate|]. injection Hr' as <-. now apply P.
      * intros l El. destruct enums as [|e l']; [discriminate|]. injection El as <-. destruct En as [En | En]; [discriminate|exact En].
Qed.
