(** Generated classes: class statements and the loaded module. *)
From Coq Require Import String Ascii List ZArith NArith Bool Lia.
From Verif Require Import PyBase PyVal XsdSimple XsdComplex XsdMeta LibClasses Py2Xsd GenNames Xsd2Py PyLoad SpecNames SpecGenCode
  PfBase PfMeta PfMeta2 PfLoad PfLoad2 PfSimple PfGenCode PfGenCode2.
Import ListNotations.
Open Scope nat_scope.
Open Scope string_scope.
Open Scope list_scope.

(** ** Printed fields *)
Definition printed (nss : list (option string)) (k : list string) (p : particle) (g : gfield) : Prop :=
  exists t, get_type nss (Some k) (pt_type p) = Ok t /\
    ((pt_attr p = false /\ g = mkGf (python_name (pt_name p)) (if many (pt_max p) then "ListElement" else "Element") t None (element_kw p)) \/
     (exists a, states_attribute a p /\ g = mkGf (python_name (pt_name p)) "Attribute" t None (attribute_kw p))).
Lemma printed_made nss k p g rt ms f : printed nss k p g -> make_field rt ms g = Ok f ->
  mirrors_but_type p f /\ get_type nss (Some k) (pt_type p) = Ok (gf_type g) /\ gf_call g = None /\ field_type rt ms g = Ok (f_type f).
Proof.
  intros (t & Gt & [[At ->]|(a & Sa & ->)]) H.
  - apply element_made in H as [M F]; auto.
  - eapply attribute_made in H as [M F]; eauto.
Qed.
Lemma printed_attr nss k p g : printed nss k p g -> gf_attr g = python_name (pt_name p).
Proof. intros (t & _ & [[_ ->]|(a & _ & ->)]); reflexivity. Qed.

Lemma attributes_printed nss k attrs aps f1 : Forall2 states_attribute attrs aps -> mapM (attribute_field nss k) attrs = Ok f1 ->
  Forall2 (printed nss k) aps f1.
Proof.
  intros S H. apply mapM_forall2 in H. revert aps S. induction H as [|a g attrs f1 H F IH]; intros aps S; inversion_clear S as [|? p ? aps' Sp Sa]; constructor; auto.
  destruct (attribute_printed _ _ _ _ _ Sp H) as (t & Gt & E). exists t. split; [exact Gt|]. right. exists a. auto.
Qed.
Lemma elements_printed nss k els eps f3 : Forall2 states_element els eps -> mapM (element_fields nss k) els = Ok f3 ->
  Forall2 (printed nss k) eps (concat f3).
Proof.
  intros S H. apply mapM_forall2 in H. revert eps S. induction H as [|e gl els f3 H F IH]; intros eps S; inversion_clear S as [|? p ? eps' Sp Sa]; [constructor|].
  cbn [concat]. destruct (element_printed _ _ _ _ _ Sp H) as (t & Gt & ->). cbn [app]. constructor; auto.
  exists t. split; [exact Gt|]. left. split; [apply Sp|reflexivity].
Qed.

(** ** The class statement of a type *)
Definition indicator_code (i : indicator) : string :=
  match i with ISequence => "xsd.Sequence" | IAll => "xsd.All" | IChoice => "xsd.Choice" end.
Lemma obj_truthy o c : is_a o c -> py_truthy o = true.
Proof. intros (xe & fs & ->). reflexivity. Qed.

(** The part of [class_of_type] after the head. *)
Definition class_body (nss : list (option string)) (known : list string) (name base : string) (consts : list (string * pyx)) (content : pyval) : res gclass :=
  let s := jget content "sequence" in
  let a := jget content "all" in
  let c := jget content "choice" in
  let p := if py_truthy s then (["xsd.Sequence"], s)
           else if py_truthy a then (["xsd.All"], a)
           else if py_truthy c then (["xsd.Choice"], c)
           else ([], VNone) in
  elements <- (match snd p with VNone => Ok [] | o => jlist (jget o "elements") end) ;;
  attrs <- jlist (jget content "attributes") ;;
  groups <- jlist (jget content "attributeGroups") ;;
  f1 <- mapM (attribute_field nss known) attrs ;;
  f2 <- mapM (attrgroup_field nss known) groups ;;
  f3 <- mapM (element_fields nss known) elements ;;
  Ok (mkGc name base (consts ++ map (fun i => ("INDICATOR", XCode i)) (fst p)) (f1 ++ f2 ++ concat f3)
        (if py_truthy s then Some (create_params elements) else None)).
Lemma class_of_type_body nss k n ct : class_of_type nss k n ct =
  (h <- class_head nss k n ct ;; let '(name, base, consts, content) := h in class_body nss k name base consts content).
Proof. reflexivity. Qed.

Lemma body_printed nss k name base consts content i els attrs eps aps g :
  states_content content i els attrs -> Forall2 states_element els eps -> Forall2 states_attribute attrs aps ->
  class_body nss k name base consts content = Ok g ->
  gc_name g = name /\ gc_base g = base /\ Forall2 (printed nss k) (aps ++ eps) (gc_fields g) /\
  gc_consts g = consts ++ match i with Some i => [("INDICATOR", XCode (indicator_code i))] | None => [] end /\
  gc_create g = match i with Some ISequence => Some (create_params els) | _ => None end.
Proof.
  intros (C & (b1 & Ha) & (b2 & Hg)) Se Sa H. unfold class_body in H. rewrite (has_jget _ _ _ Ha), (has_jget _ _ _ Hg) in H. cbn [jlist bind mapM] in H.
  assert (X : exists p, (if py_truthy (jget content "sequence") then (["xsd.Sequence"], jget content "sequence")
           else if py_truthy (jget content "all") then (["xsd.All"], jget content "all")
           else if py_truthy (jget content "choice") then (["xsd.Choice"], jget content "choice")
           else ([], VNone)) = p /\ match snd p with VNone => Ok [] | o => jlist (jget o "elements") end = Ok els /\
           fst p = match i with Some i => [indicator_code i] | None => [] end /\
           py_truthy (jget content "sequence") = match i with Some ISequence => true | _ => false end).
  { eexists. split; [reflexivity|]. destruct i as [i|].
    - destruct C as ((s & b & Hs & Is & Hel) & L).
      assert (Je : jlist (jget s "elements") = Ok els) by now rewrite (has_jget _ _ _ Hel).
      destruct i; cbn [group_of] in Hs.
      + rewrite (has_jget _ _ _ Hs), (obj_truthy _ _ Is). cbn [snd fst py_truthy]. split; [destruct Is as (xe & fs & ->); exact Je|split; reflexivity].
      + pose proof (lacks_jget _ _ (L ISequence ltac:(discriminate))) as L1. pose proof (lacks_jget _ _ (L IAll ltac:(discriminate))) as L2.
        cbn [group_of] in L1, L2. rewrite L1, L2, (has_jget _ _ _ Hs), (obj_truthy _ _ Is). cbn [snd fst py_truthy]. split; [destruct Is as (xe & fs & ->); exact Je|split; reflexivity].
      + pose proof (lacks_jget _ _ (L ISequence ltac:(discriminate))) as L1. pose proof (lacks_jget _ _ (L IChoice ltac:(discriminate))) as L2.
        cbn [group_of] in L1, L2. rewrite L1, (has_jget _ _ _ Hs), (obj_truthy _ _ Is). cbn [snd fst py_truthy]. split; [destruct Is as (xe & fs & ->); exact Je|split; reflexivity].
    - destruct C as (-> & L). pose proof (lacks_jget _ _ (L ISequence)) as L1. pose proof (lacks_jget _ _ (L IChoice)) as L2. pose proof (lacks_jget _ _ (L IAll)) as L3.
      cbn [group_of] in L1, L2, L3. rewrite L1, L2, L3. cbn. auto. }
  destruct X as (p & Ep & X1 & X2 & X3). cbn zeta in H. rewrite Ep in H.
  match type of H with bind ?t _ = _ => assert (X1' : t = Ok els) by exact X1; rewrite X1' in H end. rewrite X2, X3 in H. cbn [bind] in H.
  apply bind_ok in H as (f1 & F1 & H). apply bind_ok in H as (f3 & F3 & H). injection H as <-. cbn [gc_name gc_base gc_consts gc_fields gc_create app].
  split; [reflexivity|]. split; [reflexivity|]. split; [|split].
  - apply Forall2_app; [now apply (attributes_printed nss k attrs)|now apply (elements_printed nss k els)].
  - f_equal. destruct i; reflexivity.
  - destruct i as [[]|]; reflexivity.
Qed.

(** ** Where the statement is in the code *)
Lemma known_loop_spec emit l : forall known r, known_loop emit known l = Ok r ->
  (forall x, In x l -> exists k c, emit k x = Ok c /\ incl c (fst r) /\
     (forall n, In n k -> In n known \/ exists y, In y l /\ cap (jget y "name") = Ok n)) /\
  (forall n, In n (snd r) -> In n known \/ exists y, In y l /\ cap (jget y "name") = Ok n).
Proof.
  induction l as [|x t IH]; intros known r H; cbn in H.
  - injection H as <-. split; [intros x []|]. cbn. auto.
  - apply bind_ok in H as (c & Hc & H). apply bind_ok in H as (n & Hn & H). apply bind_ok in H as (r' & Hr & H). injection H as <-. cbn [fst snd].
    destruct (IH _ _ Hr) as [A B]. 
    assert (K : forall m, In m (known ++ [n]) \/ (exists y, In y t /\ cap (jget y "name") = Ok m) ->
      In m known \/ exists y, In y (x :: t) /\ cap (jget y "name") = Ok m).
    { intros m [I | (y & I & E)]; [|right; exists y; split; [now right|exact E]].
      apply in_app_or in I as [I | [<- | []]]; [now left|]. right. exists x. split; [now left|exact Hn]. }
    split.
    + intros y [<- | I].
      * exists known, c. split; [exact Hc|]. split; [now apply incl_appl, incl_refl|auto].
      * destruct (A y I) as (k & c' & E & Inc & Kn). exists k, c'. split; [exact E|]. split; [now apply incl_appr|]. intros m Hm. apply K. now apply Kn.
    + intros m Hm. apply K. now apply B.
Qed.

Lemma mapM_in {A B} (f : A -> res B) l l' x : mapM f l = Ok l' -> In x l -> exists y, f x = Ok y /\ In y l'.
Proof.
  intros H. apply mapM_forall2 in H. induction H as [|a b l l' E F IH]; [intros []|]. intros [<- | I]; [exists b; split; [exact E|now left]|].
  destruct (IH I) as (y & Ey & Iy). exists y. split; [exact Ey|now right].
Qed.

(** Everything about the position of a type in a schema. *)
Lemma schema_complex nss known x code b cts ct : schema_code nss known x = Ok code -> has x "complexTypes" (VList b cts) -> In ct cts ->
  exists k g n, class_of_type nss k (jget ct "name") ct = Ok g /\ In g (fst code) /\ cap (jget ct "name") = Ok n /\ In n (gz_complex (snd code)) /\
    forall m, In m k -> In m known \/ In m (gz_simple (snd code)) \/ In m (gz_complex (snd code)).
Proof.
  intros H Hc I. unfold schema_code in H. apply bind_ok in H as ([cl k2] & Hp & H). apply bind_ok in H as (st & Hs & H). injection H as <-. cbn [fst snd].
  unfold schema_classes in Hp. unfold schema_statement in Hs. rewrite (has_jget _ _ _ Hc) in Hp, Hs. cbn [jlist snd] in Hp, Hs.
  apply bind_ok in Hp as (sts & S1 & Hp). apply bind_ok in Hp as (ags & S2 & Hp). apply bind_ok in Hp as (gs & S3 & Hp). cbn [bind] in Hp.
  apply bind_ok in Hp as (els & S4 & Hp). apply bind_ok in Hp as (p1 & P1 & Hp). apply bind_ok in Hp as (c2 & C2 & Hp). apply bind_ok in Hp as (c3 & C3 & Hp).
  apply bind_ok in Hp as (p4 & P4 & Hp). apply bind_ok in Hp as (c5 & C5 & Hp). injection Hp as <- <-.
  rewrite S1, S2, S3, S4 in Hs. apply bind_ok in Hs as (tns & _ & Hs). cbn [bind] in Hs.
  apply bind_ok in Hs as (n1 & N1 & Hs). apply bind_ok in Hs as (n2 & N2 & Hs). apply bind_ok in Hs as (n3 & N3 & Hs). apply bind_ok in Hs as (n4 & N4 & Hs).
  apply bind_ok in Hs as (tops & T & Hs). injection Hs as <-. cbn [gz_complex gz_simple].
  destruct (known_loop_spec _ _ _ _ P1) as [_ B1]. destruct (known_loop_spec _ _ _ _ P4) as [A4 _].
  destruct (A4 ct I) as (k & c & E & Inc & Kn). apply bind_ok in E as (g & Eg & E). injection E as <-.
  destruct (mapM_in _ _ _ _ N4 I) as (n & En & Hn).
  exists k, g, n. split; [exact Eg|]. split; [|split; [exact En|split; [exact Hn|]]].
  - apply in_or_app. right. apply in_or_app. right. apply in_or_app. right. apply in_or_app. left. apply Inc. now left.
  - intros m Hm. apply Kn in Hm as [Hm | (y & Iy & Ey)].
    + apply B1 in Hm as [Hm | (y & Iy & Ey)]; [now left|]. right. left. destruct (mapM_in _ _ _ _ N1 Iy) as (z & Ez & Hz). congruence.
    + right. right. destruct (mapM_in _ _ _ _ N4 Iy) as (z & Ez & Hz). congruence.
Qed.

(** ** The loaded module *)
Lemma load_from_spec ms0 rt limit O code m : good ms0 -> load_from rt limit O ms0 code = Ok m ->
  exists ms, foldM (exec_class rt) ms0 (fst code) = Ok ms /\ good ms /\ good (md_state m) /\ ext ms (md_state m) /\
    ms_world (md_state m) = ms_world ms /\ ms_names (md_state m) = ms_names ms /\ ms_class (md_state m) = ms_class ms /\
    (forall n, In n (gz_simple (snd code)) -> identifier n = true) /\
    (forall n, In n (gz_complex (snd code)) -> identifier n = true /\ exists c, assoc n (ms_names ms) = Some (MComplex c) /\
       forall f, In f (class_fields (ms_world ms) c) -> exists t, resolve (md_state m) (f_type f) = Ok t).
Proof.
  unfold load_from. intros G0 H. apply bind_ok in H as (ms & Hms & H). exists ms. split; [exact Hms|].
  destruct (exec_classes_step _ _ _ _ G0 Hms) as [G _]. split; [exact G|].
  unfold exec_schema in H. apply bind_ok in H as (u1 & B1 & H). apply bind_ok in H as (ags & B2 & H). apply bind_ok in H as (gs & B3 & H).
  apply bind_ok in H as (cts & B4 & H). apply bind_ok in H as (tns & B5 & H). apply bind_ok in H as (efd & B6 & H). apply bind_ok in H as (tops & B7 & H).
  cbn zeta in H. apply bind_ok in H as (u2 & B8 & H). apply bind_ok in H as (els & B9 & H). injection H as <-. cbn [md_state].
  split; [|split].
  - destruct G as [G1 G2 G3 G4 G5 G6 G7]. split; cbn; auto.
  - split; cbn; exists []; now rewrite app_nil_r.
  - split; [reflexivity|]. split; [reflexivity|]. split; [reflexivity|]. split.
    + intros n Hn. destruct (mapM_in _ _ _ _ B1 Hn) as (y & Hy & _). unfold bound in Hy. now destruct (identifier n).
    + intros n Hn. destruct (mapM_in _ _ _ _ B4 Hn) as (c & Hc & Ic). unfold bound_class, bound in Hc.
      destruct (identifier n) eqn:Id; [|discriminate]. split; [reflexivity|].
      destruct (assoc n (ms_names ms)) as [[c'|]|]; cbn in Hc; try discriminate. injection Hc as ->. exists c. split; [reflexivity|].
      intros f Hf.
      destruct (mapM_in _ _ _ _ B8 (in_or_app cts (ags ++ gs) c (or_introl Ic))) as (ys & Hys & _). cbn [ms_world] in Hys.
      destruct (mapM_in _ _ _ _ Hys Hf) as (t & Ht & _). unfold force in Ht. apply bind_ok in Ht as (t' & Ht' & _). now exists t'.
Qed.
Lemma load_spec rt limit O code m : load rt limit O code = Ok m ->
  exists ms, foldM (exec_class rt) start (fst code) = Ok ms /\ good ms /\ good (md_state m) /\ ext ms (md_state m) /\
    ms_world (md_state m) = ms_world ms /\ ms_names (md_state m) = ms_names ms /\ ms_class (md_state m) = ms_class ms /\
    (forall n, In n (gz_simple (snd code)) -> identifier n = true) /\
    (forall n, In n (gz_complex (snd code)) -> identifier n = true /\ exists c, assoc n (ms_names ms) = Some (MComplex c) /\
       forall f, In f (class_fields (ms_world ms) c) -> exists t, resolve (md_state m) (f_type f) = Ok t).
Proof. exact (load_from_spec start rt limit O code m start_good). Qed.
