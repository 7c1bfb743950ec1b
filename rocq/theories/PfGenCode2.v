(** Generated classes: fields. *)
From Coq Require Import String Ascii List ZArith NArith QArith Bool Lia.
From Verif Require Import PyBase PyVal XsdSimple XsdComplex XsdMeta LibClasses Py2Xsd GenNames Xsd2Py PyLoad SpecNames SpecGenCode
  PfBase PfMeta PfLoad PfLoad2 PfSimple PfGenCode.
Import ListNotations.
Open Scope nat_scope.
Open Scope string_scope.
Open Scope list_scope.

Lemma many_int z : is_many (VInt z) = Ok (1 <? z)%Z.
Proof.
  unfold is_many. assert (T : py_truthy (VInt z) = negb (z =? 0)%Z).
  { unfold py_truthy, num_of, num_eqb, Qeq_bool, inject_Z. cbn [Qnum Qden]. f_equal.
    match goal with |- Zeq_bool ?a ?b = _ => destruct (Zeq_bool a b) eqn:E end;
      [apply Zeq_bool_eq in E; symmetry; apply Z.eqb_eq|apply Zeq_bool_neq in E; symmetry; apply Z.eqb_neq]; lia. }
  rewrite T. clear T. destruct (Z.eqb_spec z 0) as [E0|]; [rewrite E0; reflexivity|]. cbn [negb].
  unfold py_ltb, num_of, num_ltb, num_leb, num_eqb, Qle_bool, Qeq_bool, inject_Z. cbn [Qnum Qden]. rewrite !Z.mul_1_r. f_equal.
  destruct (Z.ltb_spec 1 z); destruct (Z.leb_spec 1 z); destruct (Zeq_bool 1 z) eqn:E; try reflexivity; try lia;
    try (apply Zeq_bool_eq in E; lia); apply Zeq_bool_neq in E; lia.
Qed.
Lemma many_ok e m : states_max e m -> is_many (jget e "maxOccurs") = Ok (many m).
Proof.
  unfold states_max. destruct m as [|z|]; intros H.
  - now rewrite (lacks_jget _ _ H).
  - rewrite (has_jget _ _ _ H). apply many_int.
  - rewrite (has_jget _ _ _ H). reflexivity.
Qed.

Lemma type_expr_element nss k e cls q : (cls = "Element" \/ cls = "Attribute") -> is_a e cls -> lacks e "ref" -> has e "type" (VStr q) -> q <> "" ->
  type_expr nss k e = get_type nss (Some k) q.
Proof.
  intros C (xe & fs & ->) R T N. unfold type_expr. rewrite (lacks_jget _ _ R), (has_jget _ _ _ T).
  assert (Tr : py_truthy (VStr q) = true) by (cbn; destruct (String.eqb_spec q ""); [contradiction|reflexivity]).
  rewrite Tr. destruct C as [-> | ->]; reflexivity.
Qed.

(** What is printed for an element. *)
Definition element_kw (p : particle) : list (string * pyx) :=
  (if is_keyword (pt_name p) || many (pt_max p) then [("tagname", XStr (pt_name p))] else []) ++
  match pt_min p with Some z => [("minOccurs", XCode (dec_Z z))] | None => [] end ++
  (if many (pt_max p) then [("maxOccurs", XCode (match pt_max p with OInt z => dec_Z z | _ => "xsd.UNBOUNDED" end))] else []) ++
  (if pt_nil p then [("nillable", XCode "True")] else []).
Lemma element_printed nss k e p gl : states_element e p -> element_fields nss k e = Ok gl ->
  exists t, get_type nss (Some k) (pt_type p) = Ok t /\
    gl = [mkGf (python_name (pt_name p)) (if many (pt_max p) then "ListElement" else "Element") t None (element_kw p)].
Proof.
  intros (A & _ & Nm & T & Tn & R & S & Mi & Mx & Ni) H. unfold element_fields in H. rewrite (many_ok _ _ Mx) in H. cbn [bind] in H.
  rewrite (has_jget _ _ _ Nm), (has_jget _ _ _ T), (lacks_jget _ _ R), (lacks_jget _ _ S) in H.
  rewrite (type_expr_element nss k e "Element" (pt_type p)) in H by auto.
  assert (Tr : py_truthy (VStr (pt_type p)) = true) by (cbn; destruct (String.eqb_spec (pt_type p) ""); [contradiction|reflexivity]).
  rewrite Tr in H. apply bind_ok in H as (l & Hl & H). cbn [bind py_truthy] in H. apply bind_ok in Hl as (t & Ht & Hl).
  exists t. split; [exact Ht|]. injection H as <-. injection Hl as <-. rewrite app_nil_r. f_equal. f_equal.
  unfold element_kw. cbn [jtext]. f_equal. f_equal; [|f_equal].
  - destruct (pt_min p) as [z|]; cbn in Mi; [now rewrite (has_jget _ _ _ Mi)|now rewrite (lacks_jget _ _ Mi)].
  - destruct (pt_max p) as [|z|]; cbn in Mx; [reflexivity|now rewrite (has_jget _ _ _ Mx)|now rewrite (has_jget _ _ _ Mx)].
  - destruct (pt_nil p); cbn in Ni; [now rewrite (has_jget _ _ _ Ni)|].
    destruct Ni as [Ni | Ni]; [now rewrite (lacks_jget _ _ Ni)|now rewrite (has_jget _ _ _ Ni)].
Qed.
Definition attribute_kw (p : particle) : list (string * pyx) :=
  (if is_keyword (pt_name p) then [("tagname", XStr (pt_name p))] else []) ++
  [("use", XCode (match pt_min p with Some 1%Z => "xsd.Use.REQUIRED" | _ => "xsd.Use.OPTIONAL" end))].
Lemma attribute_printed nss k a p g : states_attribute a p -> attribute_field nss k a = Ok g ->
  exists t, get_type nss (Some k) (pt_type p) = Ok t /\ g = mkGf (python_name (pt_name p)) "Attribute" t None (attribute_kw p).
Proof.
  intros (A & _ & Nm & T & Tn & R & _ & _ & U) H. unfold attribute_field, item_name in H. rewrite (lacks_jget _ _ R), (has_jget _ _ _ Nm) in H.
  rewrite (type_expr_element nss k a "Attribute" (pt_type p)) in H by auto. cbn [py_truthy jtext] in H.
  apply bind_ok in H as (t & Ht & H). apply bind_ok in H as (u & Hu & H). exists t. split; [exact Ht|]. injection H as <-.
  f_equal. unfold attribute_kw. f_equal. f_equal. f_equal. f_equal. destruct U as [[-> U]|[-> U]].
  - rewrite (has_jget _ _ _ U) in Hu. now injection Hu as <-.
  - destruct U as [U | [U | U]]; [rewrite (lacks_jget _ _ U) in Hu|rewrite (has_jget _ _ _ U) in Hu|rewrite (has_jget _ _ _ U) in Hu]; now injection Hu as <-.
Qed.

(** ** Evaluating the arguments *)
Lemma eval_int rt z : eval_code rt (dec_Z z) = Ok (VInt z).
Proof.
  unfold eval_code. pose proof (int_of_dec_Z z) as I.
  destruct (String.eqb_spec (dec_Z z) "True") as [E|_]; [rewrite E in I; discriminate|].
  destruct (String.eqb_spec (dec_Z z) "xsd.UNBOUNDED") as [E|_]; [rewrite E in I; discriminate|].
  destruct (String.eqb_spec (dec_Z z) "xsd.Use.OPTIONAL") as [E|_]; [rewrite E in I; discriminate|].
  destruct (String.eqb_spec (dec_Z z) "xsd.Use.REQUIRED") as [E|_]; [rewrite E in I; discriminate|].
  destruct (String.eqb_spec (dec_Z z) "xsd.Use.PROHIBITED") as [E|_]; [rewrite E in I; discriminate|].
  now rewrite I, String.eqb_refl.
Qed.
Lemma mapM_app {A B} (f : A -> res B) l1 l2 : mapM f (l1 ++ l2) = (a <- mapM f l1 ;; b <- mapM f l2 ;; Ok (a ++ b)).
Proof.
  induction l1 as [|x l1 IH]; cbn [app mapM bind].
  - now destruct (mapM f l2).
  - destruct (f x); cbn [bind]; [|reflexivity]. rewrite IH. destruct (mapM f l1); cbn [bind]; [|reflexivity]. now destruct (mapM f l2).
Qed.
Lemma eval_kw_app rt a b : eval_kw rt (a ++ b) = (x <- eval_kw rt a ;; y <- eval_kw rt b ;; Ok (x ++ y)).
Proof. apply mapM_app. Qed.

Definition element_args (p : particle) : list (string * pyval) :=
  (if is_keyword (pt_name p) || many (pt_max p) then [("tagname", VStr (pt_name p))] else []) ++
  match pt_min p with Some z => [("minOccurs", VInt z)] | None => [] end ++
  (if many (pt_max p) then [("maxOccurs", match pt_max p with OInt z => VInt z | _ => UNBOUNDED end)] else []) ++
  (if pt_nil p then [("nillable", VBool true)] else []).
Lemma element_eval rt p : identifier (python_name (pt_name p)) = true -> eval_kw rt (element_kw p) = Ok (element_args p).
Proof.
  intros Id. unfold element_kw, element_args. rewrite !eval_kw_app.
  assert (E1 : eval_kw rt (if is_keyword (pt_name p) || many (pt_max p) then [("tagname", XStr (pt_name p))] else []) =
    Ok (if is_keyword (pt_name p) || many (pt_max p) then [("tagname", VStr (pt_name p))] else [])).
  { destruct (_ || _)%bool; [|reflexivity]. unfold eval_kw. cbn [mapM fst snd eval_pyx]. rewrite (ident_literal rt false _ Id). reflexivity. }
  assert (E2 : eval_kw rt (match pt_min p with Some z => [("minOccurs", XCode (dec_Z z))] | None => [] end) =
    Ok (match pt_min p with Some z => [("minOccurs", VInt z)] | None => [] end)).
  { destruct (pt_min p) as [z|]; [|reflexivity]. unfold eval_kw. cbn [mapM fst snd eval_pyx]. now rewrite eval_int. }
  assert (E3 : eval_kw rt (if many (pt_max p) then [("maxOccurs", XCode (match pt_max p with OInt z => dec_Z z | _ => "xsd.UNBOUNDED" end))] else []) =
    Ok (if many (pt_max p) then [("maxOccurs", match pt_max p with OInt z => VInt z | _ => UNBOUNDED end)] else [])).
  { destruct (many (pt_max p)); [|reflexivity]. unfold eval_kw. cbn [mapM fst snd eval_pyx].
    destruct (pt_max p) as [|z|]; [reflexivity|now rewrite eval_int|reflexivity]. }
  assert (E4 : eval_kw rt (if pt_nil p then [("nillable", XCode "True")] else []) = Ok (if pt_nil p then [("nillable", VBool true)] else [])).
  { destruct (pt_nil p); reflexivity. }
  rewrite E1, E2, E3, E4. reflexivity.
Qed.

Definition mirrors_but_type (p : particle) (f : field) : Prop :=
  tag_or_name f = pt_name p /\ (forall t, f_tag f = Some t -> t = pt_name p) /\ f_name f = python_name (pt_name p) /\
  f_nillable f = pt_nil p /\ f_default f = VNone /\ f_ns f = None /\
  if pt_attr p then f_kind f = KAttribute /\ f_min f = pt_min p
  else if many (pt_max p) then f_kind f = KList /\ f_tag f = Some (pt_name p) /\ f_min f = pt_min p /\ f_max f = pt_max p
  else f_kind f = KElement /\ f_min f = Some (match pt_min p with Some z => z | None => 1%Z end).

Lemma keyword_nonempty n : is_keyword n = true -> String.eqb n "" = false.
Proof. destruct n; [discriminate|reflexivity]. Qed.
Lemma ident_nonempty n : identifier (python_name n) = true -> String.eqb n "" = false.
Proof. destruct n; [discriminate|reflexivity]. Qed.

Lemma element_made rt ms p t f : pt_attr p = false ->
  make_field rt ms (mkGf (python_name (pt_name p)) (if many (pt_max p) then "ListElement" else "Element") t None (element_kw p)) = Ok f ->
  mirrors_but_type p f /\
  field_type rt ms (mkGf (python_name (pt_name p)) (if many (pt_max p) then "ListElement" else "Element") t None (element_kw p)) = Ok (f_type f).
Proof.
  intros At H. unfold make_field in H. cbn [gf_attr gf_cls gf_kw] in H. destruct (identifier (python_name (pt_name p))) eqn:Id; cbn [negb] in H; [|discriminate].
  apply bind_ok in H as (ty & Ft & H). rewrite (element_eval rt p Id) in H. cbn [bind] in H.
  pose proof (ident_nonempty _ Id) as Ne.
  unfold mirrors_but_type. rewrite At.
  destruct (many (pt_max p)) eqn:M; cbn [String.eqb Ascii.eqb Bool.eqb orb] in H |- *.
  - injection H as <-. cbn [f_type f_name f_nillable f_default f_ns f_kind f_min f_max]. split; [|exact Ft].
    assert (T : opt_tag (element_args p) = Some (pt_name p)) by (unfold element_args; rewrite M, orb_true_r; reflexivity).
    unfold tag_or_name. cbn [f_tag]. rewrite T, Ne.
    unfold element_args. rewrite M, orb_true_r. destruct p as [a n q mn mx nl]. cbn in M, Id |- *.
    destruct mn as [z|], mx as [|zx|], nl; try discriminate M; (repeat split; try reflexivity; intros t' [= <-]; reflexivity).
  - cbn zeta in H.
    assert (E : opt_min (element_args p) = pt_min p /\ opt_nil (element_args p) = pt_nil p /\
      opt_tag (element_args p) = if is_keyword (pt_name p) then Some (pt_name p) else None).
    { unfold element_args. rewrite M, orb_false_r. destruct p as [a n q mn mx nl]. cbn [pt_name pt_min pt_nil pt_max] in *.
      destruct (is_keyword n), mn as [z|], nl; repeat split; reflexivity. }
    destruct E as (E1 & E2 & E3). rewrite E1, E2, E3 in H.
    destruct (_ || _)%bool; [|discriminate]. injection H as <-. cbn [f_type f_name f_nillable f_default f_ns f_kind f_min f_max].
    split; [|exact Ft]. unfold tag_or_name. cbn [f_tag f_name]. repeat split; [|intros t' Et; destruct (is_keyword (pt_name p)); congruence].
    unfold python_name. fold (is_keyword (pt_name p)). destruct (is_keyword (pt_name p)) eqn:K.
    + now rewrite (keyword_nonempty _ K).
    + unfold is_keyword, py_keywords in K. now rewrite K.
Qed.
Lemma attribute_made rt ms a p t f : states_attribute a p ->
  make_field rt ms (mkGf (python_name (pt_name p)) "Attribute" t None (attribute_kw p)) = Ok f ->
  mirrors_but_type p f /\ field_type rt ms (mkGf (python_name (pt_name p)) "Attribute" t None (attribute_kw p)) = Ok (f_type f).
Proof.
  intros (_ & At & _ & _ & _ & _ & _ & Ni & U) H. unfold make_field in H. cbn [gf_attr gf_cls gf_kw] in H.
  destruct (identifier (python_name (pt_name p))) eqn:Id; cbn [negb] in H; [|discriminate].
  apply bind_ok in H as (ty & Ft & H). cbn [String.eqb Ascii.eqb Bool.eqb orb] in H.
  assert (Ev : eval_kw rt (attribute_kw p) =
    Ok ((if is_keyword (pt_name p) then [("tagname", VStr (pt_name p))] else []) ++
        [("use", VStr (match pt_min p with Some 1%Z => "required" | _ => "optional" end))])).
  { unfold attribute_kw. rewrite eval_kw_app.
    assert (E1 : eval_kw rt (if is_keyword (pt_name p) then [("tagname", XStr (pt_name p))] else []) =
      Ok (if is_keyword (pt_name p) then [("tagname", VStr (pt_name p))] else [])).
    { destruct (is_keyword _); [|reflexivity]. unfold eval_kw. cbn [mapM fst snd eval_pyx]. rewrite (ident_literal rt false _ Id). reflexivity. }
    rewrite E1. cbn [bind]. destruct U as [[-> _]|[-> _]]; reflexivity. }
  rewrite Ev in H. cbn [bind] in H. injection H as <-. cbn [f_type]. split; [|exact Ft].
  unfold mirrors_but_type. rewrite At, Ni. cbn [f_type f_name f_nillable f_default f_ns f_kind f_min f_max].
  split; [|split; [|repeat split]].
  - unfold tag_or_name, opt_tag, opt_arg. cbn [f_tag f_name]. unfold python_name. fold py_keywords. fold (is_keyword (pt_name p)).
    destruct (is_keyword (pt_name p)) eqn:K; cbn [app assoc String.eqb Ascii.eqb Bool.eqb]; [now rewrite (keyword_nonempty _ K)|reflexivity].
  - intros t'. unfold opt_tag, opt_arg. destruct (is_keyword (pt_name p)); cbn; congruence.
  - f_equal. destruct U as [[-> _]|[-> _]]; destruct (is_keyword (pt_name p)); reflexivity.
Qed.
