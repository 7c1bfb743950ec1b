(** Modules that can be imported: statements that can be printed and executed. *)
From Coq Require Import String Ascii List ZArith NArith Bool Lia.
From Verif Require Import PyBase PyVal XsdSimple XsdComplex XsdMeta LibClasses Py2Xsd GenNames Xsd2Py PyLoad SpecNames SpecGenCode
  SpecUrl SpecService SpecLoadable PfBase PfMeta PfMeta2 PfLoad PfLoad2 PfSimple PfGenCode PfGenCode2 PfGenCode3 PfGenCode4 PfGenCode5 PfGenCode7.
From Verif Require PfNames PfService2.
Import ListNotations.
Open Scope nat_scope.
Open Scope string_scope.
Open Scope list_scope.

Lemma bind_total {A B} (r : res A) (f : A -> res B) : (exists a, r = Ok a /\ exists b, f a = Ok b) -> exists b, bind r f = Ok b.
Proof. intros (a & -> & H). exact H. Qed.
Lemma mapM_total {A B} (f : A -> res B) l : (forall x, In x l -> exists y, f x = Ok y) -> exists l', mapM f l = Ok l'.
Proof.
  induction l as [|x t IH]; intros H; cbn [mapM]; [eauto|]. destruct (H x (or_introl eq_refl)) as (y & ->). cbn [bind].
  destruct IH as (l' & ->); [intros z Hz; apply H; now right|]. cbn. eauto.
Qed.
Lemma capitalize_ok n : n <> "" -> capitalize n = Ok (capital n).
Proof. destruct n; [congruence|reflexivity]. Qed.
Lemma capital_nil n : capital n <> "" -> n <> "".
Proof. intros H ->. now apply H. Qed.
Lemma capital_fill n : n <> "" -> capital n <> "".
Proof. destruct n; [congruence|discriminate]. Qed.

(** ** Types *)
Lemma get_type_eq nss k q p local : qualified_name q p local -> local <> "" ->
  get_type nss (Some k) q =
    Ok (if prefix_in p nss then ("xsd." ++ capital local)%string
        else if str_in (capital local) k then capital local else ("__name__ + '." ++ capital local ++ "'")%string).
Proof.
  intros (Cl & Q) L. unfold get_type. destruct p as [p|].
  - destruct Q as (Cp & ->).
    assert (E : String.eqb (p ++ ":" ++ local) "" = false) by (apply String.eqb_neq; destruct p; discriminate). rewrite E.
    assert (S : str_split ":" (p ++ ":" ++ local) = [p; local]).
    { unfold str_split. rewrite !to_l_app. change (to_l ":") with [":"%char]. cbn [app]. rewrite PfNames.split_two by assumption. cbn [map]. now rewrite !of_to. }
    rewrite S. cbn [bind]. rewrite (capitalize_ok _ L). cbn [bind]. destruct (prefix_in (Some p) nss); [reflexivity|]. now destruct (str_in (capital local) k).
  - subst q. destruct (String.eqb_spec local "") as [E|_]; [contradiction|].
    assert (S : str_split ":" local = [local]).
    { unfold str_split. rewrite PfNames.split_one by exact Cl. cbn [map]. now rewrite of_to. }
    rewrite S. cbn [bind]. rewrite (capitalize_ok _ L). cbn [bind]. destruct (prefix_in None nss); [reflexivity|]. now destruct (str_in (capital local) k).
Qed.
Lemma own_expr nss k q n : own_type nss q n -> get_type nss (Some k) q = Ok (if str_in n k then n else ("__name__ + '." ++ n ++ "'")%string).
Proof.
  intros (p & local & Q & Np & L & ->). rewrite (get_type_eq nss k q p local Q L).
  destruct (prefix_in p nss) eqn:E; [apply prefix_in_in in E; contradiction|]. reflexivity.
Qed.
Lemma library_expr nss k q : library_type nss q ->
  exists n t, get_type nss (Some k) q = Ok ("xsd." ++ n)%string /\ lib_class n = Some (MSimple t) /\ t <> SAbstract.
Proof.
  intros (p & local & t & Q & Ip & Lc & Na). exists (capital local), t.
  assert (L : local <> "") by (intros ->; discriminate Lc).
  rewrite (get_type_eq nss k q p local Q L). apply prefix_in_in in Ip. rewrite Ip. auto.
Qed.

(** ** Printing *)
Lemma element_prints nss k e p t : states_element e p -> get_type nss (Some k) (pt_type p) = Ok t -> exists g, element_fields nss k e = Ok g.
Proof.
  intros (A & _ & Nm & T & Tn & R & S & Mi & Mx & Ni) H. unfold element_fields. rewrite (many_ok _ _ Mx). cbn [bind].
  rewrite (has_jget _ _ _ Nm), (has_jget _ _ _ T), (lacks_jget _ _ R), (lacks_jget _ _ S).
  rewrite (type_expr_element nss k e "Element" (pt_type p)) by auto. rewrite H. cbn [bind py_truthy].
  destruct (negb (String.eqb (pt_type p) "")); cbn; eauto.
Qed.
Lemma attribute_prints nss k a p t : states_attribute a p -> get_type nss (Some k) (pt_type p) = Ok t -> exists g, attribute_field nss k a = Ok g.
Proof.
  intros (A & _ & Nm & T & Tn & R & _ & _ & U) H. unfold attribute_field. rewrite (type_expr_element nss k a "Attribute" (pt_type p)) by auto.
  rewrite H. cbn [bind]. destruct U as [[_ U]|[_ U]].
  - rewrite (has_jget _ _ _ U). cbn. eauto.
  - destruct U as [U | [U | U]]; [rewrite (lacks_jget _ _ U)|rewrite (has_jget _ _ _ U)|rewrite (has_jget _ _ _ U)]; cbn; eauto.
Qed.

Definition gettable (nss : list (option string)) (q : string) : Prop := forall k, exists t, get_type nss (Some k) q = Ok t.
Lemma body_prints nss k name base consts content o : states_plan content o ->
  (forall p, In p (co_attrs o ++ co_elems o) -> gettable nss (pt_type p)) ->
  exists g, class_body nss k name base consts content = Ok g.
Proof.
  intros (els & attrs & (C & (b1 & Ha) & (b2 & Hg)) & Se & Sa) G. unfold class_body. cbn zeta.
  match goal with |- exists _, bind ?t _ = _ => assert (X : t = Ok els) end.
  { destruct (co_ind o) as [i|].
    - destruct C as ((s & b & Hs & Is & Hel) & L).
      assert (Je : jlist (jget s "elements") = Ok els) by now rewrite (has_jget _ _ _ Hel).
      destruct i; cbn [group_of] in Hs.
      + rewrite (has_jget _ _ _ Hs), (obj_truthy _ _ Is). cbn [snd fst]. destruct Is as (xe & fs & ->); exact Je.
      + pose proof (lacks_jget _ _ (L ISequence ltac:(discriminate))) as L1. pose proof (lacks_jget _ _ (L IAll ltac:(discriminate))) as L2.
        cbn [group_of] in L1, L2. rewrite L1, L2, (has_jget _ _ _ Hs), (obj_truthy _ _ Is). cbn [snd fst py_truthy]. destruct Is as (xe & fs & ->); exact Je.
      + pose proof (lacks_jget _ _ (L ISequence ltac:(discriminate))) as L1. pose proof (lacks_jget _ _ (L IChoice ltac:(discriminate))) as L2.
        cbn [group_of] in L1, L2. rewrite L1, (has_jget _ _ _ Hs), (obj_truthy _ _ Is). cbn [snd fst py_truthy]. destruct Is as (xe & fs & ->); exact Je.
    - destruct C as (-> & L). pose proof (lacks_jget _ _ (L ISequence)) as L1. pose proof (lacks_jget _ _ (L IChoice)) as L2. pose proof (lacks_jget _ _ (L IAll)) as L3.
      cbn [group_of] in L1, L2, L3. rewrite L1, L2, L3. reflexivity. }
  rewrite X, (has_jget _ _ _ Ha), (has_jget _ _ _ Hg). cbn [jlist bind mapM].
  assert (F1 : exists f1, mapM (attribute_field nss k) attrs = Ok f1).
  { apply mapM_total. intros a Ia. assert (Y : exists p, In p (co_attrs o) /\ states_attribute a p).
    { clear - Sa Ia. induction Sa as [|x p l l' H F IH]; [destruct Ia|]. destruct Ia as [-> | Ia]; [exists p; split; [now left|exact H]|].
      destruct (IH Ia) as (p' & I & H'). exists p'. split; [now right|exact H']. }
    destruct Y as (p & Ip & Sp). destruct (G p (in_or_app _ _ _ (or_introl Ip)) k) as (t & Ht). now apply (attribute_prints nss k a p t). }
  assert (F3 : exists f3, mapM (element_fields nss k) els = Ok f3).
  { apply mapM_total. intros a Ia. assert (Y : exists p, In p (co_elems o) /\ states_element a p).
    { clear - Se Ia. induction Se as [|x p l l' H F IH]; [destruct Ia|]. destruct Ia as [-> | Ia]; [exists p; split; [now left|exact H]|].
      destruct (IH Ia) as (p' & I & H'). exists p'. split; [now right|exact H']. }
    destruct Y as (p & Ip & Sp). destruct (G p (in_or_app _ _ _ (or_intror Ip)) k) as (t & Ht). now apply (element_prints nss k a p t). }
  destruct F1 as (f1 & ->), F3 as (f3 & ->). cbn [bind]. eauto.
Qed.

(** ** The parameters of [create] *)
Lemma distinct_nodup l : NoDup l -> distinct_names l = true.
Proof.
  induction 1 as [|x l N D IH]; [reflexivity|]. cbn. rewrite IH. destruct (str_in x l) eqn:E; [apply str_in_spec in E; contradiction|reflexivity].
Qed.
Definition required (p : particle) : bool := match pt_min p with None => true | Some z => (z =? 1)%Z end.
Lemma create_params_eq els eps : Forall2 states_element els eps ->
  create_params els = map (fun p => python_name (pt_name p)) (filter required eps).
Proof.
  induction 1 as [|e p els eps S F IH]; [reflexivity|]. unfold create_params in *. cbn [flat_map filter]. rewrite IH. clear IH.
  destruct S as (A & _ & Nm & T & Tn & R & _ & Mi & _). unfold item_name. rewrite (lacks_jget _ _ R), (has_jget _ _ _ Nm). cbn [py_truthy jtext].
  unfold required. destruct (pt_min p) as [z|]; cbn in Mi.
  - rewrite (has_jget _ _ _ Mi). destruct z as [|[z|z|]|z]; reflexivity.
  - rewrite (lacks_jget _ _ Mi). reflexivity.
Qed.
Lemma nodup_filter {A B} (f : A -> B) (p : A -> bool) l : NoDup (map f l) -> NoDup (map f (filter p l)).
Proof.
  induction l as [|x l IH]; cbn; [auto|]. intros N. inversion_clear N as [|? ? Nx Nl]. destruct (p x); [|auto]. cbn. constructor; [|auto].
  intros I. apply Nx. apply in_map_iff in I as (y & <- & Iy). apply filter_In in Iy as [Iy _]. now apply in_map.
Qed.
Lemma python_name_cls n : python_name n = "cls" -> n = "cls".
Proof. unfold python_name. destruct (str_in n _); [discriminate|auto]. Qed.
Lemma letter_underscore : letter "_"%char.
Proof. unfold letter. right. right. reflexivity. Qed.
Lemma word_ident n : word n -> identifier (python_name n) = true.
Proof.
  intros ((c & t & -> & L) & A). unfold python_name. fold py_keywords. fold (is_keyword (String c t)). destruct (is_keyword (String c t)) eqn:K.
  - apply str_in_spec in K. cbn in K. repeat (destruct K as [<- | K]; [reflexivity|]). destruct K.
  - unfold identifier. cbn [to_l list_ascii_of_string]. rewrite (PfService2.letter_start c L), K. cbn [andb negb]. rewrite andb_true_r.
    apply forallb_forall. intros x I. apply PfService2.letter_char, A. right. exact I.
Qed.

(** ** Defining classes *)
Lemma assoc_set_forall {A} (P : string * A -> Prop) k v d : P (k, v) -> (forall k', P (k', v) <-> P (k, v)) -> Forall P d -> Forall P (assoc_set k v d).
Proof.
  intros Pk Pk' F. induction F as [|[k' v'] d H F IH]; cbn [assoc_set]; [constructor; [exact Pk|constructor]|].
  destruct (String.eqb k k'); constructor; auto. now apply Pk'.
Qed.
Definition below (n : nat) (a : string * attrval) : Prop := match snd a with ADesc d => d < n | AOther => True end.
Lemma field_dict_below m fs : forall n d, n + length fs <= m -> Forall (below m) d -> Forall (below m) (field_dict n fs d).
Proof.
  induction fs as [|f t IH]; intros n d H F; cbn [field_dict]; [exact F|]. cbn [length] in H. apply IH; [lia|].
  apply assoc_set_forall; [cbn; lia|reflexivity|exact F].
Qed.
Lemma class_dict_below n g fs : Forall (below (n + length fs)) (class_dict n g fs).
Proof.
  unfold class_dict. cbn zeta.
  assert (C : forall l d, Forall (below (n + length fs)) d -> Forall (below (n + length fs)) (fold_left (fun d (p : string * pyx) => assoc_set (fst p) AOther d) l d)).
  { induction l as [|p l IH]; intros d F; cbn [fold_left]; [exact F|]. apply IH. apply assoc_set_forall; [exact I|reflexivity|exact F]. }
  assert (D : Forall (below (n + length fs)) (field_dict n fs (fold_left (fun d (p : string * pyx) => assoc_set (fst p) AOther d) (gc_consts g) []))).
  { apply field_dict_below; [lia|]. apply C. constructor. }
  destruct (gc_create g); [|exact D]. apply assoc_set_forall; [exact I|reflexivity|exact D].
Qed.
Lemma define_total rt ms g b fs : good ms -> b < length (ms_class ms) -> mapM (make_field rt ms) (gc_fields g) = Ok fs ->
  match gc_create g with Some ps => forallb identifier ps && distinct_names ps && negb (str_in "cls" ps) | None => true end = true ->
  exists ms', define_complex rt ms g b = Ok ms'.
Proof.
  intros G Hb Fs Cr. unfold define_complex. rewrite Fs. cbn [bind].
  assert (C : match gc_create g with Some ps => if forallb identifier ps && distinct_names ps && negb (str_in "cls" ps) then Ok tt else Err SyntaxError | None => Ok tt end = Ok tt).
  { destruct (gc_create g); [now rewrite Cr|reflexivity]. }
  rewrite C. cbn [bind]. rewrite exec_news. cbn [bind].
  destruct (nth_error (w_classes (ms_world ms)) b) as [kb|] eqn:Hk; [|apply nth_error_None in Hk; rewrite (gd_class ms G) in Hb; lia].
  cbn [exec w_store w_classes].
  assert (K : forallb (known_attr (mkWorld (w_store (ms_world ms) ++ fs) (w_classes (ms_world ms)))) (class_dict (length (w_store (ms_world ms))) g fs) = true).
  { apply forallb_forall. intros [n a] I. pose proof (class_dict_below (length (w_store (ms_world ms))) g fs) as F. rewrite Forall_forall in F.
    specialize (F _ I). unfold below in F. unfold known_attr. cbn [snd w_store] in *. destruct a; [|reflexivity]. apply Nat.ltb_lt. now rewrite app_length. }
  assert (M : forallb (fun c => Nat.ltb c (length (w_classes (ms_world ms)))) (k_mro kb) = true).
  { apply forallb_forall. intros c I. pose proof (i_mro _ (proj1 (gd_tidy ms G)) b kb Hk) as F. rewrite Forall_forall in F. apply Nat.ltb_lt. now apply F. }
  rewrite K, M. cbn [andb]. destruct (build_meta _ _ _) as [st mt]. cbn [bind]. eauto.
Qed.

(** The document in the order in which the types are printed. *)
Definition complex_ordered (nss : list (option string)) (limit : nat) (s : schema_plan) (rank : string -> nat)
    (before : list complex_plan) (p : complex_plan) : Prop :=
  content_works nss s rank (capital (cp_name p)) (cp_content p) /\ rank (capital (cp_name p)) < limit /\
  forall q, cp_base p = Some q -> exists n, own_type nss q n /\ In n (map (fun b => capital (cp_name b)) before) /\ rank n <= rank (capital (cp_name p)).
Definition ordered_works (nss : list (option string)) (limit : nat) (pre : list schema_plan) (s : schema_plan) (rank : string -> nat) : Prop :=
  let u := joined pre s in
  NoDup (simple_names u ++ complex_names u ++ own_names u) /\
  (forall n, In n (complex_names u ++ own_names u) -> rank n < limit) /\
  Forall usable_name (simple_names s ++ complex_names s ++ own_names s) /\
  plain_text (sc_tns s) /\ plain_text (sc_efd s) /\ Forall (fun t => plain_text (tp_name t) /\ forall v, tp_group t = Some v -> plain_quoted v) (sc_tops s) /\
  (forall l1 p l2, sc_simples s = l1 ++ p :: l2 -> simple_works nss (flat_map sc_simples pre ++ l1) p) /\
  (forall l1 p l2, sc_complexes s = l1 ++ p :: l2 -> complex_ordered nss limit u rank (flat_map sc_complexes pre ++ l1) p) /\
  (forall p, In p (own_tops s) -> complex_ordered nss limit u rank [] p) /\
  (forall t q, In t (sc_tops s) -> tp_content t = TopNamed q ->
     library_type nss q \/ exists n, own_type nss q n /\ In n (simple_names u ++ complex_names u)).
(** The names of several documents. *)
Lemma joined_simple pre s : simple_names (joined pre s) = flat_map simple_names pre ++ simple_names s.
Proof.
  unfold simple_names, joined. cbn [sc_simples]. rewrite map_app. f_equal. induction pre as [|d pre IH]; [reflexivity|]. cbn [flat_map]. now rewrite map_app, IH.
Qed.
Lemma joined_complex pre s : complex_names (joined pre s) = flat_map complex_names pre ++ complex_names s.
Proof.
  unfold complex_names, joined. cbn [sc_complexes]. rewrite map_app. f_equal. induction pre as [|d pre IH]; [reflexivity|]. cbn [flat_map]. now rewrite map_app, IH.
Qed.
Lemma joined_own pre s : own_names (joined pre s) = flat_map own_names pre ++ own_names s.
Proof.
  unfold own_names, own_tops, joined. cbn [sc_tops]. rewrite flat_map_app, map_app. f_equal. induction pre as [|d pre IH]; [reflexivity|].
  cbn [flat_map]. now rewrite flat_map_app, map_app, IH.
Qed.
