(** Rendering and building objects of the library's own classes. *)
From Coq Require Import String Ascii List ZArith NArith Bool Lia.
From Verif Require Import PyBase PfBase Xml PyVal XsdSimple XsdComplex PyHttp Soap LibClasses Py2Xsd
  PfSimple PfRender PfRender2 PfRound PfLeaf.
Import ListNotations.
Open Scope string_scope.
Open Scope list_scope.

(** ** Rendering field by field *)

(** Field [f] with value [v] adds attributes [a] and children [k]. *)
Definition adds (O : oracle) (E : env) (rec : renderer) (ns efd : option string) (f : field) (v : pyval)
    (p : list (string * string) * list node) : Prop :=
  forall t a0 k0, (forall x, In x (map fst a0) -> ~ In x (map fst (fst p))) ->
    render_field O E rec f (Elem t a0 k0) v ns efd = Ok (Elem t (a0 ++ fst p) (k0 ++ snd p)).

Lemma render_parts O E n c d xe fs ns ns1 efd t parts :
  e_cls E c = Some d -> cd_kind d = CKPlain ->
  ns1 = match cd_schema d with Some si => si_tns si | None => ns end ->
  Forall2 (fun f p => exists v, assoc (f_name f) fs = Some v /\ adds O E (render_obj n O E) ns1 efd f v p)
          (cd_fields d) parts ->
  NoDup (map fst (flat_map fst parts)) ->
  render_obj (S n) O E c (Elem t [] []) (VObj c xe fs) ns efd =
    Ok (Elem t (flat_map fst parts) (flat_map snd parts)).
Proof.
  intros Hd Hk Hn F ND. cbn [render_obj]. unfold get_class. rewrite Hd. cbn [bind]. rewrite Hk. cbn [bind obj_parts fst snd].
  rewrite Hd. cbn [bind]. rewrite <- Hn.
  assert (G : forall F0 ps a0 k0, Forall2 (fun f p => exists v, assoc (f_name f) fs = Some v /\ adds O E (render_obj n O E) ns1 efd f v p) F0 ps ->
    NoDup (map fst (a0 ++ flat_map fst ps)) ->
    foldM (fun par f => fv <- getattr fs (f_name f) ;; render_field O E (render_obj n O E) f par fv ns1 efd) (Elem t a0 k0) F0 =
    Ok (Elem t (a0 ++ flat_map fst ps) (k0 ++ flat_map snd ps))).
  { induction F0 as [|f F0 IH]; intros ps a0 k0 H N; inversion H as [|f' p F' ps' Hp Hr]; subst; cbn [foldM flat_map].
    - now rewrite !app_nil_r.
    - destruct Hp as (v & Hv & A). unfold getattr at 1. rewrite Hv. cbn [bind].
      cbn [flat_map] in N. rewrite A.
      2:{ intros x I1 I2. rewrite !map_app in N.
          revert N I1 I2. clear. induction (map fst a0) as [|y l IHl]; cbn; [tauto|]. intros N [-> | I1] I2.
          - inversion N; subst. apply H1. apply in_or_app. right. apply in_or_app. now left.
          - inversion N; subst. now apply IHl. }
      cbn [bind]. rewrite IH with (ps := ps'); auto.
      + now rewrite <- !app_assoc.
      + now rewrite <- app_assoc. }
  apply (G (cd_fields d) parts [] []); auto.
Qed.

Lemma adds_attr_none O E rec ns efd f : f_kind f = KAttribute -> f_min f = Some 0%Z ->
  adds O E rec ns efd f VNone ([], []).
Proof. intros K M t a0 k0 _. unfold render_field, render_attribute. rewrite K, M. cbn. now rewrite !app_nil_r. Qed.

Lemma assoc_set_fresh {A} k (v : A) l : ~ In k (map fst l) -> assoc_set k v l = l ++ [(k, v)].
Proof.
  induction l as [|[k' v'] l IH]; cbn; intros N; [reflexivity|]. destruct (String.eqb_spec k k') as [-> |Ne]; [tauto|].
  f_equal. apply IH. tauto.
Qed.
Lemma adds_attr O E rec ns efd f s v text : f_kind f = KAttribute -> f_tag f = None -> ncname_ok (f_name f) = true ->
  f_type f = TSimple s -> v <> VNone -> v <> VNil -> st_xmlvalue O s v = Ok (VStr text) -> xml_text_ok text = true ->
  adds O E rec ns efd f v ([(f_name f, text)], []).
Proof.
  intros K T N Ty Hv1 Hv2 X Tx t a0 k0 D. unfold render_field, tag_or_name. rewrite K, T. unfold render_attribute. rewrite Ty, X.
  assert (Q : set_attr_val (Elem t a0 k0) (f_name f) (VStr text) = Ok (Elem t (a0 ++ [(f_name f, text)]) (k0 ++ []))).
  { cbn. unfold el_set. rewrite norm_plain by assumption. cbn. rewrite Tx, assoc_set_fresh, app_nil_r; [reflexivity|].
    intros I1. apply (D _ I1). now left. }
  destruct v; try congruence; exact Q.
Qed.
Lemma adds_elem_none O E rec ns efd f : f_kind f = KElement -> adds O E rec ns efd f VNone ([], []).
Proof. intros K t a0 k0 _. unfold render_field. rewrite K. cbn. now rewrite !app_nil_r. Qed.

Lemma adds_elem O E rec ns efd f c v n' x :
  f_kind f = KElement -> f_tag f = None -> ncname_ok (f_name f) = true -> f_type f = TComplex c -> v <> VNone -> v <> VNil ->
  eff_ns f ns = Some n' -> n' <> "" -> ~ In "}"%char (to_l n') -> is_qualified efd = true ->
  rec c (Elem (clark n' (f_name f)) [] []) v (Some n') efd = Ok x ->
  adds O E rec ns efd f v ([], [x]).
Proof.
  intros K T N Ty Hv1 Hv2 En Ne Nb Q R t a0 k0 _. unfold render_field, tag_or_name. rewrite K, T. unfold render_element. rewrite En.
  assert (M : mk_element (qualify (Some n') efd (f_name f)) = Ok (Elem (clark n' (f_name f)) [] [])).
  { unfold qualify, mk_element. rewrite Q. unfold clark at 1, norm_name. cbn. fold (clark n' (f_name f)).
    rewrite str_partition_app by exact Nb. rewrite N. cbn. unfold qname. apply String.eqb_neq in Ne. now rewrite Ne. }
  rewrite M. destruct v; try congruence; cbn [bind]; unfold render_type; rewrite Ty, R; cbn [bind el_append]; now rewrite app_nil_r.
Qed.

Lemma adds_list O E rec ns efd f c typed items tag n' xs :
  f_kind f = KList -> f_tag f = Some tag -> ncname_ok tag = true -> f_type f = TComplex c ->
  (f_min f = None \/ f_min f = Some 0%Z) -> f_max f = ONone ->
  eff_ns f ns = Some n' -> n' <> "" -> ~ In "}"%char (to_l n') -> is_qualified efd = true ->
  Forall2 (fun v x => v <> VNil /\ rec c (Elem (clark n' tag) [] []) v (Some n') efd = Ok x) items xs ->
  adds O E rec ns efd f (VList typed items) ([], xs).
Proof.
  intros K T N Ty Mn Mx En Ne Nb Q R t a0 k0 _. unfold render_field, render_list. rewrite K, T, Mx.
  replace (match f_min f with Some m => negb (m =? 0)%Z && (Z.of_nat (length items) <? m)%Z | None => false end) with false
    by (destruct Mn as [-> | ->]; reflexivity).
  rewrite En.
  assert (M : mk_element (qualify (Some n') efd tag) = Ok (Elem (clark n' tag) [] [])).
  { unfold qualify, mk_element. rewrite Q. unfold clark at 1, norm_name. cbn. fold (clark n' tag).
    rewrite str_partition_app by exact Nb. rewrite N. cbn. unfold qname. apply String.eqb_neq in Ne. now rewrite Ne. }
  cbn [fst snd]. rewrite app_nil_r, M, Ty. cbn [bind render_type]. revert k0. induction R as [|v x items xs [Hv R] _ IH]; intros k0; cbn [foldM].
  - now rewrite app_nil_r.
  - destruct v; try congruence; rewrite R; cbn [bind el_append]; rewrite IH; now rewrite <- app_assoc.
Qed.

(** ** Building *)
Lemma py_set_ok O E c d xe fs name f v v' : e_cls E c = Some d -> find_field (cd_fields d) name = Ok f ->
  field_accept O E f v = Ok v' -> py_set O E (VObj c xe fs) name v = Ok (VObj c xe (assoc_set name v' fs)).
Proof. intros Hd Hf Ha. unfold py_set, get_class, setattr. rewrite Hd. cbn. rewrite Hf. cbn. rewrite Ha. reflexivity. Qed.
Lemma py_append_ok O E c d xe fs name f t l v v' : e_cls E c = Some d -> find_field (cd_fields d) name = Ok f ->
  assoc name fs = Some (VList t l) -> v <> VNil -> type_accept O E (f_type f) v = Ok v' -> f_max f = ONone ->
  py_append O E (VObj c xe fs) name v = Ok (VObj c xe (assoc_set name (VList t (l ++ [v'])) fs)).
Proof.
  intros Hd Hf Hl Hn Ha Hm. unfold py_append, get_class, getattr, tl_append. rewrite Hd. cbn. rewrite Hf. cbn. rewrite Hl. cbn.
  rewrite Hm. destruct v; try congruence; rewrite Ha; reflexivity.
Qed.
