(** Consequences of the rendering shape (C24, C30, C32). *)
From Coq Require Import String Ascii List ZArith NArith Bool Lia.
From Verif Require Import PyBase Xml PyVal XsdDate XsdSimple XsdComplex SpecObject SpecRender PfBase PfObject PfRender.
Import ListNotations.
Open Scope Z_scope.

Lemma xml_of_shape n O E ci xe fs tag ns efd x : names_ok E -> ncname_ok tag = true ->
  xml_of n O E (VObj ci xe fs) tag ns efd = Ok x ->
  el_tag x = ref_tag ns tag /\ shape O E efd ns (TComplex ci) (VObj ci xe fs) x.
Proof.
  intros N Nt H. unfold xml_of in H. apply bind_ok in H as (x0 & M & H). cbn [obj_parts bind fst] in H.
  apply mk_element_ok in M as (t & Ht & ->). apply ref_tag_norm in Ht; auto. subst t.
  apply render_shape in H; auto.
Qed.

(** The entries of an object are fields of classes that exist. *)
Definition entry_known (E : env) (e : entry) : Prop :=
  exists c d, e_cls E c = Some d /\ In (fst (fst e)) (cd_fields d).

Fixpoint flat_known E ns c v l (H : flat E ns c v l) {struct H} : Forall (entry_known E) l.
Proof.
  destruct H as [ns c d ci di xe fs ns1 blocks Hd Hdi Hn F].
  assert (K : forall f, In f (cd_fields di) -> exists c d, e_cls E c = Some d /\ In f (cd_fields d))
    by eauto.
  revert K. induction F as [|f b F' blocks' Hf F IH]; intros K; cbn; [constructor|].
  apply Forall_app. split.
  - destruct Hf as [fs ns2 f ct fv l G T A Gv Fl|fs ns2 f fv A G].
    + exact (flat_known _ _ _ _ _ Fl).
    + constructor; [|constructor]. destruct (K f (or_introl eq_refl)) as (c1 & d1 & K1 & K2).
      exists c1, d1. auto.
  - apply IH. intros g Hg. apply K. now right.
Qed.

Lemma Forall2_in_l {A B} (R : A -> B -> Prop) l l' x : Forall2 R l l' -> In x l -> exists y, In y l' /\ R x y.
Proof. induction 1; [easy|]. intros [<-|Hi]; [eexists; split; [now left|auto]|]. destruct IHForall2 as (y' & ? & ?); auto. exists y'. split; auto. now right. Qed.
Lemma Forall2_in_r {A B} (R : A -> B -> Prop) l l' y : Forall2 R l l' -> In y l' -> exists x, In x l /\ R x y.
Proof. induction 1; [easy|]. intros [<-|Hi]; [eexists; split; [now left|auto]|]. destruct IHForall2 as (y' & ? & ?); auto. exists y'. split; auto. now right. Qed.

Lemma add_attrs_in ws : forall a k v, In (k, v) (add_attrs ws a) -> In (k, v) ws \/ In (k, v) a.
Proof.
  induction ws as [|[k0 v0] ws IH]; intros a k v H; cbn in H; auto.
  apply IH in H as [H|H]; [left; now right|].
  cut (In (k, v) ((k0, v0) :: a)); [intros [C|C]; [left; now left|now right]|]. revert H. clear. cbn [fst snd].
  induction a as [|[k1 v1] a IHa]; cbn; auto.
  destruct (String.eqb_spec k0 k1) as [->|].
  - intros [H|H]; auto.
  - intros [H|H]; auto. apply IHa in H as [H|H]; auto.
Qed.

Lemma writes_name O e ws k v : entry_writes O e ws -> In (k, v) ws ->
  is_attr (fst (fst e)) = true /\ k = tag_or_name (fst (fst e)).
Proof.
  destruct e as [[f w] ns]. cbn. destruct (is_attr f); [|intros ->; easy].
  intros [(-> & _ & ->)|[(-> & _ & ->)|(_ & _ & s & t & _ & _ & ->)]] H; [easy|..];
    destruct H as [[= <- <-]|[]]; auto.
Qed.

(** Attributes of a rendered object are unqualified names. *)
Lemma attrs_unqualified n O E ci xe fs tag ns efd x k t : names_ok E -> ncname_ok tag = true ->
  xml_of n O E (VObj ci xe fs) tag ns efd = Ok x -> In (k, t) (el_attrs x) ->
  ncname_ok k = true.
Proof.
  intros N Nt H Hk. apply xml_of_shape in H as [_ S]; auto.
  inversion S as [| |? ? ? ? tg entries blocks wss Fl C W]; subst. cbn in Hk.
  apply add_attrs_in in Hk as [Hk|[]]. apply in_concat in Hk as (ws & Hws & Hk).
  apply (Forall2_in_r _ _ _ _ W) in Hws as (e & He & Hw).
  pose proof (flat_known _ _ _ _ _ Fl) as K. rewrite Forall_forall in K.
  destruct (K e He) as (c & d & Hd & Hf). destruct (writes_name _ _ _ _ _ Hw Hk) as [_ ->].
  exact (proj1 (N c d _ Hd Hf)).
Qed.

(** Child elements and their tags. *)
Definition child_tag_ok (efd : option string) (e : entry) (k : node) : Prop :=
  let '(f, v, ns1) := e in
  match f_kind f with
  | KElement => el_tag k = elem_tag f ns1 efd (tag_or_name f)
  | KList => exists t, f_tag f = Some t /\ el_tag k = elem_tag f ns1 efd t
  | KRef | KContent => el_tag k = ref_tag ns1 (tag_or_name f)
  | KClassNamed => True
  | KAttribute => False
  end.
Lemma item_tag O E efd f ns name v x : item O E efd f ns name v x -> el_tag x = elem_tag f ns efd name.
Proof. destruct 1; auto. Qed.
Lemma children_tags O E efd e ks k : children O E efd e ks -> In k ks -> child_tag_ok efd e k.
Proof.
  intros H Hk. destruct H as [efd f v ns A|efd f ns K|efd f v ns x K Nv I|efd f ty items ns kids K B1 B2 F|
    efd f v ns x G Nv Gv T S|efd f ns K|efd f c xe fs ns K A|efd f c xe fs name ci xei fsi di si ns x K A1 A2 Hd Hs T S]; try easy.
  - destruct Hk as [<-|[]]. unfold child_tag_ok. rewrite K. now apply item_tag in I.
  - unfold child_tag_ok. rewrite K. apply (Forall2_in_r _ _ _ _ F) in Hk as (v & _ & t & Ht & I).
    exists t. split; auto. now apply item_tag in I.
  - destruct Hk as [<-|[]]. unfold child_tag_ok, is_group in *. destruct (f_kind f); try discriminate; auto.
  - unfold child_tag_ok. now rewrite K.
Qed.
Lemma child_tags n O E ci xe fs tag ns efd x : names_ok E -> ncname_ok tag = true ->
  xml_of n O E (VObj ci xe fs) tag ns efd = Ok x ->
  exists entries, flat E ns ci (VObj ci xe fs) entries /\
    forall k, In k (el_kids x) -> exists e, In e entries /\ child_tag_ok efd e k.
Proof.
  intros N Nt H. apply xml_of_shape in H as [_ S]; auto.
  inversion S as [| |? ? ? ? tg entries blocks wss Fl C W]; subst.
  exists entries. split; auto. cbn. intros k Hk. apply in_concat in Hk as (ks & Hks & Hk).
  apply (Forall2_in_r _ _ _ _ C) in Hks as (e & He & Hc). exists e. split; auto.
  eapply children_tags; eauto.
Qed.

(** A class without group references is flat: its entries are its fields. *)
Lemma flat_plain E fs ns1 F blocks :
  Forall2 (flat_field E fs ns1) F blocks -> Forall (fun f => is_group f = false) F ->
  exists vs, Forall2 (fun f v => assoc (f_name f) fs = Some v) F vs /\
    concat blocks = map (fun p => (fst p, snd p, ns1)) (combine F vs).
Proof.
  induction 1 as [|f b F blocks Hf HF IH]; intros G; [exists []; split; [constructor|reflexivity]|].
  inversion G as [|? ? G1 G2]; subst. destruct (IH G2) as (vs & V1 & V2).
  inversion Hf as [? ? ? ? ? ? Gf|? ? ? fv A _]; subst; [congruence|].
  exists (fv :: vs). split; [constructor; auto|]. cbn. now rewrite V2.
Qed.

(** *** Elements of a class without groups, in order *)
(** Every child-element field with a value yields its elements, in field order
    (C17, C24, C32). *)
Definition kids_of (O : oracle) (E : env) (efd ns1 : option string) (fs : list (string * pyval))
    (f : field) (ks : list node) : Prop :=
  exists v, assoc (f_name f) fs = Some v /\ children O E efd (f, v, ns1) ks.
Lemma plain_object_children n O E ci di xe fs tag ns efd x : names_ok E -> ncname_ok tag = true ->
  e_cls E ci = Some di -> Forall (fun f => is_group f = false) (cd_fields di) ->
  xml_of n O E (VObj ci xe fs) tag ns efd = Ok x ->
  exists ns1 blocks, ns_in_force di di ns ns1 /\ el_kids x = concat blocks /\
    Forall2 (kids_of O E efd ns1 fs) (cd_fields di) blocks.
Proof.
  intros N Nt Hd G H. apply xml_of_shape in H as [_ S]; auto.
  inversion S as [| |? ? ? ? tg entries blocks wss Fl C W]; subst. cbn.
  inversion Fl as [? ? d ? di' ? ? ns1 eb Hd1 Hd2 Hn F]; subst.
  rewrite Hd in Hd1, Hd2. injection Hd1 as <-. injection Hd2 as <-.
  exists ns1, blocks. repeat split; auto.
  destruct (flat_plain _ _ _ _ _ F G) as (vs & V & Eq). rewrite Eq in C. clear - V C.
  revert blocks C. induction V as [|f v F vs A V IH]; intros blocks C; cbn in C; inversion C; subst; constructor; auto.
  exists v. auto.
Qed.

(** *** Attributes, exactly *)
Lemma add_attrs_fresh ws : forall a, NoDup (map fst (a ++ ws)) -> add_attrs ws a = a ++ ws.
Proof.
  induction ws as [|[k v] ws IH]; intros a ND; [cbn; now rewrite app_nil_r|].
  cbn. assert (Hk : ~ In k (map fst a)).
  { rewrite map_app in ND. apply NoDup_remove_2 in ND. intros H. apply ND. apply in_or_app. now left. }
  assert (S : assoc_set k v a = a ++ [(k, v)]).
  { revert Hk. clear. induction a as [|[k' v'] a IHa]; cbn; auto. intros H.
    destruct (String.eqb_spec k k') as [->|]; [destruct H; auto|]. rewrite IHa; auto. }
  rewrite S, IH; rewrite <- app_assoc; auto.
Qed.

Definition has_attr (e : entry) : bool :=
  (is_attr (fst (fst e)) && match snd (fst e) with VNone => false | _ => true end)%bool.
Lemma attrs_exact n O E ci xe fs tag ns efd x : names_ok E -> ncname_ok tag = true ->
  xml_of n O E (VObj ci xe fs) tag ns efd = Ok x ->
  exists entries, flat E ns ci (VObj ci xe fs) entries /\
    (forall f ns1, In (f, VNone, ns1) entries -> is_attr f = true -> f_min f = None \/ f_min f = Some 0) /\
    (forall f ns1, In (f, VNil, ns1) entries -> is_attr f = true -> f_nillable f = true) /\
    (NoDup (map (fun e => tag_or_name (fst (fst e))) (filter has_attr entries)) ->
     Forall2 (fun e a => fst a = tag_or_name (fst (fst e)) /\
                (snd (fst e) = VNil /\ snd a = "nil"%string \/
                 exists s, f_type (fst (fst e)) = TSimple s /\ st_xmlvalue O s (snd (fst e)) = Ok (VStr (snd a))))
       (filter has_attr entries) (el_attrs x)).
Proof.
  intros N Nt H. apply xml_of_shape in H as [_ S]; auto.
  inversion S as [| |? ? ? ? tg entries blocks wss Fl C W]; subst.
  exists entries. repeat split; auto.
  - intros f ns1 Hi A. apply (Forall2_in_l _ _ _ _ W) in Hi as (ws & _ & Hw). cbn in Hw. rewrite A in Hw.
    destruct Hw as [(_ & M & _)|[([=] & _)|([] & _)]]; auto.
  - intros f ns1 Hi A. apply (Forall2_in_l _ _ _ _ W) in Hi as (ws & _ & Hw). cbn in Hw. rewrite A in Hw.
    destruct Hw as [([=] & _)|[(_ & M & _)|(_ & [] & _)]]; auto.
  - intros ND. cbn [el_attrs].
    assert (Q : Forall2 (fun e a => fst a = tag_or_name (fst (fst e)) /\
                (snd (fst e) = VNil /\ snd a = "nil"%string \/
                 exists s, f_type (fst (fst e)) = TSimple s /\ st_xmlvalue O s (snd (fst e)) = Ok (VStr (snd a))))
       (filter has_attr entries) (concat wss)).
    { clear - W. induction W as [|[[f v] n1] ws es wss Hw W IH]; cbn [filter concat]; [constructor|].
      unfold has_attr at 1. cbn [fst snd] in *. cbn in Hw. destruct (is_attr f); cbn [andb].
      - destruct Hw as [(-> & _ & ->)|[(-> & _ & ->)|(N1 & N2 & s & t & T & X & ->)]]; cbn [app]; auto.
        assert (Ev : match v with VNone => false | _ => true end = true) by (destruct v; congruence).
        rewrite Ev. constructor; auto. cbn. split; auto. right. eauto.
      - rewrite Hw. auto. }
    assert (Eq : map fst (concat wss) = map (fun e => tag_or_name (fst (fst e))) (filter has_attr entries)).
    { clear - Q. induction Q as [|e a es l [K _] Q IH]; cbn; auto. congruence. }
    change (fold_left _ (concat wss) []) with (add_attrs (concat wss) []).
    rewrite add_attrs_fresh; auto. cbn. now rewrite Eq.
Qed.

(** Classes of attributes only: the complete outcome. *)
Definition attr_written (O : oracle) (fs : list (string * pyval)) (f : field) (ws : list (string * string)) : Prop :=
  (assoc (f_name f) fs = Some VNone /\ (f_min f = None \/ f_min f = Some 0) /\ ws = []) \/
  (assoc (f_name f) fs = Some VNil /\ f_nillable f = true /\ ws = [(tag_or_name f, "nil"%string)]) \/
  (exists v s t, assoc (f_name f) fs = Some v /\ v <> VNone /\ v <> VNil /\ f_type f = TSimple s /\
     st_xmlvalue O s v = Ok (VStr t) /\ xml_text_ok t = true /\ ws = [(tag_or_name f, t)]).
(** A required attribute without a value, or NIL where that is not allowed. *)
Definition attr_missing (fs : list (string * pyval)) (f : field) : Prop :=
  (assoc (f_name f) fs = Some VNone /\ exists m, f_min f = Some m /\ m <> 0) \/
  (assoc (f_name f) fs = Some VNil /\ f_nillable f = false).

Lemma attr_written_step O E rec fs f ws t a k ns1 efd : ncname_ok (tag_or_name f) = true -> is_attr f = true ->
  attr_written O fs f ws ->
  (fv <- getattr fs (f_name f) ;; render_field O E rec f (Elem t a k) fv ns1 efd) = Ok (Elem t (add_attrs ws a) k).
Proof.
  intros N A H. unfold is_attr in A. unfold getattr, render_field, render_attribute.
  destruct (f_kind f); try discriminate.
  destruct H as [(-> & M & ->)|[(-> & M & ->)|(v & s & x & -> & N1 & N2 & T & X & TX & ->)]]; cbn [bind].
  - destruct M as [->| ->]; reflexivity.
  - rewrite M. unfold el_set. rewrite norm_plain by auto. reflexivity.
  - assert (Q : match f_type f with TSimple s => x <- st_xmlvalue O s v ;; set_attr_val (Elem t a k) (tag_or_name f) x
               | TComplex _ => Err AttributeError end = Ok (Elem t (add_attrs [(tag_or_name f, x)] a) k)).
    { rewrite T, X. cbn [bind set_attr_val]. unfold el_set. rewrite norm_plain by auto. cbn [bind].
      rewrite TX. reflexivity. }
    destruct v; try congruence; exact Q.
Qed.
Lemma attr_missing_step O E rec fs f t a k ns1 efd : is_attr f = true -> attr_missing fs f ->
  (fv <- getattr fs (f_name f) ;; render_field O E rec f (Elem t a k) fv ns1 efd) = Err ValueError.
Proof.
  intros A H. unfold is_attr in A. unfold getattr, render_field, render_attribute.
  destruct (f_kind f); try discriminate.
  destruct H as [(-> & m & M & N)|(-> & M)]; cbn [bind]; rewrite M.
  - destruct m; auto. congruence.
  - reflexivity.
Qed.
Lemma attrs_fold O E rec fs ns1 efd F : (forall f, In f F -> ncname_ok (tag_or_name f) = true /\ is_attr f = true) ->
  (forall f, In f F -> attr_missing fs f \/ exists ws, attr_written O fs f ws) ->
  forall t a k,
  (exists f, In f F /\ attr_missing fs f) /\
  foldM (fun par f => fv <- getattr fs (f_name f) ;; render_field O E rec f par fv ns1 efd) (Elem t a k) F = Err ValueError
  \/ exists wss, Forall2 (attr_written O fs) F wss /\
  foldM (fun par f => fv <- getattr fs (f_name f) ;; render_field O E rec f par fv ns1 efd) (Elem t a k) F
    = Ok (Elem t (add_attrs (concat wss) a) k).
Proof.
  induction F as [|f F IH]; intros N W t a k.
  - right. exists []. split; [constructor|reflexivity].
  - destruct (N f (or_introl eq_refl)) as [Nf Af].
    destruct (W f (or_introl eq_refl)) as [M|[ws Hw]].
    + left. split; [exists f; split; auto; now left|]. cbn [foldM].
      rewrite (attr_missing_step _ _ _ _ _ _ _ _ _ _ Af M). reflexivity.
    + cbn [foldM]. rewrite (attr_written_step _ _ _ _ _ _ _ _ _ _ _ Nf Af Hw). cbn [bind].
      destruct (IH ltac:(auto with datatypes) ltac:(auto with datatypes) t (add_attrs ws a) k)
        as [[(g & Hg & Mg) R]|(wss & F2 & R)].
      * left. split; auto. exists g. split; auto. now right.
      * right. exists (ws :: wss). split; [constructor; auto|]. rewrite R. cbn [concat].
        now rewrite add_attrs_app.
Qed.
Lemma written_not_missing O fs f ws : attr_written O fs f ws -> ~ attr_missing fs f.
Proof.
  unfold attr_written, attr_missing.
  intros [(A & M & _)|[(A & M & _)|(v & s & t & A & N1 & N2 & _)]] [(B & m & B1 & B2)|(B & B1)]; rewrite A in B;
    try discriminate; try congruence; destruct M; congruence.
Qed.

Lemma attribute_class_outcome n O E ci di xe fs tag ns efd t0 :
  names_ok E -> norm_name (ref_tag ns tag) = Ok t0 ->
  e_cls E ci = Some di -> cd_kind di = CKPlain -> Forall (fun f => is_attr f = true) (cd_fields di) ->
  (forall f, In f (cd_fields di) -> attr_missing fs f \/ exists ws, attr_written O fs f ws) ->
  let r := xml_of (S n) O E (VObj ci xe fs) tag ns efd in
  (r = Err ValueError <-> exists f, In f (cd_fields di) /\ attr_missing fs f) /\
  (forall x, r = Ok x -> exists wss, Forall2 (attr_written O fs) (cd_fields di) wss /\
     x = Elem t0 (fold_left (fun a w => assoc_set (fst w) (snd w) a) (concat wss) []) []) /\
  (r = Err ValueError \/ exists x, r = Ok x).
Proof.
  intros N Ht Hd Hk A W r.
  assert (R : r = foldM (fun par f => fv <- getattr fs (f_name f) ;;
       render_field O E (render_obj n O E) f par fv
         (match cd_schema di with Some si => si_tns si | None => ns end) efd) (Elem t0 [] []) (cd_fields di)).
  { unfold r, xml_of, mk_element. change (match ns with Some m => if String.eqb m "" then tag else clark m tag | None => tag end)
      with (ref_tag ns tag). rewrite Ht. cbn [bind obj_parts fst]. rewrite render_obj_S. unfold get_class. rewrite Hd.
    cbn [bind]. rewrite Hk. cbn [bind obj_parts fst snd get_class]. unfold get_class. rewrite Hd. reflexivity. }
  rewrite Forall_forall in A.
  destruct (attrs_fold O E (render_obj n O E) fs
      (match cd_schema di with Some si => si_tns si | None => ns end) efd (cd_fields di)
      ltac:(intros f Hf; split; [exact (proj1 (N _ _ _ Hd Hf))|auto]) W t0 [] []) as [[M X]|(wss & F2 & X)];
    rewrite <- R in X; rewrite X.
  - split; [tauto|]. split; [discriminate|auto].
  - split.
    + split; [discriminate|]. intros (f & Hf & M). exfalso.
      apply (Forall2_in_l _ _ _ _ F2) in Hf as (ws & _ & Hw). exact (written_not_missing _ _ _ _ Hw M).
    + split; eauto. intros x [= <-]. exists wss. auto.
Qed.

(** A missing required attribute never goes out, at whatever level. *)
Lemma missing_never_ok n O E c parent ci xe fs ns efd di f x :
  e_cls E ci = Some di -> In f (cd_fields di) -> is_attr f = true -> attr_missing fs f ->
  render_obj n O E c parent (VObj ci xe fs) ns efd <> Ok x.
Proof.
  intros Hd Hf A M H.
  apply render_obj_ok in H as (n' & d & di' & ns1 & -> & H1 & H2 & _ & H).
  rewrite Hd in H2. injection H2 as <-.
  destruct (foldM_ok_each _ _ _ _ H f Hf) as (b & b' & Q).
  unfold is_attr in A. unfold getattr, render_field, render_attribute in Q. destruct (f_kind f); try discriminate.
  destruct M as [(Q1 & m & M & N)|(Q1 & M)]; rewrite Q1 in Q; cbn [bind] in Q; rewrite M in Q; [|discriminate].
  destruct m; congruence.
Qed.

Lemma subclass_children n O E c t ci xe fs di ns efd x : names_ok E -> e_cls E ci = Some di ->
  Forall (fun f => is_group f = false) (cd_fields di) ->
  render_obj n O E c (Elem t [] []) (VObj ci xe fs) ns efd = Ok x ->
  exists ns1 blocks wss, el_kids x = concat blocks /\
    Forall2 (fun f ks => exists v, assoc (f_name f) fs = Some v /\ children O E efd (f, v, ns1) ks)
      (cd_fields di) blocks /\
    Forall2 (fun f ws => exists v, assoc (f_name f) fs = Some v /\ entry_writes O (f, v, ns1) ws)
      (cd_fields di) wss /\
    el_attrs x = fold_left (fun a w => assoc_set (fst w) (snd w) a) (concat wss) [].
Proof.
  intros N Hd G H. apply render_shape in H as [_ S]; auto.
  inversion S as [| |? ? ? ? tg entries blocks wss Fl C W]; subst.
  inversion Fl as [? ? d ? di' ? ? ns1 eb Hd1 Hd2 Hn F]; subst.
  rewrite Hd in Hd2. injection Hd2 as <-.
  exists ns1, blocks, wss.
  destruct (flat_plain _ _ _ _ _ F G) as (vs & V & Eq). rewrite Eq in C, W. clear - V C W.
  split; [reflexivity|]. split; [|split; [|reflexivity]].
  - clear W. revert blocks C. induction V as [|f v F vs A V IH]; intros blocks C; cbn in C; inversion C; subst; constructor; eauto.
  - clear C. revert wss W. induction V as [|f v F vs A V IH]; intros wss C; cbn in C; inversion C; subst; constructor; eauto.
Qed.

(** If the fields before it can be rendered, a missing attribute is a
    ValueError. *)
Lemma missing_is_ValueError n O E c d ci di xe fs ns efd t pre f post t' a k :
  e_cls E c = Some d -> cd_kind d <> CKHeader -> e_cls E ci = Some di ->
  cd_fields di = pre ++ f :: post -> is_attr f = true -> attr_missing fs f ->
  foldM (fun par g => fv <- getattr fs (f_name g) ;;
     render_field O E (render_obj n O E) g par fv (match cd_schema d with Some si => si_tns si | None => ns end) efd)
     (Elem t [] []) pre = Ok (Elem t' a k) ->
  render_obj (S n) O E c (Elem t [] []) (VObj ci xe fs) ns efd = Err ValueError.
Proof.
  intros Hd NH Hdi Hf A M Hpre. rewrite render_obj_S. unfold get_class. rewrite Hd. cbn [bind].
  assert (Q : match cd_kind d with
           | CKHeader =>
               p <- obj_parts (VObj ci xe fs) ;; di <- get_class E (fst p) ;;
               match cd_schema di with Some si => Ok (si_tns si) | None => Err AttributeError end
           | _ => Ok ns end = Ok ns) by (destruct (cd_kind d); congruence).
  unfold get_class in Q. rewrite Q. cbn [bind obj_parts fst snd]. rewrite Hdi. cbn [bind]. rewrite Hf.
  assert (Fa : forall (g : node -> field -> res node) l1 l2 p, foldM g p (l1 ++ l2) = (q <- foldM g p l1 ;; foldM g q l2)).
  { intros g l1. induction l1 as [|y l1 IH]; intros l2 p; cbn; auto. destruct (g p y); cbn; auto. }
  rewrite Fa, Hpre. cbn [bind foldM]. rewrite attr_missing_step; auto.
Qed.
