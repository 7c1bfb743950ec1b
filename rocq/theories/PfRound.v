(** Rendering then parsing gives the object back (C21). *)
From Coq Require Import String Ascii List ZArith NArith Bool Lia Permutation.
From Verif Require Import PyBase Xml PyVal XsdDate XsdSimple XsdComplex SpecObject SpecRender SpecParse SpecRound
  PfBase PfObject PfRender PfRender2 PfParse PfLayout.
Import ListNotations.
Open Scope Z_scope.

(** ** Names *)
Lemma norm_qualify f ns efd name : ncname_ok name = true -> ns_good ns -> ns_good (f_ns f) ->
  norm_name (qualify (eff_ns f ns) efd name) = Ok (elem_tag f ns efd name).
Proof.
  intros N G1 G2. unfold qualify, eff_ns, elem_tag. change (form_qualified efd) with (is_qualified efd).
  assert (G : ns_good (match f_ns f with Some n => Some n | None => ns end)) by (destruct (f_ns f); auto).
  destruct (match f_ns f with Some n => Some n | None => ns end) as [n|]; [|now apply norm_plain].
  destruct (is_qualified efd); cbn [andb]; [|now apply norm_plain].
  unfold norm_name, clark_split, clark. rewrite str_partition_app by exact G. rewrite N. cbn.
  unfold qname. destruct (String.eqb n ""); reflexivity.
Qed.
Lemma norm_ref_tag ns name : ncname_ok name = true -> ns_good ns ->
  norm_name (ref_tag ns name) = Ok (ref_tag ns name).
Proof.
  intros N G. unfold ref_tag. destruct ns as [n|]; [|now apply norm_plain].
  destruct (String.eqb n "") eqn:X; [now apply norm_plain|].
  unfold norm_name, clark_split, clark. rewrite str_partition_app by exact G. rewrite N. cbn.
  unfold qname. now rewrite X.
Qed.
Lemma local_plain name : ncname_ok name = true -> local_name name = name.
Proof.
  intros N. unfold local_name. destruct name as [|c s]; auto.
  pose proof (ncname_head _ _ _ N eq_refl) as H.
  destruct c as [[] [] [] [] [] [] [] []]; auto; congruence.
Qed.
Lemma local_clark ns name : ~ In rbrace (to_l ns) -> local_name (clark ns name) = name.
Proof. intros H. unfold local_name, clark. now rewrite str_partition_app. Qed.
Lemma local_elem_tag f ns efd name : ncname_ok name = true -> ns_good ns -> ns_good (f_ns f) ->
  local_name (elem_tag f ns efd name) = name.
Proof.
  intros N G1 G2. unfold elem_tag.
  assert (G : ns_good (match f_ns f with Some n => Some n | None => ns end)) by (destruct (f_ns f); auto).
  destruct (match f_ns f with Some n => Some n | None => ns end) as [n|]; [|now apply local_plain].
  destruct (form_qualified efd && negb (String.eqb n ""))%bool; [now apply local_clark|now apply local_plain].
Qed.
Lemma ncname_not_nil name : ncname_ok name = true -> name <> xsi_nil.
Proof. intros H ->. discriminate. Qed.

(** An element written for field [f]. *)
Definition elem_of (f : field) (x : node) : Prop :=
  exists t a k, x = Elem t a k /\ local_name t = out_name f /\ wire x = x.
Lemma elem_of_belongs f x : is_plain f = true -> (f_kind f = KList -> exists t, f_tag f = Some t) ->
  elem_of f x -> belongs f x = true.
Proof.
  intros P HT (t & a & k & -> & L & _). cbn. rewrite L. unfold out_name, tag_or_name.
  unfold is_plain, is_attr, is_group in P.
  destruct (f_kind f) eqn:K; try discriminate.
  - destruct (f_tag f) as [g|]; [|now rewrite String.eqb_refl].
    destruct (String.eqb g ""); rewrite String.eqb_refl; auto using orb_true_r.
  - destruct (f_tag f) as [g|]; [|now rewrite String.eqb_refl].
    destruct (String.eqb g ""); rewrite String.eqb_refl; auto using orb_true_r.
  - destruct HT as [g ->]; auto. rewrite String.eqb_refl. apply orb_true_r.
Qed.
Lemma elem_of_other f g x : ~ confused f g -> elem_of f x -> belongs g x = false.
Proof.
  intros NC (t & a & k & -> & L & _). cbn. rewrite L. apply orb_false_iff. split.
  - apply String.eqb_neq. intros H. apply NC. now left.
  - destruct (f_tag g) as [tg|] eqn:T; auto. apply String.eqb_neq. intros H. apply NC. right. congruence.
Qed.

Lemma wire_elems l : Forall (fun x => exists t a k, x = Elem t a k /\ wire x = x) l -> merge_text (map wire l) = l.
Proof.
  induction 1 as [|x l (t & a & k & -> & W) H IH]; [reflexivity|]. cbn [map]. rewrite W. cbn. now rewrite IH.
Qed.

(** ** Updating a dictionary field by field *)
Lemma assoc_set_id {A} k (v : A) l : assoc k l = Some v -> assoc_set k v l = l.
Proof.
  induction l as [|[k' v'] l IH]; [discriminate|]. cbn. destruct (String.eqb_spec k k') as [->|].
  - intros [= ->]. reflexivity.
  - intros H. now rewrite IH.
Qed.
Lemma assoc_set_twice {A} k (v w : A) l : assoc_set k w (assoc_set k v l) = assoc_set k w l.
Proof.
  induction l as [|[k' v'] l IH]; cbn.
  - now rewrite String.eqb_refl.
  - destruct (String.eqb_spec k k') as [->|N]; cbn; [now rewrite String.eqb_refl|].
    apply String.eqb_neq in N. now rewrite N, IH.
Qed.

Lemma fold_update (step : list (string * pyval) -> field -> res (list (string * pyval)))
    (val : field -> pyval -> Prop) (names : list string) (init : list (string * pyval)) L :
  NoDup (map f_name L) -> (forall f, In f L -> In (f_name f) names) ->
  (forall f fs, In f L -> map fst fs = names -> assoc (f_name f) fs = assoc (f_name f) init ->
     exists w, step fs f = Ok (assoc_set (f_name f) w fs) /\ val f w) ->
  forall fs, map fst fs = names -> (forall f, In f L -> assoc (f_name f) fs = assoc (f_name f) init) ->
  exists fs', foldM step fs L = Ok fs' /\ map fst fs' = names /\
    (forall f, In f L -> exists w, assoc (f_name f) fs' = Some w /\ val f w) /\
    (forall name, ~ In name (map f_name L) -> assoc name fs' = assoc name fs).
Proof.
  induction L as [|f L IH]; intros ND Hn Hs fs Hk Hi.
  - exists fs. cbn. repeat split; auto. easy.
  - cbn in ND. inversion ND as [|? ? N1 N2]; subst.
    destruct (Hs f fs (or_introl eq_refl) eq_refl (Hi f (or_introl eq_refl))) as (w & Hw & Vw).
    assert (Kf : map fst (assoc_set (f_name f) w fs) = map fst fs).
    { apply assoc_set_keys. apply Hn. now left. }
    destruct (IH N2 ltac:(auto with datatypes) ltac:(auto with datatypes) (assoc_set (f_name f) w fs) Kf)
      as (fs' & F & K & V & U).
    { intros g Hg. rewrite assoc_set_other; [apply Hi; now right|].
      intros C. apply N1. rewrite <- C. now apply in_map. }
    exists fs'. cbn [foldM]. rewrite Hw. cbn [bind]. repeat split; auto.
    + intros g [<-|Hg]; auto. rewrite U by auto. rewrite assoc_set_same. eauto.
    + intros name Hnm. cbn in Hnm. rewrite U by tauto. apply assoc_set_other. intros ->. tauto.
Qed.

(** Dictionaries with the same keys and equal values are equal. *)
Lemma dict_eq names (fs fs' : list (string * pyval)) : NoDup names -> map fst fs = names -> map fst fs' = names ->
  (forall k, In k names -> option_map erase (assoc k fs) = option_map erase (assoc k fs')) -> efs fs = efs fs'.
Proof.
  revert fs fs'. induction names as [|k names IH]; intros fs fs' ND K K' H.
  - destruct fs; [|discriminate]. destruct fs'; [reflexivity|discriminate].
  - destruct fs as [|[k1 v1] fs]; [discriminate|]. destruct fs' as [|[k2 v2] fs']; [discriminate|].
    cbn in K, K'. injection K as -> K. injection K' as -> K'. inversion ND as [|? ? N1 N2]; subst.
    cbn. f_equal.
    + specialize (H k (or_introl eq_refl)). cbn in H. rewrite String.eqb_refl in H. cbn in H. congruence.
    + apply IH; auto. intros j Hj. specialize (H j (or_intror Hj)). cbn in H.
      destruct (String.eqb_spec j k) as [Ej|Ej]; [subst; contradiction|exact H].
Qed.

(** ** Simple facts *)
Lemma st_accept_none O s w : st_accept O s VNone = Ok w -> w = VNone.
Proof. destruct s; cbn; congruence. Qed.
Lemma type_accept_none O E t w : type_accept O E t VNone = Ok w -> w = VNone.
Proof.
  destruct t; cbn; [apply st_accept_none|]. unfold complex_accept. intros H.
  apply bind_ok in H as (d & _ & H). destruct (cd_kind d); congruence.
Qed.
Lemma list_max_in l x : In x l -> (x <= list_max l)%nat.
Proof.
  intros H. pose proof (list_max_le l (list_max l)) as [A _]. specialize (A (le_n _)).
  rewrite Forall_forall in A. auto.
Qed.
Lemma vdepth_field c xe fs name v : assoc name fs = Some v -> (vdepth v < vdepth (VObj c xe fs))%nat.
Proof.
  intros H. cbn. apply le_n_S. apply list_max_in. apply in_map_iff. exists (name, v). split; auto.
  induction fs as [|[k w] fs IH]; [discriminate|]. cbn in H. destruct (String.eqb_spec name k).
  - injection H as ->. subst. now left.
  - right. auto.
Qed.
Lemma vdepth_item t l v : In v l -> (vdepth v <= vdepth (VList t l))%nat.
Proof. intros H. cbn. apply list_max_in. now apply in_map. Qed.

Lemma FOP_app {A} (R : A -> A -> Prop) l1 l2 : ForallOrdPairs R (l1 ++ l2) ->
  ForallOrdPairs R l1 /\ ForallOrdPairs R l2 /\ forall x y, In x l1 -> In y l2 -> R x y.
Proof.
  induction l1 as [|a l1 IH]; cbn; intros H.
  - repeat split; auto; [constructor|easy].
  - inversion H as [|? ? H1 H2]; subst. destruct (IH H2) as (A1 & A2 & A3).
    rewrite Forall_app in H1. destruct H1 as [H1 H1']. repeat split; auto; [constructor; auto|].
    intros x y [<-|Hx] Hy; auto. rewrite Forall_forall in H1'. auto.
Qed.
Lemma distinct_sym f g : distinct_fields f g -> distinct_fields g f.
Proof.
  intros [A B]. split.
  - intros H1 H2 H. now apply (A H2 H1).
  - intros H1 H2. destruct (B H2 H1). auto.
Qed.

(** [flat_fields] is functional. *)
Fixpoint flat_fields_fun E c L (H : flat_fields E c L) {struct H} : forall L', flat_fields E c L' -> L = L'.
Proof.
  destruct H as [c d blocks Hd F]. intros L' H'. inversion H' as [? d' blocks' Hd' F']; subst.
  rewrite Hd in Hd'. injection Hd' as <-. f_equal. clear Hd H'. revert blocks' F'.
  induction F as [|f b fs bs Hf F IH]; intros blocks' F'; inversion F' as [|? b' ? bs' Hf' F2]; subst; auto.
  f_equal; auto. clear IH F F' F2.
  destruct Hf as [f G|f ct l G T FL].
  - inversion Hf'; subst; congruence.
  - inversion Hf' as [|? ct' ? G' T' FL']; subst; [congruence|]. rewrite T in T'. injection T' as <-.
    exact (flat_fields_fun E ct l FL b' FL').
Qed.

Lemma leaf_attr O s v : leaf_ok O s v -> attr_ok O s v.
Proof. intros (N1 & N2 & text & X & _ & H). repeat split; auto. now exists text. Qed.

Section Round.
  Variable O : oracle.
  Variable E : env.
  Variable P : string -> Prop.
  Hypothesis HP : rt_classes O E P.

  (** [x] contains, for the fields in [L], what was written. *)
  Definition contains (L : list field) (x : node) (ws : list (string * string)) (ks : list node) : Prop :=
    (forall f, In f L -> is_attr f = true -> el_get x (f_name f) = assoc (f_name f) ws) /\
    (forall f, In f L -> is_plain f = true ->
       filter (belongs f) (el_kids x) = filter (belongs f) ks) /\
    existsb is_pi (el_kids x) = false /\ el_get x xsi_nil = None.

  (** What is written for the fields in [L]. *)
  Definition written (L : list field) (ws : list (string * string)) (ks : list node) : Prop :=
    NoDup (map fst ws) /\
    Forall (fun w => exists f, In f L /\ is_attr f = true /\ fst w = f_name f /\ ncname_ok (fst w) = true) ws /\
    Forall (fun k => exists f, In f L /\ is_plain f = true /\ elem_of f k /\ tidy E (f_type f) k) ks.

  Definition RT (n : nat) : Prop := forall c v ns efd L, P c -> rt_typed O E (TComplex c) v ->
    (vdepth v <= n)%nat -> ns_good ns -> flat_fields E c L ->
    exists ws ks, written L ws ks /\
      (forall t a k, (forall w, In w (map fst ws) -> ~ In w (map fst a)) ->
         render_obj n O E c (Elem t a k) v ns efd = Ok (Elem t (a ++ ws) (k ++ ks))) /\
      (forall x, contains L x ws ks -> exists xe' fs', parse_obj n O E c x = Ok (VObj c xe' fs') /\
         erase (VObj c xe' fs') = erase v).

  Lemma written_no_nil L ws ks : written L ws ks -> assoc xsi_nil ws = None.
  Proof.
    intros (_ & W & _). apply assoc_none. intros H. apply in_map_iff in H as ([k v] & Hk & Hi).
    cbn in Hk. subst k. rewrite Forall_forall in W. destruct (W _ Hi) as (f & _ & _ & _ & N). discriminate N.
  Qed.
  Lemma written_elems L ws ks : written L ws ks ->
    Forall (fun x => exists t a k, x = Elem t a k /\ wire x = x) ks.
  Proof.
    intros (_ & _ & K). eapply Forall_impl; [|exact K]. intros x (f & _ & _ & (t & a & k & -> & _ & W) & _). eauto.
  Qed.
  Lemma elems_no_pi ks : Forall (fun x => exists t a k, x = Elem t a k /\ wire x = x) ks -> existsb is_pi ks = false.
  Proof. induction 1 as [|x l (t & a & k & -> & _) H IH]; auto. Qed.

  (** *** Shape of what is written *)
  Lemma rt_level c c' : P c -> level E c c' -> P c'.
  Proof.
    intros Pc Hl. revert Pc. induction Hl as [c|c d f ct c' Hd Hf Gf Ft Hl IH]; intros Pc; [exact Pc|]. apply IH.
    destruct (HP c Pc) as (d' & L & Hcd & _ & _ & _ & _ & _ & _ & HG & _). rewrite Hd in Hcd. injection Hcd as <-.
    destruct (HG f Hf) as (_ & _ & G). unfold is_group in Gf. destruct (f_kind f); try discriminate; try contradiction.
    destruct G as (ct' & dg & Ft' & Pct & _). congruence.
  Qed.
  Lemma rt_ordinary c : P c -> ordinary E c.
  Proof.
    intros Pc c' d' Hl Hd'. pose proof (rt_level _ _ Pc Hl) as Pc'.
    destruct (HP c' Pc') as (d & L & Hcd & _ & Hi & _ & _ & _ & _ & HG & _). rewrite Hd' in Hcd. injection Hcd as <-.
    split; auto. intros f Hf Gf. destruct (HG f Hf) as (_ & _ & G).
    unfold is_group in Gf. destruct (f_kind f); try discriminate; try contradiction. destruct G as (ct & dg & Ft & _). eauto.
  Qed.
  Lemma flat_level c c' : level E c c' -> forall L, flat_fields E c L -> forall d' f, e_cls E c' = Some d' ->
    In f (cd_fields d') -> is_plain f = true -> In f L.
  Proof.
    assert (Pk : forall F blocks g Lg, Forall2 (flat_one E) F blocks -> In g F -> flat_one E g Lg -> incl Lg (concat blocks)).
    { intros F blocks g Lg F2. induction F2 as [|h Lh F blocks Hh F2 IHf]; [easy|]. intros [->|Hg] FO; cbn.
      - assert (Lg = Lh); [|subst; now apply incl_appl, incl_refl].
        inversion FO; inversion Hh; subst; try congruence.
        assert (ct = ct0) by congruence. subst. eapply flat_fields_fun; eauto.
      - apply incl_appr. auto. }
    intros Hl. induction Hl as [c|c d g ct c' Hd Hg Gg Ft Hl IH]; intros L FL d' f Hd' Hf Pf.
    - inversion FL as [? d blocks Hcd F2]; subst. rewrite Hd' in Hcd. injection Hcd as <-.
      apply (Pk _ _ f [f] F2 Hf); [|now left]. apply fl_own. unfold is_plain in Pf. destruct (is_group f); auto.
      rewrite andb_false_r in Pf. discriminate.
    - inversion FL as [? d0 blocks Hcd F2]; subst. rewrite Hd in Hcd. injection Hcd as <-.
      assert (exists Lg, flat_one E g Lg) as [Lg FO].
      { clear - F2 Hg. induction F2; [easy|]. destruct Hg as [->|Hg]; eauto. }
      apply (Pk _ _ g Lg F2 Hg FO). inversion FO; subst; [congruence|].
      assert (ct0 = ct) by congruence. subst. eapply IH; eauto.
  Qed.
  Lemma distinct_pick L f g : ForallOrdPairs distinct_fields L -> In f L -> In g L -> f = g \/ distinct_fields f g.
  Proof.
    induction 1 as [|h L H HO IH]; [easy|]. rewrite Forall_forall in H.
    intros [->|Hf] [->|Hg]; auto. right. now apply distinct_sym, H.
  Qed.
  Lemma written_tidy c L t a ws ks : P c -> flat_fields E c L -> ForallOrdPairs distinct_fields L ->
    written L ws ks -> tidy E (TComplex c) (Elem t a ks).
  Proof.
    intros Pc FL FO (_ & _ & K). apply td_complex; [now apply rt_ordinary|].
    intros y f Hy (c' & d' & Hl & Hd' & Hf & Pf) B. rewrite Forall_forall in K.
    destruct (K y Hy) as (g & Hg & Pg & Ey & Ty).
    pose proof (flat_level c c' Hl L FL d' f Hd' Hf Pf) as HfL.
    destruct (distinct_pick L g f FO Hg HfL) as [->|[_ D]]; auto.
    destruct (D Pg Pf) as [D1 _]. rewrite (elem_of_other g f y D1 Ey) in B. discriminate.
  Qed.

  (** *** The content of an element *)
  Lemma content_rt n f ns efd tag v : RT n ->
    (forall c, f_type f = TComplex c -> P c) -> rt_typed O E (f_type f) v -> v <> VNone -> v <> VNil ->
    (vdepth v <= n)%nat -> ns_good ns ->
    exists x, render_type O (render_obj n O E) (f_type f) (Elem tag [] []) v ns efd = Ok x /\
      (exists a k, x = Elem tag a k) /\ wire x = x /\ tidy E (f_type f) x /\ el_get x xsi_nil = None /\
      exists v', parse_type O (parse_obj n O E) (f_type f) x = Ok v' /\
        type_accept O E (f_type f) v' = Ok v' /\ erase v' = erase v /\ v' <> VNil.
  Proof.
    intros IH HPf Hv N1 N2 Hd Hns. destruct (f_type f) as [s|c] eqn:Ft.
    - inversion Hv as [? ? (_ & _ & text & X & Ne & TX & PV & A)|]; subst.
      assert (W : String.eqb text "" = false) by now apply String.eqb_neq.
      exists (Elem tag (simple_attrs s) [Text text]). cbn [render_type parse_type type_accept].
      repeat split.
      + unfold render_simple. rewrite X. cbn [bind set_text_val el_set_text]. rewrite TX. cbn [bind].
        destruct s; reflexivity.
      + eauto.
      + cbn. now rewrite W.
      + apply td_simple. right. eauto.
      + destruct s; reflexivity.
      + cbn [el_text el_kids lead_text]. exists v. auto.
    - assert (Pc : P c) by (apply HPf; auto).
      destruct (HP c Pc) as (d & L & Hcd & Kd & Id & Mro & _ & ND & _ & _ & FL & FO).
      destruct (IH c v ns efd L Pc Hv Hd Hns FL) as (ws & ks & W & R & Q).
      exists (Elem tag ws ks). cbn [render_type parse_type type_accept].
      pose proof (written_elems _ _ _ W) as WE.
      split; [apply (R tag [] []); intros w _ []|].
      split; [eauto|]. split; [cbn; now rewrite wire_elems|].
      split; [eapply written_tidy; eauto|].
      split; [exact (written_no_nil _ _ _ W)|].
      destruct (Q (Elem tag ws ks)) as (xe' & fs' & Pq & Eq).
      { repeat split; auto.
        - cbn. now apply elems_no_pi.
        - exact (written_no_nil _ _ _ W). }
      exists (VObj c xe' fs'). repeat split; auto; try discriminate.
      unfold complex_accept, get_class. rewrite Hcd. cbn [bind].
      assert (I : is_instance E (VObj c xe' fs') c = true).
      { cbn. rewrite Hcd. now apply str_in_spec. }
      rewrite I. destruct (cd_kind d); auto.
  Qed.

  (** One element of field [f]. *)
  Lemma item_rt n f ns efd v : RT n ->
    (forall c, f_type f = TComplex c -> P c) ->
    (v = VNil /\ f_nillable f = true \/ v <> VNone /\ v <> VNil /\ rt_typed O E (f_type f) v) ->
    (vdepth v <= n)%nat -> ns_good ns -> ns_good (f_ns f) -> ncname_ok (out_name f) = true ->
    exists x, (x0 <- mk_element (qualify (eff_ns f ns) efd (out_name f)) ;;
       match v with
       | VNil => el_set x0 xsi_nil "true"
       | _ => render_type O (render_obj n O E) (f_type f) x0 v (eff_ns f ns) efd
       end) = Ok x /\ (elem_of f x /\ tidy E (f_type f) x) /\
      (v = VNil /\ el_get x xsi_nil = Some "true"%string \/
       v <> VNil /\ el_get x xsi_nil = None /\
       exists v', parse_type O (parse_obj n O E) (f_type f) x = Ok v' /\
        type_accept O E (f_type f) v' = Ok v' /\ erase v' = erase v /\ v' <> VNil).
  Proof.
    intros IH HPf Hv Hd Hns Hfns N. unfold mk_element. rewrite norm_qualify by auto. cbn [bind].
    assert (LN := local_elem_tag f ns efd _ N Hns Hfns).
    destruct Hv as [[-> Nl]|(N1 & N2 & Hv)].
    - eexists. split; [reflexivity|]. split; [|left; split; reflexivity].
      split.
      + do 3 eexists. split; [reflexivity|]. split; auto.
      + cbn. destruct (f_type f) as [s|c]; [apply td_simple; auto|].
        apply td_complex; [now apply (rt_ordinary c), HPf|intros y g []].
    - assert (G : ns_good (eff_ns f ns)) by (unfold eff_ns; destruct (f_ns f); auto).
      destruct (content_rt n f (eff_ns f ns) efd (elem_tag f ns efd (out_name f)) v IH HPf Hv N1 N2 Hd G)
        as (x & R & (a & k & ->) & W & Td & Gn & Q).
      eexists. split; [destruct v; try congruence; exact R|]. split.
      + split; auto. exists (elem_tag f ns efd (out_name f)), a, k. auto.
      + right. auto.
  Qed.

  (** *** One field *)
  Definition step (n : nat) (F : list field) (x : node) (fs : list (string * pyval)) (f : field) :=
    if is_plain f then
      subs <- find_sub f (el_children x) ;;
      foldM (fun fs s => parse_field O E (parse_obj n O E) F f fs s) fs subs
    else parse_field O E (parse_obj n O E) F f fs x.

  Definition init_ok (f : field) (o : option pyval) : Prop :=
    (f_kind f = KElement -> f_default f = VNone -> o = Some VNone) /\
    (f_kind f = KList -> o = Some (VList true [])).

  Definition FieldRT (n : nat) (F : list field) (f : field) (v : pyval) (Lf : list field)
      (ns efd : option string) (ws : list (string * string)) (ks : list node) : Prop :=
    written Lf ws ks /\
    (forall t a k, (forall w, In w (map fst ws) -> ~ In w (map fst a)) ->
       render_field O E (render_obj n O E) f (Elem t a k) v ns efd = Ok (Elem t (a ++ ws) (k ++ ks))) /\
    (forall x fs, contains Lf x ws ks -> find_field F (f_name f) = Ok f ->
       init_ok f (assoc (f_name f) fs) ->
       exists w, step n F x fs f = Ok (assoc_set (f_name f) w fs) /\ erase w = erase v).

  Lemma find_sub_contains f x ws ks : is_plain f = true -> contains [f] x ws ks ->
    (f_kind f = KList -> exists t, f_tag f = Some t) -> Forall (elem_of f) ks ->
    find_sub f (el_children x) = Ok ks.
  Proof.
    intros Pf (_ & K & Pi & _) HT HF. rewrite find_sub_kids, Pi, (K f); auto; [|now left].
    f_equal. clear K. induction HF as [|y l Hy HF IH]; auto. cbn.
    rewrite (elem_of_belongs f y Pf HT Hy). now rewrite IH.
  Qed.

  Lemma append_fresh (a ws : list (string * string)) : (forall w, In w (map fst ws) -> ~ In w (map fst a)) ->
    forall k v, ws = [(k, v)] -> assoc_set k v a = a ++ ws.
  Proof.
    intros H k v ->. specialize (H k (or_introl eq_refl)). induction a as [|[k' v'] a IH]; auto. cbn in *.
    destruct (String.eqb_spec k k') as [->|]; [tauto|]. rewrite IH; auto.
  Qed.

  Lemma field_rt n F f v Lf ns efd : RT n -> field_good E P f -> rt_field O E f v ->
    (vdepth v <= n)%nat -> ns_good ns -> flat_one E f Lf ->
    exists ws ks, FieldRT n F f v Lf ns efd ws ks.
  Proof.
    intros IH (N & Gns & G) Hv Hd Hns FL.
    assert (EL : f_kind f = KElement -> is_plain f = true /\ is_attr f = false /\ Lf = [f]).
    { intros K. assert (is_group f = false) by (unfold is_group; now rewrite K).
      assert (is_attr f = false) by (unfold is_attr; now rewrite K).
      inversion FL; subst; [|congruence]. unfold is_plain. rewrite H, H0. auto. }
    destruct Hv as [f K Df|f K Nl|f v K N1 N2 Hv|f s K Ft Mn Df Pv|f s v K Ft Hl|f items K Mn Mx Hi|f ct v K Ft Hv].
    - (* no element *)
      destruct (EL K) as (Pf & Af & ->). rewrite K in G.
      exists [], []. repeat split; try constructor.
      + intros t a k _. unfold render_field. rewrite K. cbn. now rewrite !app_nil_r.
      + intros x fs C FF [I _]. exists VNone. split; auto. unfold step. rewrite Pf.
        rewrite (find_sub_contains f x [] []); auto; [|congruence]. cbn.
        now rewrite assoc_set_id by auto.
    - (* NIL *)
      destruct (EL K) as (Pf & Af & ->). rewrite K in G.
      destruct (item_rt n f ns efd VNil IH G ltac:(auto) ltac:(cbn; lia) Hns Gns N) as (x0 & R & [Ex Et] & Q).
      destruct Q as [[_ Q]|[[] _]]; [|reflexivity].
      assert (On : out_name f = tag_or_name f) by (unfold out_name; now rewrite K).
      exists [], [x0]. split; [|split].
      + repeat split; try constructor; auto. exists f. split; [now left|auto].
      + intros t a k _. unfold render_field. rewrite K. cbn [render_element]. rewrite On in R.
        apply bind_ok in R as (y & Y1 & Y2). rewrite Y1. cbn [bind]. rewrite Y2. cbn. now rewrite app_nil_r.
      + intros x fs C FF _. exists VNil. split; auto. unfold step. rewrite Pf.
        rewrite (find_sub_contains f x [] [x0]); auto; [|congruence]. cbn [bind foldM].
        unfold parse_field. rewrite K, Q. cbn [String.eqb Ascii.eqb Bool.eqb bind].
        unfold setattr. rewrite FF. cbn [bind]. unfold field_accept. rewrite K, Nl. reflexivity.
    - (* element *)
      destruct (EL K) as (Pf & Af & ->). rewrite K in G.
      destruct (item_rt n f ns efd v IH G ltac:(auto) Hd Hns Gns N) as (x0 & R & [Ex Et] & Q).
      destruct Q as [[-> _]|(_ & Qn & v' & Q1 & Q2 & Q3 & Q4)]; [congruence|].
      assert (On : out_name f = tag_or_name f) by (unfold out_name; now rewrite K).
      exists [], [x0]. split; [|split].
      + repeat split; try constructor; auto. exists f. split; [now left|auto].
      + intros t a k _. unfold render_field. rewrite K. unfold render_element. rewrite On in R.
        apply bind_ok in R as (y & Y1 & Y2).
        assert (Z : (x1 <- mk_element (qualify (eff_ns f ns) efd (tag_or_name f)) ;;
             x' <- match v with
                   | VNil => el_set x1 xsi_nil "true"
                   | _ => render_type O (render_obj n O E) (f_type f) x1 v (eff_ns f ns) efd
                   end ;; Ok (el_append (Elem t a k) x')) = Ok (Elem t (a ++ []) (k ++ [x0]))).
        { rewrite Y1. cbn [bind]. rewrite Y2. cbn. now rewrite app_nil_r. }
        destruct v; try congruence; exact Z.
      + intros x fs C FF _. exists v'. split; auto. unfold step. rewrite Pf.
        rewrite (find_sub_contains f x [] [x0]); auto; [|congruence]. cbn [bind foldM].
        unfold parse_field. rewrite K, Qn. cbn [bind]. rewrite Q1. cbn [bind].
        unfold setattr. rewrite FF. cbn [bind]. unfold field_accept. rewrite K.
        destruct v'; try congruence; rewrite Q2; reflexivity.
    - (* absent attribute *)
      assert (Af : is_attr f = true) by (unfold is_attr; now rewrite K).
      assert (Pf : is_plain f = false) by (unfold is_plain; now rewrite Af).
      assert (Gf : is_group f = false) by (unfold is_group; now rewrite K).
      inversion FL; subst; [|congruence]. rewrite K in G.
      exists [], []. repeat split; try constructor.
      + intros t a k _. unfold render_field. rewrite K. cbn. rewrite Mn. now rewrite !app_nil_r.
      + intros x fs (C & _) FF _. exists VNone. split; auto. unfold step. rewrite Pf.
        unfold parse_field. rewrite K, (C f (or_introl eq_refl) Af). cbn [assoc]. rewrite Ft, Df, Pv. cbn [bind].
        unfold setattr. rewrite FF. cbn [bind]. unfold field_accept. rewrite K, Ft. cbn [type_accept].
        destruct (st_accept O s VNone) as [w|e] eqn:A.
        * now rewrite (st_accept_none _ _ _ A).
        * exfalso. destruct s; cbn in A, Pv; discriminate.
    - (* attribute *)
      assert (Af : is_attr f = true) by (unfold is_attr; now rewrite K).
      assert (Pf : is_plain f = false) by (unfold is_plain; now rewrite Af).
      assert (Gf : is_group f = false) by (unfold is_group; now rewrite K).
      inversion FL; subst; [|congruence]. rewrite K in G.
      destruct Hl as (N1 & N2 & text & X & TX & PV & A).
      assert (On : out_name f = f_name f) by (unfold out_name; now rewrite K). rewrite On in N.
      exists [(f_name f, text)], []. split; [|split].
      + repeat split; try constructor; auto; try constructor.
        exists f. repeat split; auto. now left.
      + intros t a k Dj. unfold render_field. rewrite K, G. unfold render_attribute.
        assert (Z : match f_type f with
           | TSimple s => x <- st_xmlvalue O s v ;; set_attr_val (Elem t a k) (f_name f) x
           | TComplex _ => Err AttributeError end = Ok (Elem t (a ++ [(f_name f, text)]) (k ++ []))).
        { rewrite Ft, X. cbn [bind set_attr_val]. unfold el_set. rewrite norm_plain by auto. cbn [bind].
          rewrite TX, app_nil_r. now rewrite (append_fresh a _ Dj _ _ eq_refl). }
        destruct v; try congruence; exact Z.
      + intros x fs (C & _) FF _. exists v. split; auto. unfold step. rewrite Pf.
        unfold parse_field. rewrite K, (C f (or_introl eq_refl) Af). cbn [assoc]. rewrite String.eqb_refl, Ft, PV.
        cbn [bind]. unfold setattr. rewrite FF. cbn [bind]. unfold field_accept. rewrite K, Ft. cbn [type_accept].
        destruct v; try congruence; rewrite A; reflexivity.
    - (* list *)
      assert (Af : is_attr f = false) by (unfold is_attr; now rewrite K).
      assert (Gf : is_group f = false) by (unfold is_group; now rewrite K).
      assert (Pf : is_plain f = true) by (unfold is_plain; now rewrite Af, Gf).
      inversion FL; subst; [|congruence]. rewrite K in G. destruct G as [HT G].
      assert (HI : exists ks, (Forall (elem_of f) ks /\ Forall (tidy E (f_type f)) ks) /\
        (forall t a k, foldM (fun p item =>
                     x <- mk_element (qualify (eff_ns f ns) efd (out_name f)) ;;
                     x' <- (match item with
                            | VNil => el_set x xsi_nil "true"
                            | _ => render_type O (render_obj n O E) (f_type f) x item (eff_ns f ns) efd
                            end) ;;
                     Ok (el_append p x')) (Elem t a k) items = Ok (Elem t a (k ++ ks))) /\
        (forall fs l, find_field F (f_name f) = Ok f -> assoc (f_name f) fs = Some (VList true l) ->
           (forall m, f_max f = OInt m -> Z.of_nat (length l + length items) <= m) ->
           exists l', foldM (fun fs s => parse_field O E (parse_obj n O E) F f fs s) fs ks
              = Ok (assoc_set (f_name f) (VList true (l ++ l')) fs) /\ map erase l' = map erase items)).
      { assert (Hd' : forall v, In v items -> (vdepth v <= n)%nat).
        { intros v Hv. pose proof (vdepth_item true items v Hv). lia. }
        clear Mn Mx Hd. induction Hi as [|v items Hv Hi IHi].
        - exists []. split; [split; constructor|]. split.
          + intros. cbn. now rewrite app_nil_r.
          + intros fs l _ Ha _. exists []. cbn. rewrite app_nil_r. split; auto.
            now rewrite assoc_set_id.
        - destruct (item_rt n f ns efd v IH G Hv ltac:(auto with datatypes) Hns Gns N) as (x0 & R & [Ex Et] & Q).
          destruct (IHi ltac:(auto with datatypes)) as (ks & [K1 K1'] & K2 & K3).
          apply bind_ok in R as (y & Y1 & Y2).
          exists (x0 :: ks). split; [split; constructor; auto|]. split.
          + intros t a k. cbn [foldM].
            match goal with |- bind ?A _ = _ => assert (SA : A = Ok (Elem t a (k ++ [x0])))
              by (rewrite Y1; cbn [bind]; rewrite Y2; reflexivity) end.
            rewrite SA. cbn [bind]. rewrite K2. now rewrite <- app_assoc.
          + intros fs l FF Ha Hm. cbn [foldM].
            assert (Hx : forall m, f_max f = OInt m -> Z.of_nat (length l) + 1 <= m).
            { intros m Em. specialize (Hm m Em). cbn in Hm. lia. }
            assert (EX : exceeds (Z.of_nat (length l) + 1) (f_max f) = false).
            { unfold exceeds. destruct (f_max f); auto. specialize (Hx z eq_refl). lia. }
            assert (S1 : exists w, parse_field O E (parse_obj n O E) F f fs x0
                           = Ok (assoc_set (f_name f) (VList true (l ++ [w])) fs) /\ erase w = erase v).
            { unfold parse_field. rewrite K. destruct Q as [[-> Qn]|(Nv & Qn & v' & Q1 & Q2 & Q3 & Q4)].
              - exists VNil. rewrite Qn. cbn [truthy_str bind]. unfold getattr. rewrite Ha. cbn [bind].
                destruct Hv as [[_ Nl]|(_ & [] & _)]; [|reflexivity].
                unfold tl_append. rewrite Nl. cbn [bind]. rewrite EX. auto.
              - exists v'. rewrite Qn. cbn [truthy_str bind]. rewrite Q1. cbn [bind].
                unfold getattr. rewrite Ha. cbn [bind]. unfold tl_append.
                assert (Z : match v' with VNil => if f_nillable f then Ok VNil else Err ValueError
                            | _ => type_accept O E (f_type f) v' end = Ok v')
                  by (destruct v'; try congruence; exact Q2).
                rewrite Z. cbn [bind]. rewrite EX. auto. }
            destruct S1 as (w & S1 & Ew). rewrite S1. cbn [bind].
            destruct (K3 (assoc_set (f_name f) (VList true (l ++ [w])) fs) (l ++ [w]) FF) as (l' & L1 & L2).
            * apply assoc_set_same.
            * intros m Em. specialize (Hm m Em). rewrite app_length. cbn in *. lia.
            * exists (w :: l'). rewrite L1, assoc_set_twice, <- app_assoc. split; auto. cbn. congruence. }
      destruct HI as (ks & [K1 K1'] & K2 & K3).
      exists [], ks. split; [|split].
      + repeat split; try constructor. rewrite Forall_forall in *. intros y Hy. exists f.
        split; [now left|auto].
      + intros t a k _. unfold render_field. rewrite K. unfold render_list.
        assert (B1 : match f_min f with Some m => negb (m =? 0) && (Z.of_nat (length items) <? m) | None => false end%bool = false).
        { destruct (f_min f) as [m|]; auto. specialize (Mn m eq_refl). lia. }
        assert (B2 : match f_max f with OInt m => negb (m =? 0) && (m <? Z.of_nat (length items)) | _ => false end%bool = false).
        { destruct (f_max f) as [|m|]; auto. specialize (Mx m eq_refl). lia. }
        rewrite B1, B2. destruct HT as [tg HT]. rewrite HT.
        assert (On : out_name f = tg) by (unfold out_name; now rewrite K, HT). rewrite On in K2.
        rewrite app_nil_r. apply K2.
      + intros x fs C FF [_ I]. unfold step. rewrite Pf.
        rewrite (find_sub_contains f x [] ks); auto. cbn [bind].
        destruct (K3 fs [] FF (I K)) as (l' & L1 & L2).
        { intros m Em. specialize (Mx m Em). exact Mx. }
        exists (VList true l'). split; auto. cbn. now rewrite L2.
    - (* group *)
      assert (Af : is_attr f = false) by (unfold is_attr; now rewrite K).
      assert (Gf : is_group f = true) by (unfold is_group; now rewrite K).
      assert (Pf : is_plain f = false) by (unfold is_plain; now rewrite Af, Gf).
      inversion FL as [|? ct' ? _ Ft' FL']; subst; [congruence|]. rewrite Ft in Ft'. injection Ft' as <-.
      rewrite K in G. destruct G as (ct' & dg & Ft' & Pct & Hdg & Kg). rewrite Ft in Ft'. injection Ft' as <-.
      destruct (IH ct v ns efd Lf Pct Hv Hd Hns FL') as (ws & ks & W & R & Q).
      exists ws, ks. split; auto. inversion Hv as [|? d' xe fs0 Hd' Hk Hf]; subst.
      rewrite Hdg in Hd'. injection Hd' as <-. split.
      + intros t a k Dj. unfold render_field. rewrite K. unfold render_ref.
        assert (Z : is_group_obj E (VObj ct xe fs0) = true) by (cbn; now rewrite Hdg, Kg).
        rewrite Z, Ft. cbn [render_type]. now apply R.
      + intros x fs C FF _. destruct (Q x C) as (xe' & fs' & P1 & P2).
        exists (VObj ct xe' fs'). split; auto. unfold step. rewrite Pf. unfold parse_field. rewrite K.
        destruct C as (_ & _ & _ & Nn). rewrite Nn. cbn [bind]. rewrite Ft. cbn [parse_type]. rewrite P1. cbn [bind].
        unfold setattr. rewrite FF. cbn [bind]. unfold field_accept. rewrite K, Ft. cbn [type_accept].
        unfold complex_accept, get_class. rewrite Hdg. cbn [bind].
        destruct (HP ct Pct) as (d2 & L2 & Hd2 & _ & _ & Mro & _). rewrite Hdg in Hd2. injection Hd2 as <-.
        assert (I : is_instance E (VObj ct xe' fs') ct = true).
        { cbn. rewrite Hdg. now apply str_in_spec. }
        rewrite I, Kg. reflexivity.
  Qed.

  (** *** All fields of an object *)
  Lemma written_app L1 L2 ws1 ws2 ks1 ks2 : written L1 ws1 ks1 -> written L2 ws2 ks2 ->
    (forall f g, In f L1 -> In g L2 -> distinct_fields f g) ->
    written (L1 ++ L2) (ws1 ++ ws2) (ks1 ++ ks2) /\
    (forall w, In w (map fst ws1) -> ~ In w (map fst ws2)).
  Proof.
    intros (N1 & W1 & K1) (N2 & W2 & K2) D.
    assert (Dj : forall w, In w (map fst ws1) -> ~ In w (map fst ws2)).
    { intros w H1 H2. apply in_map_iff in H1 as ([k1 v1] & E1 & H1). apply in_map_iff in H2 as ([k2 v2] & E2 & H2).
      cbn in *. subst k1 k2. rewrite Forall_forall in W1, W2.
      destruct (W1 _ H1) as (f & F1 & A1 & Q1 & _). destruct (W2 _ H2) as (g & F2 & A2 & Q2 & _). cbn in *.
      destruct (D f g F1 F2) as [X _]. apply X; auto. congruence. }
    split; auto. repeat split.
    - rewrite map_app. apply NoDup_app_intro; auto.
    - apply Forall_app. split; [eapply Forall_impl; [|exact W1]|eapply Forall_impl; [|exact W2]]; cbn;
        intros w (f & Hf & R); exists f; split; auto; apply in_or_app; auto.
    - apply Forall_app. split; [eapply Forall_impl; [|exact K1]|eapply Forall_impl; [|exact K2]]; cbn;
        intros w (f & Hf & R); exists f; split; auto; apply in_or_app; auto.
  Qed.

  Lemma filter_none {A} (p : A -> bool) l : Forall (fun x => p x = false) l -> filter p l = [].
  Proof. induction 1 as [|x l H HF IH]; auto. cbn. now rewrite H. Qed.

  Lemma contains_app L1 L2 x ws1 ws2 ks1 ks2 : written L1 ws1 ks1 -> written L2 ws2 ks2 ->
    (forall f g, In f L1 -> In g L2 -> distinct_fields f g) ->
    contains (L1 ++ L2) x (ws1 ++ ws2) (ks1 ++ ks2) ->
    contains L1 x ws1 ks1 /\ contains L2 x ws2 ks2.
  Proof.
    intros (N1 & W1 & K1) (N2 & W2 & K2) D (CA & CK & CP & CN).
    split; (split; [|split; [|split; auto]]).
    - intros f Hf Af. rewrite (CA f) by (auto; apply in_or_app; auto). rewrite assoc_app.
      destruct (assoc (f_name f) ws1) eqn:A1; auto. apply assoc_none. intros H.
      apply in_map_iff in H as ([k v] & Ek & H). cbn in Ek. subst k.
      rewrite Forall_forall in W2. destruct (W2 _ H) as (g & Hg & Ag & Q & _). cbn in Q.
      destruct (D f g Hf Hg) as [X _]. now apply X.
    - intros f Hf Pf. rewrite (CK f) by (auto; apply in_or_app; auto). rewrite filter_app.
      rewrite (filter_none _ ks2), app_nil_r; auto. eapply Forall_impl; [|exact K2].
      intros y (g & Hg & Pg & Ey & _). apply (elem_of_other g); auto. destruct (D f g Hf Hg) as [_ X].
      apply X; auto.
    - intros f Hf Af. rewrite (CA f) by (auto; apply in_or_app; auto). rewrite assoc_app.
      replace (assoc (f_name f) ws1) with (@None string); auto. symmetry. apply assoc_none. intros H.
      apply in_map_iff in H as ([k v] & Ek & H). cbn in Ek. subst k.
      rewrite Forall_forall in W1. destruct (W1 _ H) as (g & Hg & Ag & Q & _). cbn in Q.
      destruct (D g f Hg Hf) as [X _]. now apply X.
    - intros f Hf Pf. rewrite (CK f) by (auto; apply in_or_app; auto). rewrite filter_app.
      rewrite (filter_none _ ks1); auto. eapply Forall_impl; [|exact K1].
      intros y (g & Hg & Pg & Ey & _). apply (elem_of_other g); auto. destruct (D g f Hg Hf) as [_ X].
      apply X; auto.
  Qed.

  Lemma fields_rt n F0 fs ns efd : RT n -> ns_good ns -> forall F blocks, Forall2 (flat_one E) F blocks ->
    (forall f, In f F -> field_good E P f /\
       exists v, assoc (f_name f) fs = Some v /\ rt_field O E f v /\ (vdepth v <= n)%nat) ->
    ForallOrdPairs distinct_fields (concat blocks) ->
    exists ws ks, written (concat blocks) ws ks /\
      (forall t a k, (forall w, In w (map fst ws) -> ~ In w (map fst a)) ->
        foldM (fun par f => fv <- getattr fs (f_name f) ;; render_field O E (render_obj n O E) f par fv ns efd)
          (Elem t a k) F = Ok (Elem t (a ++ ws) (k ++ ks))) /\
      (forall x, contains (concat blocks) x ws ks -> forall f fs1, In f F -> find_field F0 (f_name f) = Ok f ->
         init_ok f (assoc (f_name f) fs1) ->
         exists w v, assoc (f_name f) fs = Some v /\ step n F0 x fs1 f = Ok (assoc_set (f_name f) w fs1) /\
           erase w = erase v).
  Proof.
    intros IH Hns. induction 1 as [|f Lf F blocks Hf HF IHF]; intros HG HO.
    - exists [], []. split; [repeat split; constructor|]. split.
      + intros t a k _. cbn. now rewrite !app_nil_r.
      + intros x _ f fs1 [].
    - cbn [concat] in *. apply FOP_app in HO as (O1 & O2 & OX).
      destruct (IHF ltac:(auto with datatypes) O2) as (ws2 & ks2 & W2 & R2 & P2). clear IHF.
      destruct (HG f (or_introl eq_refl)) as (Gf & v & Av & Hv & Dv).
      destruct (field_rt n F0 f v Lf ns efd IH Gf Hv Dv Hns Hf) as (ws1 & ks1 & W1 & R1 & P1).
      destruct (written_app _ _ _ _ _ _ W1 W2 OX) as [W Dj].
      exists (ws1 ++ ws2), (ks1 ++ ks2). split; auto. split.
      + intros t a k Da. cbn [foldM]. unfold getattr at 1. rewrite Av. cbn [bind].
        rewrite R1.
        * cbn [bind]. rewrite R2.
          -- now rewrite !app_assoc.
          -- intros w H2 H. rewrite map_app in H. apply in_app_or in H as [H|H].
             ++ apply (Da w); auto. rewrite map_app. apply in_or_app. auto.
             ++ exact (Dj w H H2).
        * intros w H1. apply Da. rewrite map_app. apply in_or_app. auto.
      + intros x C. destruct (contains_app _ _ _ _ _ _ _ W1 W2 OX C) as [C1 C2].
        intros g fs1 [<-|Hg] FF I.
        * destruct (P1 x fs1 C1 FF I) as (w & S & Ew). exists w, v. auto.
        * exact (P2 x C2 g fs1 Hg FF I).
  Qed.

  Lemma NoDup_filter_names (p : field -> bool) F : NoDup (map f_name F) -> NoDup (map f_name (filter p F)).
  Proof.
    induction F as [|f F IH]; cbn; auto. intros ND. inversion ND as [|? ? N1 N2]; subst.
    destruct (p f); auto. cbn. constructor; auto. intros H. apply N1.
    apply in_map_iff in H as (g & Eg & Hg). apply filter_In in Hg as [Hg _]. rewrite <- Eg. now apply in_map.
  Qed.

  (** The fields of an object written in any namespace. *)
  Lemma object_rt n c d xe fs ns1 efd L : RT n -> P c -> e_cls E c = Some d ->
    rt_typed O E (TComplex c) (VObj c xe fs) -> (vdepth (VObj c xe fs) <= S n)%nat -> ns_good ns1 -> flat_fields E c L ->
    exists ws ks, written L ws ks /\
      (forall t a k, (forall w, In w (map fst ws) -> ~ In w (map fst a)) ->
        foldM (fun par f => fv <- getattr fs (f_name f) ;; render_field O E (render_obj n O E) f par fv ns1 efd)
          (Elem t a k) (cd_fields d) = Ok (Elem t (a ++ ws) (k ++ ks))) /\
      (forall x, contains L x ws ks -> exists xe' fs', parse_obj (S n) O E c x = Ok (VObj c xe' fs') /\
         erase (VObj c xe' fs') = erase (VObj c xe fs)).
  Proof.
    intros IH Pc Hcd Hv Hd Gns1 FL.
      inversion Hv as [|? d0 xe0 fs1 Hcd0 Kfs Hf]; subst. rewrite Hcd in Hcd0. injection Hcd0 as <-.
      destruct (HP c Pc) as (d' & L' & Hcd' & Kd & Id & Mro & Gtns & ND & [fs0 Hnew] & HG & FL' & FO).
      rewrite Hcd in Hcd'. injection Hcd' as <-.
      assert (L' = L) by (eapply flat_fields_fun; eauto). subst L'.
      inversion FL as [? d' blocks Hcd' F2]; subst. rewrite Hcd in Hcd'. injection Hcd' as <-.
      assert (HF : forall f, In f (cd_fields d) -> field_good E P f /\
         exists v, assoc (f_name f) fs = Some v /\ rt_field O E f v /\ (vdepth v <= n)%nat).
      { intros f Hin. split; auto. destruct (assoc (f_name f) fs) as [v|] eqn:A.
        - exists v. repeat split; auto. apply (vdepth_field c xe) in A. lia.
        - apply assoc_none in A. destruct A. rewrite Kfs. now apply in_map. }
      destruct (fields_rt n (cd_fields d) fs ns1 efd IH Gns1 _ _ F2 HF FO) as (ws & ks & W & R & Q).
      exists ws, ks. split; auto. split.
      + exact R.
      + intros x C. rewrite parse_obj_S. unfold get_class. rewrite Hcd. cbn [bind]. rewrite Hnew. cbn [bind].
        assert (Hn := Hnew). unfold new_instance in Hn. destruct (e_limit E) as [|lim]; [discriminate|].
        destruct (new_inst_vals _ _ _ _ _ _ Hcd ND Hn) as [K0 V0].
        assert (I0 : forall f, In f (cd_fields d) -> init_ok f (assoc (f_name f) fs0)).
        { intros f Hin. destruct (V0 f Hin) as (ev & w & Ev & Aw & Aw'). split.
          - intros K Df. rewrite Aw'. unfold empty_value in Ev. rewrite K in Ev.
            apply bind_ok in Ev as (i & _ & Ev). injection Ev as <-. rewrite Df in Aw.
            unfold field_accept in Aw. rewrite K in Aw. f_equal. eapply type_accept_none; eauto.
          - intros K. rewrite Aw'. unfold empty_value in Ev. rewrite K in Ev. cbn in Ev. injection Ev as <-.
            unfold field_accept in Aw. rewrite K in Aw. congruence. }
        pose (val := fun f w => exists v, assoc (f_name f) fs = Some v /\ erase w = erase v).
        assert (HS : forall p, (forall f, In f (cd_fields d) -> p f = true -> In f (filter p (cd_fields d)))) by
          (intros p f H1 H2; apply filter_In; auto).
        assert (ST : forall f fs1, In f (cd_fields d) -> map fst fs1 = map f_name (cd_fields d) ->
                  assoc (f_name f) fs1 = assoc (f_name f) fs0 ->
                  exists w, step n (cd_fields d) x fs1 f = Ok (assoc_set (f_name f) w fs1) /\ val f w).
        { intros f fs1 Hin _ Ha.
          destruct (Q x C f fs1 Hin) as (w & v & A & S & Ew).
          - now apply find_field_in.
          - rewrite Ha. auto.
          - exists w. split; auto. exists v. auto. }
        (* attributes *)
        assert (F1 := fold_update (step n (cd_fields d) x) val (map f_name (cd_fields d)) fs0
                  (filter is_attr (cd_fields d)) (NoDup_filter_names _ _ ND)).
        destruct F1 with (fs := fs0) as (fs1 & E1 & K1 & V1 & U1); auto.
        { intros f H. apply filter_In in H as [H _]. now apply in_map. }
        { intros f fs1 H. apply filter_In in H as [H _]. now apply ST. }
        clear F1.
        rewrite (foldM_ext _ (step n (cd_fields d) x)).
        2:{ intros a f H. apply filter_In in H as [H Hp]. unfold step, is_plain. now rewrite Hp. }
        rewrite E1. cbn [bind].
        (* elements *)
        assert (sep : forall (p q : field -> bool) f, (forall g, p g = true -> q g = true -> False) ->
           In f (filter q (cd_fields d)) -> ~ In (f_name f) (map f_name (filter p (cd_fields d)))).
        { intros p q f Hpq Hin H. apply in_map_iff in H as (g & Eg & Hg).
          apply filter_In in Hin as [Hin Hq]. apply filter_In in Hg as [Hg Hp].
          assert (g = f).
          { pose proof (find_field_in _ g ND Hg) as A. pose proof (find_field_in _ f ND Hin) as B.
            rewrite Eg, B in A. congruence. }
          subst g. eauto. }
        assert (F1 := fold_update (step n (cd_fields d) x) val (map f_name (cd_fields d)) fs0
                  (filter is_plain (cd_fields d)) (NoDup_filter_names _ _ ND)).
        destruct F1 with (fs := fs1) as (fs2 & E2 & K2 & V2 & U2); auto.
        { intros f H. apply filter_In in H as [H _]. now apply in_map. }
        { intros f fs2 H. apply filter_In in H as [H _]. now apply ST. }
        { intros f H. rewrite U1; auto. apply (sep is_attr is_plain); auto.
          intros g A B. unfold is_plain in B. rewrite A in B. discriminate. }
        clear F1.
        assert (E2' : match cd_ind d with
           | IChoice => parse_choice O E (parse_obj n O E) (cd_fields d) (filter is_plain (cd_fields d)) fs1 x
           | _ => foldM (fun fs f => subs <- find_sub f (el_children x) ;;
                           foldM (fun fs s => parse_field O E (parse_obj n O E) (cd_fields d) f fs s) fs subs)
                    fs1 (filter is_plain (cd_fields d)) end = Ok fs2).
        { rewrite <- E2. destruct (cd_ind d); try congruence.
          all: apply foldM_ext; intros a f H; apply filter_In in H as [H Hp]; unfold step; now rewrite Hp. }
        rewrite E2'. cbn [bind].
        (* groups *)
        assert (F1 := fold_update (step n (cd_fields d) x) val (map f_name (cd_fields d)) fs0
                  (filter is_group (cd_fields d)) (NoDup_filter_names _ _ ND)).
        destruct F1 with (fs := fs2) as (fs3 & E3 & K3 & V3 & U3); auto.
        { intros f H. apply filter_In in H as [H _]. now apply in_map. }
        { intros f fs3 H. apply filter_In in H as [H _]. now apply ST. }
        { intros f H. rewrite U2, U1; auto.
          - apply (sep is_attr is_group); auto. intros g A B. apply is_group_not_attr in B. congruence.
          - apply (sep is_plain is_group); auto.
            intros g A B. unfold is_plain in A. rewrite B, andb_false_r in A. discriminate. }
        clear F1.
        rewrite (foldM_ext _ (step n (cd_fields d) x)).
        2:{ intros a f H. apply filter_In in H as [H Hp]. unfold step, is_plain. rewrite Hp, andb_false_r. reflexivity. }
        rewrite E3. cbn [bind].
        exists (Some x), fs3. split; auto. cbn. f_equal.
        change (efs fs3 = efs fs). apply (dict_eq (map f_name (cd_fields d))); auto.
        intros name Hn'. apply in_map_iff in Hn' as (f & <- & Hin).
        assert (HV : exists w, assoc (f_name f) fs3 = Some w /\ val f w).
        { destruct (is_attr f) eqn:Af; [|destruct (is_group f) eqn:Gf].
          - destruct (V1 f (HS is_attr f Hin Af)) as (w & Aw & Vw). exists w. split; auto.
            rewrite U3, U2; auto.
            + apply (sep is_plain is_attr); auto.
              intros g A B. unfold is_plain in A. rewrite B in A. discriminate.
            + apply (sep is_group is_attr); auto. intros g A B. apply is_group_not_attr in A. congruence.
          - apply V3. auto.
          - assert (Pf : is_plain f = true) by (unfold is_plain; now rewrite Af, Gf).
            destruct (V2 f (HS is_plain f Hin Pf)) as (w & Aw & Vw). exists w. split; auto.
            rewrite U3; auto. apply (sep is_group is_plain); auto.
            intros g A B. unfold is_plain in B. rewrite A, andb_false_r in B. discriminate. }
        destruct HV as (w & -> & v & -> & Ew). cbn. now rewrite Ew.
  Qed.

  Lemma RT_all n : RT n.
  Proof.
    induction n as [|n IH]; intros c v ns efd L Pc Hv Hd Hns FL.
    - inversion Hv; subst. cbn in Hd. lia.
    - assert (Hv' := Hv). inversion Hv' as [|? d xe fs Hcd Kfs Hf]; subst.
      destruct (HP c Pc) as (d' & L' & Hcd' & Kd & _ & _ & Gtns & _).
      rewrite Hcd in Hcd'. injection Hcd' as <-.
      set (ns1 := match cd_schema d with Some si => si_tns si | None => ns end).
      assert (Gns1 : ns_good ns1) by (unfold ns1; destruct (cd_schema d); auto).
      destruct (object_rt n c d xe fs ns1 efd L IH Pc Hcd Hv Hd Gns1 FL) as (ws & ks & W & R & Q).
      exists ws, ks. split; auto. split; auto.
      intros t a k Da. rewrite render_obj_S. unfold get_class. rewrite Hcd. cbn [bind].
      assert (Z : match cd_kind d with
           | CKHeader => p <- obj_parts (VObj c xe fs) ;; di <- match e_cls E (fst p) with Some d0 => Ok d0 | None => Err NameError end ;;
               match cd_schema di with Some si => Ok (si_tns si) | None => Err AttributeError end
           | _ => Ok ns end = Ok ns) by (destruct (cd_kind d); congruence).
      rewrite Z. cbn [bind obj_parts fst snd]. rewrite Hcd. cbn [bind]. now apply R.
  Qed.

  (** Rendering succeeds and what was sent parses to the same field values. *)
  Lemma roundtrip c v tag ns efd n : P c -> rt_typed O E (TComplex c) v ->
    ncname_ok tag = true -> ns_good ns -> (vdepth v <= n)%nat ->
    exists x, xml_of n O E v tag ns efd = Ok x /\ wire x = x /\ tidy E (TComplex c) (wire x) /\
      exists v', parse_obj n O E c (wire x) = Ok v' /\ erase v' = erase v.
  Proof.
    intros Pc Hv Nt Hns Hd.
    destruct (HP c Pc) as (d & L & Hcd & Kd & Id & Mro & Gtns & ND & Hnew & HG & FL & FO).
    destruct (RT_all n c v ns efd L Pc Hv Hd Hns FL) as (ws & ks & W & R & Q).
    exists (Elem (ref_tag ns tag) ws ks). inversion Hv as [|? d' xe fs Hcd' Kfs Hf]; subst. split.
    - unfold xml_of, mk_element. change (match ns with Some m => if String.eqb m "" then tag else clark m tag | None => tag end)
        with (ref_tag ns tag). rewrite norm_ref_tag by auto. cbn [bind obj_parts fst].
      apply (R _ [] []). intros w _ [].
    - cbn [wire]. rewrite wire_elems by (eapply written_elems; eauto).
      split; [reflexivity|]. split; [eapply written_tidy; eauto|].
      destruct (Q (Elem (ref_tag ns tag) ws ks)) as (xe' & fs' & P1 & P2).
      { repeat split; auto.
        - cbn. apply elems_no_pi. eapply written_elems; eauto.
        - eapply written_no_nil; eauto. }
      eauto.
  Qed.
  (** Like [roundtrip], for the fields of an object written into an element in
      any namespace (a SOAP header). *)
  Lemma roundtrip_inside c d xe fs tag ns efd n : P c -> e_cls E c = Some d -> rt_typed O E (TComplex c) (VObj c xe fs) ->
    ns_good ns -> (vdepth (VObj c xe fs) <= S n)%nat ->
    exists a k, foldM (fun par f => fv <- getattr fs (f_name f) ;; render_field O E (render_obj n O E) f par fv ns efd)
          (Elem tag [] []) (cd_fields d) = Ok (Elem tag a k) /\
      wire (Elem tag a k) = Elem tag a k /\ assoc xsi_nil a = None /\ Forall (fun y => exists t a k, y = Elem t a k) k /\
      tidy E (TComplex c) (Elem tag a k) /\
      exists v', parse_obj (S n) O E c (Elem tag a k) = Ok v' /\ erase v' = erase (VObj c xe fs).
  Proof.
    intros Pc Hcd Hv Hns Hd.
    destruct (HP c Pc) as (d' & L & Hcd' & Kd & Id & Mro & Gtns & ND & Hnew & HG & FL & FO).
    destruct (object_rt n c d xe fs ns efd L (RT_all n) Pc Hcd Hv Hd Hns FL) as (ws & ks & W & R & Q).
    exists ws, ks. split; [apply (R _ [] []); intros w _ []|].
    pose proof (written_elems _ _ _ W) as WE.
    split; [cbn [wire]; now rewrite wire_elems|].
    split; [eapply written_no_nil; eauto|]. split; [eapply Forall_impl; [|exact WE]; intros y (t & a & k & -> & _); eauto|].
    split; [eapply written_tidy; eauto|].
    destruct (Q (Elem tag ws ks)) as (xe' & fs' & P1 & P2).
    { repeat split; auto.
      - cbn. now apply elems_no_pi.
      - eapply written_no_nil; eauto. }
    eauto.
  Qed.
End Round.
