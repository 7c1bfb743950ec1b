(** Rendering produces the specified shape. *)
From Coq Require Import String Ascii List ZArith NArith Bool Lia ZifyBool.
From Verif Require Import PyBase Xml PyVal XsdSimple XsdComplex SpecObject SpecRender PfBase PfObject.
Import ListNotations.
Open Scope Z_scope.

(** ** Names *)
Lemma partition_l_none c l r : partition_l c l = (r, None) -> r = l /\ ~ In c l.
Proof.
  revert r. induction l as [|x l IH]; intros r; cbn.
  - intros [= <-]. auto.
  - destruct (Ascii.eqb_spec x c); [discriminate|]. destruct (partition_l c l) as [p q].
    intros [= <- ->]. destruct (IH p eq_refl) as [-> H]. split; auto. intros [|]; auto.
Qed.
Lemma partition_l_some c l r q : partition_l c l = (r, Some q) -> l = r ++ c :: q /\ ~ In c r.
Proof.
  revert r. induction l as [|x l IH]; intros r; cbn; [discriminate|].
  destruct (Ascii.eqb_spec x c) as [->|].
  - intros [= <- <-]. auto.
  - destruct (partition_l c l) as [p q']. intros [= <- ->]. destruct (IH p eq_refl) as [-> H].
    split; auto. intros [|]; auto.
Qed.
Lemma partition_l_app c r q : ~ In c r -> partition_l c (r ++ c :: q) = (r, Some q).
Proof.
  induction r as [|x r IH]; cbn; intros H.
  - now rewrite Ascii.eqb_refl.
  - destruct (Ascii.eqb_spec x c) as [->|]; [destruct H; auto|]. rewrite IH; auto.
Qed.

Definition rbrace : ascii := "}"%char.
Lemma ncname_no_brace s : ncname_ok s = true -> ~ In rbrace (to_l s).
Proof.
  unfold ncname_ok. destruct (to_l s) as [|c l]; [easy|]. intros H. apply andb_prop in H as [H1 H2].
  intros [->|H]; [discriminate|]. rewrite forallb_forall in H2. now specialize (H2 _ H).
Qed.
Lemma ncname_head s c t : ncname_ok s = true -> s = String c t -> c <> "{"%char.
Proof. intros H -> ->. discriminate. Qed.

Lemma clark_split_plain s : ncname_ok s = true -> clark_split s = Ok (""%string, s).
Proof.
  intros H. unfold clark_split. destruct s as [|c s']; [now rewrite H|].
  pose proof (ncname_head _ _ _ H eq_refl) as N.
  destruct c as [[] [] [] [] [] [] [] []]; try (now rewrite H); congruence.
Qed.
Lemma norm_plain s : ncname_ok s = true -> norm_name s = Ok s.
Proof. intros H. unfold norm_name. rewrite clark_split_plain; auto. Qed.

Lemma str_partition_app ns l : ~ In rbrace (to_l ns) ->
  str_partition "}" (ns ++ String "}" l) = (ns, Some l).
Proof.
  intros H. unfold str_partition. rewrite to_l_app. cbn [list_ascii_of_string].
  rewrite partition_l_app by exact H. cbn. now rewrite !of_to.
Qed.

Lemma norm_clark ns local t : ncname_ok local = true -> norm_name (clark ns local) = Ok t ->
  t = (if String.eqb ns "" then local else clark ns local) /\ ~ In rbrace (to_l ns).
Proof.
  intros H. unfold norm_name, clark_split, clark.
  destruct (str_partition "}" (ns ++ String "}" local)) as [p [r|]] eqn:X; [|discriminate].
  destruct (ncname_ok r) eqn:Hr; [|discriminate]. cbn. intros [= <-].
  assert (Hns : ~ In rbrace (to_l ns)).
  { intros C. unfold str_partition in X. rewrite to_l_app in X. cbn [list_ascii_of_string] in X.
    destruct (partition_l "}" (to_l ns ++ "}"%char :: to_l local)) as [p' [r'|]] eqn:Y; [|discriminate].
    cbn in X. injection X as <- <-. apply partition_l_some in Y as [Y1 Y2].
    apply in_split in C as (a & b & C).
    assert (In rbrace r').
    { rewrite C in Y1. rewrite <- app_assoc in Y1. cbn in Y1.
      clear -Y1 Y2. revert a Y1. induction p' as [|x p' IH]; intros a Y1.
      - destruct a; cbn in Y1; injection Y1 as Y1; subst.
        + apply in_or_app. right. now left.
        + apply in_or_app. right. now left.
      - destruct a as [|y a]; cbn in Y1.
        + injection Y1 as <- _. destruct Y2. now left.
        + injection Y1 as <- Y1. apply IH with (a := a); auto. intros C. apply Y2. now right. }
    apply ncname_no_brace in Hr. rewrite to_of in Hr. contradiction. }
  split; auto. rewrite str_partition_app in X by auto. injection X as <- <-.
  unfold qname. reflexivity.
Qed.

(** The tag of an element created for a field. *)
Lemma qualified_tag f ns efd name t : ncname_ok name = true ->
  norm_name (qualify (eff_ns f ns) efd name) = Ok t -> t = elem_tag f ns efd name.
Proof.
  intros H. unfold qualify, elem_tag, eff_ns. change (form_qualified efd) with (is_qualified efd).
  destruct (match f_ns f with Some n => Some n | None => ns end) as [n|].
  - destruct (is_qualified efd); cbn.
    + intros X. apply norm_clark in X as [-> _]; auto. now destruct (String.eqb_spec n "").
    + rewrite norm_plain by auto. congruence.
  - rewrite norm_plain by auto. congruence.
Qed.
Lemma mk_element_ok tag x : mk_element tag = Ok x -> exists t, norm_name tag = Ok t /\ x = Elem t [] [].
Proof. unfold mk_element. intros H. apply bind_ok in H as (t & Ht & [= <-]). eauto. Qed.

Lemma ref_tag_norm ns name t : ncname_ok name = true ->
  norm_name (match ns with Some n => if String.eqb n "" then name else clark n name | None => name end) = Ok t ->
  t = ref_tag ns name.
Proof.
  intros H. unfold ref_tag. destruct ns as [n|]; [|rewrite norm_plain by auto; congruence].
  destruct (String.eqb_spec n ""); [rewrite norm_plain by auto; congruence|].
  intros X. apply norm_clark in X as [-> _]; auto. now destruct (String.eqb_spec n "").
Qed.

(** ** Rendering into an element *)
Definition add_attrs (ws : list (string * string)) (a : list (string * string)) :=
  fold_left (fun a w => assoc_set (fst w) (snd w) a) ws a.

Lemma add_attrs_app ws1 ws2 a : add_attrs (ws1 ++ ws2) a = add_attrs ws2 (add_attrs ws1 a).
Proof. apply fold_left_app. Qed.

Lemma xsi_nil_norm : norm_name xsi_nil = Ok xsi_nil.
Proof. reflexivity. Qed.

Lemma el_set_ok t a k name v x : el_set (Elem t a k) name v = Ok x ->
  exists n, norm_name name = Ok n /\ xml_text_ok v = true /\ x = Elem t (assoc_set n v a) k.
Proof.
  unfold el_set. intros H. apply bind_ok in H as (n & Hn & H).
  destruct (xml_text_ok v) eqn:X; inversion H. eauto.
Qed.

Section Shapes.
  Variable O : oracle.
  Variable E : env.
  Hypothesis NOK : names_ok E.

  Lemma render_simple_shape s t x v : render_simple O s (Elem t [] []) v = Ok x ->
    exists y kids, st_xmlvalue O s v = Ok y /\ text_kids y kids /\ x = Elem t (simple_attrs s) kids.
  Proof.
    unfold render_simple. intros H. apply bind_ok in H as (y & Hy & H).
    apply bind_ok in H as (p & Hp & H). exists y.
    assert (exists kids, text_kids y kids /\ p = Elem t [] kids) as (kids & T & ->).
    { unfold set_text_val, text_kids in *. destruct y; try discriminate.
      - injection Hp as <-. eauto.
      - cbn in Hp. destruct xml_text_ok; inversion Hp. eauto 6. }
    exists kids. repeat split; auto.
    destruct s; try (cbn in H |- *; congruence).
    apply el_set_ok in H as (n & Hn & _ & ->). vm_compute in Hn. injection Hn as <-. reflexivity.
  Qed.

  (** What one level of recursion guarantees. *)
  Definition rec_ok (rec : renderer) : Prop := forall c t v ns efd x,
    rec c (Elem t [] []) v ns efd = Ok x ->
    el_tag x = t /\ shape O E efd ns (TComplex c) v x.
  Definition rec_into (rec : renderer) : Prop := forall c t a k v ns efd x,
    v <> VNone -> rec c (Elem t a k) v ns efd = Ok x ->
    exists entries blocks wss, flat E ns c v entries /\ Forall2 (children O E efd) entries blocks /\
      Forall2 (entry_writes O) entries wss /\ x = Elem t (add_attrs (concat wss) a) (k ++ concat blocks).

  Lemma render_type_shape rec ft t v ns efd x : rec_ok rec ->
    render_type O rec ft (Elem t [] []) v ns efd = Ok x ->
    el_tag x = t /\ shape O E efd ns ft v x.
  Proof.
    intros R. destruct ft as [s|c]; cbn.
    - intros H. apply render_simple_shape in H as (y & kids & A & B & ->).
      split; auto. econstructor; eauto.
    - apply R.
  Qed.

  Lemma render_item_shape rec f name v ns efd x0 x : rec_ok rec -> ncname_ok name = true ->
    mk_element (qualify (eff_ns f ns) efd name) = Ok x0 ->
    match v with
    | VNil => el_set x0 xsi_nil "true"
    | _ => render_type O rec (f_type f) x0 v (eff_ns f ns) efd
    end = Ok x ->
    item O E efd f ns name v x.
  Proof.
    intros R N M H. apply mk_element_ok in M as (t & Ht & ->).
    apply qualified_tag in Ht; auto. subst t.
    assert (C : v = VNil \/ v <> VNil) by (destruct v; ((now left) || (now right))).
    destruct C as [-> | C].
    - cbn in H. injection H as <-. constructor.
    - assert (H' : render_type O rec (f_type f) (Elem (elem_tag f ns efd name) [] []) v
                     (eff_ns f ns) efd = Ok x) by (destruct v; auto; congruence).
      apply render_type_shape in H' as [T S]; auto. constructor; auto.
  Qed.

  Lemma render_ref_shape rec f t a k v ns1 efd p' : rec_ok rec -> rec_into rec ->
    ncname_ok (tag_or_name f) = true ->
    (exists ct, f_type f = TComplex ct) -> is_group f = true ->
    render_ref O E rec f (Elem t a k) (tag_or_name f) v ns1 efd = Ok p' ->
    (is_group f && is_group_obj E v = true ->
       exists ct entries blocks wss, f_type f = TComplex ct /\ flat E ns1 ct v entries /\
         Forall2 (children O E efd) entries blocks /\ Forall2 (entry_writes O) entries wss /\
         p' = Elem t (add_attrs (concat wss) a) (k ++ concat blocks))%bool /\
    (is_group f && is_group_obj E v = false ->
       exists kids ws, children O E efd (f, v, ns1) kids /\ entry_writes O (f, v, ns1) ws /\
         p' = Elem t (add_attrs ws a) (k ++ kids))%bool.
  Proof.
    intros R RI N [ct Ft] G H. rewrite G. cbn [andb].
    assert (A : is_attr f = false)
      by (unfold is_attr, is_group in *; destruct (f_kind f); auto; discriminate).
    assert (W0 : entry_writes O (f, v, ns1) []) by (cbn; rewrite A; auto).
    unfold render_ref in H.
    assert (C : v = VNone \/ v <> VNone) by (destruct v; ((now left) || (now right))).
    destruct C as [-> | C]; [discriminate|].
    assert (H' : (if is_group_obj E v then render_type O rec (f_type f) (Elem t a k) v ns1 efd
       else x <- mk_element (match ns1 with Some n => if String.eqb n "" then tag_or_name f else clark n (tag_or_name f) | None => tag_or_name f end) ;;
            x' <- render_type O rec (f_type f) x v ns1 efd ;; Ok (el_append (Elem t a k) x')) = Ok p')
      by (destruct v; auto; congruence). clear H.
    destruct (is_group_obj E v) eqn:Gv; split; try discriminate; intros _.
    - rewrite Ft in H'. cbn in H'.
      apply RI in H' as (entries & blocks & wss & F1 & F2 & F3 & ->); auto.
      exists ct, entries, blocks, wss. auto.
    - apply bind_ok in H' as (x0 & M & H). apply bind_ok in H as (x & X & [= <-]).
      apply mk_element_ok in M as (t' & Ht' & ->). apply render_type_shape in X as [T S]; auto.
      exists [x], []. repeat split; auto. apply ch_ref; auto. rewrite T. apply ref_tag_norm; auto.
  Qed.

  (** Rendering one field. *)
  Lemma render_field_shape rec f t a k v ns1 efd p' : rec_ok rec -> rec_into rec ->
    ncname_ok (tag_or_name f) = true ->
    (f_kind f = KList -> forall t, f_tag f = Some t -> ncname_ok t = true) ->
    (is_group f = true -> exists ct, f_type f = TComplex ct) ->
    render_field O E rec f (Elem t a k) v ns1 efd = Ok p' ->
    (is_group f && is_group_obj E v = true ->
       exists ct entries blocks wss, f_type f = TComplex ct /\ flat E ns1 ct v entries /\
         Forall2 (children O E efd) entries blocks /\ Forall2 (entry_writes O) entries wss /\
         p' = Elem t (add_attrs (concat wss) a) (k ++ concat blocks))%bool /\
    (is_group f && is_group_obj E v = false ->
       exists kids ws, children O E efd (f, v, ns1) kids /\ entry_writes O (f, v, ns1) ws /\
         p' = Elem t (add_attrs ws a) (k ++ kids))%bool.
  Proof.
    intros R RI N NL NR H. unfold render_field in H.
    assert (W0 : is_attr f = false -> entry_writes O (f, v, ns1) []) by (cbn; intros ->; auto).
    destruct (f_kind f) eqn:K.
    - (* Element *)
      assert (G : is_group f = false) by (unfold is_group; now rewrite K). rewrite G.
      split; [discriminate|]. intros _. unfold render_element in H.
      assert (C : v = VNone \/ v <> VNone) by (destruct v; ((now left) || (now right))).
      destruct C as [-> | C].
      + injection H as <-. exists [], []. rewrite app_nil_r. repeat split.
        * now apply ch_element_none.
        * apply W0. unfold is_attr. now rewrite K.
      + assert (H' : (x <- mk_element (qualify (eff_ns f ns1) efd (tag_or_name f)) ;;
                      x' <- match v with
                            | VNil => el_set x xsi_nil "true"
                            | _ => render_type O rec (f_type f) x v (eff_ns f ns1) efd
                            end ;; Ok (el_append (Elem t a k) x')) = Ok p')
          by (destruct v; auto; congruence). clear H.
        apply bind_ok in H' as (x0 & M & H). apply bind_ok in H as (x & X & [= <-]).
        exists [x], []. repeat split.
        * apply ch_element; auto. eapply render_item_shape; eauto.
        * apply W0. unfold is_attr. now rewrite K.
    - (* ClassNamed *)
      assert (G : is_group f = false) by (unfold is_group; now rewrite K). rewrite G.
      split; [discriminate|]. intros _.
      assert (A : is_attr f = false) by (unfold is_attr; now rewrite K).
      destruct v; try discriminate H.
      + injection H as <-. exists [], []. rewrite app_nil_r. repeat split; auto. now apply ch_named_none.
      + cbn in H. apply bind_ok in H as (tagname & Hn & H). apply bind_ok in H as (value & Hv & H).
        unfold getattr in *. destruct (assoc "name" fs) eqn:An; inversion Hn; subst.
        destruct (assoc "value" fs) eqn:Av; inversion Hv; subst.
        assert (C : value = VNone \/ value <> VNone) by (destruct value; ((now left) || (now right))).
        destruct C as [-> | C].
        * injection H as <-. exists [], []. rewrite app_nil_r. repeat split; auto.
          now apply ch_named_empty.
        * assert (H' : exists ci xei fsi, value = VObj ci xei fsi)
            by (destruct value; try discriminate H; try congruence; eauto).
          destruct H' as (ci & xei & fsi & ->). cbn in H.
          apply bind_ok in H as (di & Hdi & H). apply get_class_ok in Hdi.
          destruct (cd_schema di) as [si|] eqn:Hs; [|discriminate].
          apply bind_ok in H as (tag & Ht & H). apply bind_ok in H as (x0 & M & H).
          apply bind_ok in H as (x & X & [= <-]).
          apply mk_element_ok in M as (t' & Ht' & ->).
          apply render_type_shape in X as [T S]; auto.
          exists [x], []. repeat split; auto.
          eapply ch_named; eauto.
          intros s -> Ns. rewrite T. apply ref_tag_norm; auto.
          destruct (si_tns si) as [n|]; [destruct (String.eqb n "")|]; inversion Ht; subst; auto.
    - (* Attribute *)
      assert (G : is_group f = false) by (unfold is_group; now rewrite K). rewrite G.
      split; [discriminate|]. intros _.
      assert (A : is_attr f = true) by (unfold is_attr; now rewrite K).
      unfold render_attribute in H. cbn. rewrite A.
      assert (C : v = VNone \/ v = VNil \/ v <> VNone /\ v <> VNil)
        by (destruct v; auto; right; right; split; discriminate).
      destruct C as [-> | [-> | [C1 C2]]].
      + exists [], []. destruct (f_min f) as [[]|]; inversion H; subst; rewrite app_nil_r;
          repeat split; auto 6; now constructor.
      + destruct (f_nillable f) eqn:Nl; [|discriminate].
        apply el_set_ok in H as (n & Hn & _ & ->). rewrite norm_plain in Hn by auto.
        injection Hn as <-. exists [], [(tag_or_name f, "nil"%string)]. rewrite app_nil_r.
        repeat split; auto 6. now constructor.
      + assert (H' : match f_type f with
          | TSimple s => x <- st_xmlvalue O s v ;; set_attr_val (Elem t a k) (tag_or_name f) x
          | TComplex _ => Err AttributeError end = Ok p') by (destruct v; auto; congruence).
        clear H. destruct (f_type f) as [s|] eqn:Ft; [|discriminate].
        apply bind_ok in H' as (y & Hy & H). unfold set_attr_val in H. destruct y; try discriminate.
        apply el_set_ok in H as (n & Hn & _ & ->). rewrite norm_plain in Hn by auto.
        injection Hn as <-. exists [], [(tag_or_name f, s0)]. rewrite app_nil_r. repeat split.
        * now constructor.
        * right. right. repeat split; auto. exists s, s0. auto.
    - (* Ref *)
      assert (G : is_group f = true) by (unfold is_group; now rewrite K).
      exact (render_ref_shape rec f t a k v ns1 efd p' R RI N (NR G) G H).
    - (* Content *)
      assert (G : is_group f = true) by (unfold is_group; now rewrite K).
      exact (render_ref_shape rec f t a k v ns1 efd p' R RI N (NR G) G H).
    - (* List *)
      assert (G : is_group f = false) by (unfold is_group; now rewrite K). rewrite G.
      split; [discriminate|]. intros _.
      assert (A : is_attr f = false) by (unfold is_attr; now rewrite K).
      assert (HB : render_field O E rec f (Elem t a k) v ns1 efd = Ok p')
        by (unfold render_field; rewrite K; exact H).
      apply render_list_bounds in HB as (typed & items & -> & Bmin & Bmax); auto.
      assert (HL : exists kids, Forall2 (fun v x => exists t, f_tag f = Some t /\ item O E efd f ns1 t v x) items kids
                   /\ p' = Elem t a (k ++ kids)).
      { unfold render_list in H.
        destruct (match f_min f with Some m => negb (m =? 0) && (Z.of_nat (length items) <? m) | None => false end);
          [discriminate|].
        destruct (match f_max f with OInt m => negb (m =? 0) && (m <? Z.of_nat (length items)) | _ => false end);
          [discriminate|].
        destruct (f_tag f) as [tg|] eqn:Ft.
        - clear Bmin Bmax W0. revert k H. induction items as [|v items IH]; intros k H.
          + cbn in H. injection H as <-. exists []. rewrite app_nil_r. split; constructor.
          + cbn [foldM] in H. apply bind_ok in H as (p1 & H1 & H).
            apply bind_ok in H1 as (x0 & M & H1). apply bind_ok in H1 as (x & X & [= <-]).
            cbn [el_append] in H.
            destruct (IH _ H) as (kids & F & ->).
            exists (x :: kids). split.
            * constructor; auto. exists tg. split; auto. eapply render_item_shape; eauto.
            * rewrite <- app_assoc. reflexivity.
        - destruct items; [|discriminate]. injection H as <-. exists []. rewrite app_nil_r. split; constructor. }
      destruct HL as (kids & F & ->). exists kids, []. repeat split; auto. now apply ch_list.
  Qed.

  (** Rendering the fields of an object. *)
  Lemma render_fields_shape rec fs ns1 efd : rec_ok rec -> rec_into rec -> forall F t a k p',
    (forall f, In f F -> ncname_ok (tag_or_name f) = true /\
       (f_kind f = KList -> forall t, f_tag f = Some t -> ncname_ok t = true) /\
       (is_group f = true -> exists ct, f_type f = TComplex ct)) ->
    foldM (fun par f => fv <- getattr fs (f_name f) ;; render_field O E rec f par fv ns1 efd)
      (Elem t a k) F = Ok p' ->
    exists eblocks blocks wss, Forall2 (flat_field E fs ns1) F eblocks /\
      Forall2 (children O E efd) (concat eblocks) blocks /\
      Forall2 (entry_writes O) (concat eblocks) wss /\
      p' = Elem t (add_attrs (concat wss) a) (k ++ concat blocks).
  Proof.
    intros R RI. induction F as [|f F IH]; intros t a k p' N H.
    - injection H as <-. exists [], [], []. cbn. rewrite app_nil_r. repeat split; constructor.
    - cbn [foldM] in H. apply bind_ok in H as (p1 & H1 & H). apply bind_ok in H1 as (fv & Hg & H1).
      destruct (N f (or_introl eq_refl)) as (N1 & N2 & N3).
      unfold getattr in Hg. destruct (assoc (f_name f) fs) eqn:Ha; inversion Hg; subst p.
      destruct (render_field_shape _ _ _ _ _ _ _ _ _ R RI N1 N2 N3 H1) as [A B].
      destruct (is_group f && is_group_obj E fv)%bool eqn:G.
      + destruct (A eq_refl) as (ct & entries & blocks & wss & T & F1 & F2 & F3 & ->).
        apply IH in H as (eb & bl & ws & I1 & I2 & I3 & ->); [|auto with datatypes].
        apply andb_prop in G as [G1 G2].
        exists (entries :: eb), (blocks ++ bl), (wss ++ ws). cbn [concat].
        rewrite !concat_app, add_attrs_app, app_assoc.
        repeat split; auto using Forall2_app. constructor; auto. econstructor; eauto.
      + destruct (B eq_refl) as (kids & ws & C1 & C2 & ->).
        apply IH in H as (eb & bl & wss & I1 & I2 & I3 & ->); [|auto with datatypes].
        exists ([(f, fv, ns1)] :: eb), (kids :: bl), (ws :: wss). cbn [concat app].
        rewrite add_attrs_app, app_assoc. repeat split; auto. constructor; auto. now apply ff_own.
  Qed.

  Lemma render_obj_rec n : rec_ok (render_obj n O E) /\ rec_into (render_obj n O E).
  Proof.
    induction n as [|n [IH1 IH2]].
    - split; repeat intro; discriminate.
    - assert (I : rec_into (render_obj (S n) O E)).
      { intros c t a k v ns efd x NN H.
        assert (exists ci xe fs, v = VObj ci xe fs) as (ci & xe & fs & ->).
        { rewrite render_obj_S in H. apply bind_ok in H as (d & Hd & H).
          apply bind_ok in H as (ns0 & Hn & H).
          destruct v; try (now cbn in H); try congruence. eauto. }
        apply render_obj_ok in H as (n' & d & di & ns1 & [= <-] & Hd & Hdi & Hns & H).
        apply render_fields_shape in H as (eb & bl & ws & F1 & F2 & F3 & ->); auto.
        - exists (concat eb), bl, ws. repeat split; auto. econstructor; eauto.
        - intros f Hf. exact (NOK _ _ _ Hdi Hf). }
      split; auto.
      intros c t v ns efd x H.
      assert (C : v = VNone \/ v <> VNone) by (destruct v; ((now left) || (now right))).
      destruct C as [-> | C].
      + rewrite render_obj_S in H. apply bind_ok in H as (d & Hd & H).
        apply bind_ok in H as (ns0 & Hn & H). injection H as <-. split; auto. constructor.
      + apply I in H as (en & bl & ws & F1 & F2 & F3 & ->); auto. split; auto.
        cbn [app]. now apply sh_obj with (entries := en).
  Qed.
End Shapes.

Lemma render_shape n O E c t v ns efd x : names_ok E ->
  render_obj n O E c (Elem t [] []) v ns efd = Ok x ->
  el_tag x = t /\ shape O E efd ns (TComplex c) v x.
Proof. intros N. apply (render_obj_rec O E N n). Qed.
