(** Rendering followed by parsing, for single fields (C25-C27, C29, C34). *)
From Coq Require Import String Ascii List ZArith NArith Bool Lia.
From Verif Require Import PyBase Xml PyVal XsdDate XsdSimple XsdComplex SpecObject SpecRender SpecParse SpecRound SpecParse2
  PfBase PfObject PfRender PfRender2 PfParse PfRound PfParse2.
Import ListNotations.
Open Scope Z_scope.

Lemma wire_attrs x : el_attrs (wire x) = el_attrs x.
Proof. destruct x; reflexivity. Qed.
Lemma wire_get x k : el_get (wire x) k = el_get x k.
Proof. unfold el_get. now rewrite wire_attrs. Qed.

Lemma plain_parts n O E ci di xe fs tag ns efd x : names_ok E -> ncname_ok tag = true ->
  e_cls E ci = Some di -> Forall (fun f => is_group f = false) (cd_fields di) ->
  xml_of n O E (VObj ci xe fs) tag ns efd = Ok x ->
  el_tag x = ref_tag ns tag /\
  exists ns1 blocks wss, ns_in_force di di ns ns1 /\ el_kids x = concat blocks /\
    Forall2 (fun f ks => exists v, assoc (f_name f) fs = Some v /\ children O E efd (f, v, ns1) ks)
      (cd_fields di) blocks /\
    Forall2 (fun f ws => exists v, assoc (f_name f) fs = Some v /\ entry_writes O (f, v, ns1) ws)
      (cd_fields di) wss /\
    el_attrs x = add_attrs (concat wss) [].
Proof.
  intros N Nt Hd G H. apply xml_of_shape in H as [T S]; auto. split; auto.
  inversion S as [| |? ? ? ? tg entries blocks wss Fl C W]; subst.
  inversion Fl as [? ? d ? di' ? ? ns1 eb Hd1 Hd2 Hn F]; subst.
  rewrite Hd in Hd2, Hd1. injection Hd2 as <-. injection Hd1 as <-.
  exists ns1, blocks, wss. split; auto.
  destruct (flat_plain _ _ _ _ _ F G) as (vs & V & Eq). rewrite Eq in C, W. clear - V C W.
  split; [reflexivity|]. split; [|split; [|reflexivity]].
  - clear W. revert blocks C. induction V as [|f v F vs A V IH]; intros blocks C; cbn in C; inversion C; subst; constructor; eauto.
  - clear C. revert wss W. induction V as [|f v F vs A V IH]; intros wss C; cbn in C; inversion C; subst; constructor; eauto.
Qed.

(** ** Attributes *)
Lemma assoc_add_attrs ws : forall a k t, (forall t', In (k, t') ws -> t' = t) ->
  In (k, t) ws \/ assoc k a = Some t -> assoc k (add_attrs ws a) = Some t.
Proof.
  induction ws as [|[k0 t0] ws IH]; intros a k t U H; cbn.
  - now destruct H.
  - apply IH; [intros; apply U; now right|]. destruct H as [[[= -> ->]|H]|H]; auto.
    + right. apply assoc_set_same.
    + right. destruct (String.eqb_spec k k0) as [->|Ne].
      * rewrite assoc_set_same. f_equal. apply U. now left.
      * now rewrite assoc_set_other.
Qed.
Lemma assoc_add_none ws a k : ~ In k (map fst ws) -> assoc k (add_attrs ws a) = assoc k a.
Proof.
  revert a. induction ws as [|[k0 t0] ws IH]; intros a H; cbn in *; auto.
  rewrite IH by tauto. apply assoc_set_other. intros ->. apply H. now left.
Qed.

Lemma written_names O fs ns1 F wss k t :
  Forall2 (fun f ws => exists v, assoc (f_name f) fs = Some v /\ entry_writes O (f, v, ns1) ws) F wss ->
  In (k, t) (concat wss) -> exists f ws, In f F /\ In ws wss /\ In (k, t) ws /\ is_attr f = true /\ k = tag_or_name f /\
    (exists v, assoc (f_name f) fs = Some v /\ entry_writes O (f, v, ns1) ws).
Proof.
  intros W H. apply in_concat in H as (ws & Hws & H).
  destruct (Forall2_in_r _ _ _ _ W Hws) as (f & Hf & v & V & EW).
  destruct (writes_name _ _ _ _ _ EW H) as [A B]. exists f, ws. repeat split; eauto.
Qed.

Lemma attr_absent n O E ci di xe fs tag ns efd x f : names_ok E -> ncname_ok tag = true ->
  e_cls E ci = Some di -> Forall (fun f => is_group f = false) (cd_fields di) ->
  (forall g, In g (cd_fields di) -> is_attr g = true -> tag_or_name g <> f_name f) ->
  xml_of n O E (VObj ci xe fs) tag ns efd = Ok x -> el_get (wire x) (f_name f) = None.
Proof.
  intros N Nt Hd G U H. apply (plain_parts n O E ci di) in H as (_ & ns1 & blocks & wss & _ & _ & _ & W & A); auto.
  rewrite wire_get. unfold el_get. rewrite A, assoc_add_none; [reflexivity|].
  intros C. apply in_map_iff in C as ([k t] & Ek & C). cbn in Ek. subst k.
  apply (written_names _ _ _ _ _ _ _ W) in C as (g & ws & Hg & _ & _ & Ag & Eg & _).
  now apply (U g Hg Ag).
Qed.

Lemma attr_lost n m O E ci di xe fs tag ns efd x f v : names_ok E -> ncname_ok tag = true ->
  e_cls E ci = Some di -> flat_class di -> In f (cd_fields di) -> is_attr f = true ->
  (forall g, In g (cd_fields di) -> is_attr g = true -> tag_or_name g <> f_name f) ->
  xml_of n O E (VObj ci xe fs) tag ns efd = Ok x -> parse_obj m O E ci (wire x) = Ok v ->
  exists fs' s w w', v = VObj ci (Some (wire x)) fs' /\ f_type f = TSimple s /\
    st_pythonvalue O s (f_default f) = Ok w /\ field_accept O E f w = Ok w' /\ assoc (f_name f) fs' = Some w'.
Proof.
  intros N Nt Hd (ND & FC & _) Hf Af U X P.
  assert (G : Forall (fun f => is_group f = false) (cd_fields di)).
  { apply Forall_forall. intros g Hg. destruct (FC g Hg) as [[K|[K|K]] _]; unfold is_group; now rewrite K. }
  pose proof (attr_absent n O E ci di xe fs tag ns efd x f N Nt Hd G U X) as A.
  destruct (parse_parts _ _ _ _ _ _ _ Hd ND P) as (m' & fs0 & fs' & -> & -> & _).
  destruct (parse_attr_value _ _ _ _ _ _ _ _ f Hd ND Hf Af P) as (s & w & w' & T & Py & Ac & As).
  rewrite A in Py. exists fs', s, w, w'. auto.
Qed.

Lemma attr_back n m O E ci di xe fs tag ns efd x f v s text w w' v' : names_ok E -> ncname_ok tag = true ->
  e_cls E ci = Some di -> flat_class di -> In f (cd_fields di) -> is_attr f = true ->
  tag_or_name f = f_name f ->
  (forall g, In g (cd_fields di) -> is_attr g = true -> g <> f -> tag_or_name g <> f_name f) ->
  f_type f = TSimple s -> assoc (f_name f) fs = Some v -> v <> VNone -> v <> VNil ->
  st_xmlvalue O s v = Ok (VStr text) -> st_pythonvalue O s (VStr text) = Ok w -> field_accept O E f w = Ok w' ->
  xml_of n O E (VObj ci xe fs) tag ns efd = Ok x -> parse_obj m O E ci (wire x) = Ok v' ->
  exists fs', v' = VObj ci (Some (wire x)) fs' /\ assoc (f_name f) fs' = Some w'.
Proof.
  intros N Nt Hd (ND & FC & _) Hf Af Tn U Ty V NN NL XV PV AV X P.
  assert (G : Forall (fun f => is_group f = false) (cd_fields di)).
  { apply Forall_forall. intros g Hg. destruct (FC g Hg) as [[K|[K|K]] _]; unfold is_group; now rewrite K. }
  apply (plain_parts n O E ci di) in X as (_ & ns1 & blocks & wss & _ & _ & _ & W & A); auto.
  destruct (parse_parts _ _ _ _ _ _ _ Hd ND P) as (m' & fs0 & fs' & -> & -> & _).
  exists fs'. split; auto.
  destruct (parse_attr_value _ _ _ _ _ _ _ _ f Hd ND Hf Af P) as (s' & w1 & w1' & T & Py & Ac & As).
  rewrite Ty in T. injection T as <-.
  assert (Wf : forall ws v0, assoc (f_name f) fs = Some v0 -> entry_writes O (f, v0, ns1) ws -> ws = [(f_name f, text)]).
  { intros ws v0 V0 EW. rewrite V in V0. injection V0 as <-. cbn in EW. rewrite Af in EW.
    destruct EW as [(-> & _)|[(-> & _)|(_ & _ & s0 & t0 & Ts & Xs & ->)]]; congruence. }
  assert (GA : el_get (wire x) (f_name f) = Some text).
  { rewrite wire_get. unfold el_get. rewrite A. apply assoc_add_attrs.
    - intros t' Ht. apply (written_names _ _ _ _ _ _ _ W) in Ht as (g & ws & Hg & _ & Hi & Ag & Eg & v0 & V0 & EW).
      assert (D : g = f \/ g <> f).
      { destruct (String.eqb_spec (f_name g) (f_name f)).
        - left. eapply same_name; eauto.
        - right. congruence. }
      destruct D as [-> | D]; [|now destruct (U g Hg Ag D)].
      rewrite (Wf ws v0 V0 EW) in Hi. destruct Hi as [[= <-]|[]]. reflexivity.
    - left. destruct (Forall2_in_l _ _ _ _ W Hf) as (ws & Hws & v0 & V0 & EW).
      apply in_concat. exists ws. split; auto. rewrite (Wf ws v0 V0 EW). now left. }
  rewrite GA in Py. rewrite PV in Py. injection Py as <-. rewrite AV in Ac. injection Ac as <-. exact As.
Qed.

(** ** Elements *)
Definition is_elem (x : node) : Prop := exists t a k, x = Elem t a k.
Lemma wire_is_elem x : is_elem x -> is_elem (wire x).
Proof. intros (t & a & k & ->). cbn. unfold is_elem. eauto. Qed.
Lemma merge_elems l : Forall is_elem l -> merge_text l = l.
Proof. induction 1 as [|x l (t & a & k & ->) H IH]; [reflexivity|]. cbn. now rewrite IH. Qed.
Lemma belongs_wire f x : belongs f (wire x) = belongs f x.
Proof. destruct x; reflexivity. Qed.

Lemma shape_elem O E efd ns t v x : shape O E efd ns t v x -> is_elem x.
Proof. destruct 1; unfold is_elem; eauto. Qed.
Lemma item_elem O E efd f ns name v x : item O E efd f ns name v x -> is_elem x.
Proof. destruct 1; [unfold is_elem; eauto|eapply shape_elem; eauto]. Qed.

Lemma children_elems O E efd e ks : children O E efd e ks -> Forall is_elem ks.
Proof.
  destruct 1; auto.
  - constructor; auto. eapply item_elem; eauto.
  - apply Forall_forall. intros k Hk.
    match goal with H : Forall2 _ _ _ |- _ => destruct (Forall2_in_r _ _ _ _ H Hk) as (v & _ & t & _ & I) end.
    eapply item_elem; eauto.
  - constructor; auto. eapply shape_elem; eauto.
  - constructor; auto. eapply shape_elem; eauto.
Qed.

Lemma out_tag O E efd f v ns1 ks k : children O E efd (f, v, ns1) ks -> In k ks ->
  f_kind f = KElement \/ f_kind f = KList -> ns_good ns1 -> ns_good (f_ns f) ->
  ncname_ok (tag_or_name f) = true -> (f_kind f = KList -> forall t, f_tag f = Some t -> ncname_ok t = true) ->
  local_name (el_tag k) = out_name f.
Proof.
  intros C Hk K G1 G2 N1 N2. apply (children_tags _ _ _ _ _ _ C) in Hk. unfold child_tag_ok in Hk. unfold out_name.
  destruct K as [K|K]; rewrite K in Hk |- *.
  - rewrite Hk. now apply local_elem_tag.
  - destruct Hk as (t & T & ->). rewrite T. apply local_elem_tag; auto.
Qed.

Lemma tag_not_belongs f k : is_elem k -> local_name (el_tag k) <> f_name f -> f_tag f <> Some (local_name (el_tag k)) ->
  belongs f k = false.
Proof.
  intros (t & a & q & ->) H1 H2. cbn in *. apply orb_false_iff. split; [now apply String.eqb_neq|].
  destruct (f_tag f); auto. apply String.eqb_neq. congruence.
Qed.
Lemma out_name_belongs f k : is_elem k -> f_kind f = KElement \/ (f_kind f = KList /\ f_tag f <> None) ->
  local_name (el_tag k) = out_name f -> belongs f k = true.
Proof.
  intros (t & a & q & ->) K H. cbn in *. rewrite H. unfold out_name, tag_or_name.
  destruct K as [K|[K T]]; rewrite K.
  - destruct (f_tag f) as [tg|]; [|now rewrite String.eqb_refl].
    destruct (String.eqb_spec tg ""); [now rewrite String.eqb_refl|]. now rewrite String.eqb_refl, orb_true_r.
  - destruct (f_tag f); [|congruence]. now rewrite String.eqb_refl, orb_true_r.
Qed.

(** The children read for [f] are exactly those written for it. *)
Lemma own_kids n O E ci di xe fs tag ns efd x f : names_ok E -> ncname_ok tag = true ->
  e_cls E ci = Some di -> flat_class di -> ns_good ns -> cd_kind di <> CKHeader -> In f (cd_fields di) -> is_plain f = true -> alone di f ->
  xml_of n O E (VObj ci xe fs) tag ns efd = Ok x ->
  exists ns1 v block, ns_good ns1 /\ assoc (f_name f) fs = Some v /\ children O E efd (f, v, ns1) block /\
    filter (belongs f) (el_kids (wire x)) = map wire block.
Proof.
  intros N Nt Hd (ND & FC & GT) Gn KH Hf Pf AL X.
  assert (G : Forall (fun f => is_group f = false) (cd_fields di)).
  { apply Forall_forall. intros g Hg. destruct (FC g Hg) as [[K|[K|K]] _]; unfold is_group; now rewrite K. }
  destruct (xml_of_shape _ _ _ _ _ _ _ _ _ _ N Nt X) as [_ SH]. apply shape_elem in SH as (xt & xa & xk & ->).
  apply (plain_parts n O E ci di) in X as (_ & ns1 & blocks & wss & NI & Ks & C & _ & _); auto.
  cbn [el_kids] in Ks. subst xk.
  assert (G1 : ns_good ns1).
  { unfold ns_in_force in NI. destruct (cd_schema di) as [si|]; [now subst|]. destruct (cd_kind di); subst; auto. congruence. }
  destruct (Forall2_in_l _ _ _ _ C Hf) as (b & _ & v & V & CB).
  assert (CE : forall F bl, Forall2 (fun f ks => exists v, assoc (f_name f) fs = Some v /\ children O E efd (f, v, ns1) ks) F bl ->
     Forall is_elem (concat bl)).
  { intros F bl HF. induction HF as [|g c F' bl' (v' & _ & Hc) HF IH]; cbn; [constructor|].
    apply Forall_app. split; auto. eapply children_elems; eauto. }
  cbn [wire el_kids]. rewrite merge_elems.
  2:{ apply Forall_forall. intros y Hy. apply in_map_iff in Hy as (z & <- & Hz). apply wire_is_elem.
      specialize (CE _ _ C). rewrite Forall_forall in CE. auto. }
  assert (FW : forall l, filter (belongs f) (map wire l) = map wire (filter (belongs f) l)).
  { induction l as [|y l IH]; auto. cbn. rewrite belongs_wire. destruct (belongs f y); cbn; now rewrite IH. }
  rewrite FW.
  assert (KN : forall g, In g (cd_fields di) -> ncname_ok (tag_or_name g) = true /\
     (f_kind g = KList -> forall t, f_tag g = Some t -> ncname_ok t = true)).
  { intros g Hg. destruct (N ci di g Hd Hg) as (A & B & _). auto. }
  assert (R : forall F bl, (forall g, In g F -> In g (cd_fields di)) -> NoDup (map f_name F) ->
     Forall2 (fun f ks => exists v, assoc (f_name f) fs = Some v /\ children O E efd (f, v, ns1) ks) F bl ->
     (In f F -> exists block, children O E efd (f, v, ns1) block /\ filter (belongs f) (concat bl) = block) /\
     (~ In f F -> filter (belongs f) (concat bl) = [])).
  { intros F bl Sub NDF HF. induction HF as [|g c F' bl' (v' & V' & Hc) HF IH]; [split; [easy|auto]|].
    cbn in NDF. inversion NDF as [|? ? N1 N2]; subst.
    specialize (IH (fun g Hg => Sub g (or_intror Hg)) N2). cbn [concat]. rewrite filter_app.
    pose proof (children_elems _ _ _ _ _ Hc) as EL. rewrite Forall_forall in EL.
    assert (OT : f_kind g = KElement \/ f_kind g = KList -> forall k, In k c -> local_name (el_tag k) = out_name g).
    { intros K k Hk. destruct (FC g (Sub g (or_introl eq_refl))) as [_ Gg].
      destruct (KN g (Sub g (or_introl eq_refl))) as [K1 K2]. eapply out_tag; eauto. }
    assert (OTH : g <> f -> filter (belongs f) c = []).
    { intros D. apply filter_none, Forall_forall. intros k Hk.
      destruct (FC g (Sub g (or_introl eq_refl))) as [Kg _].
      assert (KC : (f_kind g = KElement \/ f_kind g = KList) \/ f_kind g = KAttribute) by tauto.
      destruct KC as [K|K].
      - pose proof (OT K k Hk) as L.
        assert (Pg : is_plain g = true) by (unfold is_plain, is_attr, is_group; destruct K as [-> | ->]; reflexivity).
        pose proof (AL g (Sub g (or_introl eq_refl)) Pg D) as NC. unfold confused in NC.
        apply tag_not_belongs; auto; rewrite L; tauto.
      - inversion Hc; subst; try congruence; try easy.
        match goal with H : is_group g = true |- _ => unfold is_group in H; rewrite K in H; discriminate end. }
    split.
    - intros [-> | Hin].
      + rewrite V in V'. injection V' as <-. exists c. split; auto.
        destruct IH as [_ IH]. rewrite IH, app_nil_r.
        * assert (Kf : f_kind f = KElement \/ f_kind f = KList).
          { destruct (FC f Hf) as [[K|[K|K]] _]; auto. unfold is_plain, is_attr in Pf. rewrite K in Pf. discriminate. }
          assert (TG : forall k, In k c -> f_kind f = KElement \/ (f_kind f = KList /\ f_tag f <> None)).
          { intros k Hk. destruct Kf as [Kf|Kf]; auto. right. split; auto.
            pose proof (children_tags _ _ _ _ _ _ Hc Hk) as CT. unfold child_tag_ok in CT. rewrite Kf in CT.
            destruct CT as (t & -> & _). discriminate. }
          specialize (OT Kf). clear - EL OT TG.
          induction c as [|k c IH]; auto. cbn. rewrite out_name_belongs.
          -- f_equal. apply IH; intros; [apply EL|apply OT|eapply TG]; right; eauto.
          -- apply EL. now left.
          -- apply (TG k). now left.
          -- apply OT. now left.
        * intros Hin. apply N1. now apply in_map.
      + assert (D : g <> f) by (intros ->; apply N1; now apply in_map).
        rewrite (OTH D). destruct IH as [IH _]. auto.
    - intros NI'. cbn in NI'. rewrite (OTH (fun e => NI' (or_introl e))). apply IH. tauto. }
  destruct (R _ _ (fun g Hg => Hg) ND C) as [R1 _]. destruct (R1 Hf) as (block & B1 & B2).
  exists ns1, v, block. rewrite B2. auto.
Qed.

(** What an element field of a simple type holds afterwards. *)
Lemma elem_back n m O E ci di xe fs tag ns efd x f v s text v' : names_ok E -> ncname_ok tag = true ->
  e_cls E ci = Some di -> flat_class di -> ns_good ns -> cd_kind di <> CKHeader -> cd_ind di <> IChoice ->
  In f (cd_fields di) -> f_kind f = KElement -> alone di f ->
  f_type f = TSimple s -> (forall l, s <> SLang l) -> assoc (f_name f) fs = Some v -> v <> VNone -> v <> VNil ->
  st_xmlvalue O s v = Ok (VStr text) ->
  xml_of n O E (VObj ci xe fs) tag ns efd = Ok x -> parse_obj m O E ci (wire x) = Ok v' ->
  exists fs' w w', v' = VObj ci (Some (wire x)) fs' /\
    st_pythonvalue O s (if String.eqb text "" then VNone else VStr text) = Ok w /\
    field_accept O E f w = Ok w' /\ assoc (f_name f) fs' = Some w'.
Proof.
  intros N Nt Hd FC Gn KH NC Hf K AL Ty NL V NN NI XV X P.
  assert (Pf : is_plain f = true) by (unfold is_plain, is_attr, is_group; now rewrite K).
  destruct (own_kids n O E ci di xe fs tag ns efd x f N Nt Hd FC Gn KH Hf Pf AL X) as (ns1 & v0 & b & _ & V0 & C & FK).
  rewrite V in V0. injection V0 as <-. destruct FC as (ND & _).
  destruct (parse_parts _ _ _ _ _ _ _ Hd ND P) as (m' & fs0 & fs' & -> & -> & _).
  inversion C as [|efd' f' ns' K1 Eq1 Eq2|efd' f' v0' ns' y K1 Nv I|efd' f' ty items ns' kids K1|efd' f' v0' ns' y K1|efd' f' ns' K1|efd' f' c xe' fs'' ns' K1|
     efd' f' c xe' fs'' name ci' xei fsi di' si ns' y K1];
    subst; try congruence;
    try (unfold is_attr in *; rewrite K in *; discriminate);
    try (unfold is_group in *; rewrite K in *; discriminate).
  cbn [map] in FK.
  inversion I as [|? ? ? ? ? ? _ Tg SH]; subst; [congruence|]. rewrite Ty in SH.
  inversion SH as [? ? ? ? tg yv kids XV' TK| |]; subst.
  rewrite XV in XV'. injection XV' as <-.
  destruct (parse_one _ _ _ _ _ _ _ _ f _ Hd ND NC Hf K FK P) as (w & w' & PW & AC & AS).
  exists fs', w, w'. repeat split; auto.
  destruct TK as [(Eq & _)|(t & [= <-] & ->)]; [discriminate|].
  assert (SA : simple_attrs s = []) by (destruct s; try reflexivity; now destruct (NL f0)).
  rewrite SA in PW. cbn in PW. rewrite Ty in PW. destruct (String.eqb text "") eqn:Te; cbn in PW; auto.
Qed.

(** A string element. *)
Lemma empty_string_lost n m O E ci di xe fs tag ns efd x f cls fac v' : names_ok E -> ncname_ok tag = true ->
  e_cls E ci = Some di -> flat_class di -> ns_good ns -> cd_kind di <> CKHeader -> cd_ind di <> IChoice ->
  In f (cd_fields di) -> f_kind f = KElement -> alone di f ->
  f_type f = TSimple (SString cls fac) -> assoc (f_name f) fs = Some (VStr ""%string) ->
  xml_of n O E (VObj ci xe fs) tag ns efd = Ok x -> parse_obj m O E ci (wire x) = Ok v' ->
  exists fs', v' = VObj ci (Some (wire x)) fs' /\ assoc (f_name f) fs' = Some VNone.
Proof.
  intros N Nt Hd FC Gn KH NC Hf K AL Ty V X P.
  destruct (elem_back n m O E ci di xe fs tag ns efd x f (VStr ""%string) _ ""%string v' N Nt Hd FC Gn KH NC Hf K AL Ty)
    as (fs' & w & w' & -> & PW & AC & AS); auto; try discriminate.
  cbn in PW. injection PW as <-. exists fs'. split; auto. rewrite AS. f_equal.
  unfold field_accept in AC. rewrite K in AC. now apply type_accept_none in AC.
Qed.
Lemma string_kept n m O E ci di xe fs tag ns efd x f cls fac t v' : names_ok E -> ncname_ok tag = true ->
  e_cls E ci = Some di -> flat_class di -> ns_good ns -> cd_kind di <> CKHeader -> cd_ind di <> IChoice ->
  In f (cd_fields di) -> f_kind f = KElement -> alone di f ->
  f_type f = TSimple (SString cls fac) -> assoc (f_name f) fs = Some (VStr t) -> t <> ""%string ->
  st_accept O (SString cls fac) (VStr t) = Ok (VStr t) ->
  xml_of n O E (VObj ci xe fs) tag ns efd = Ok x -> parse_obj m O E ci (wire x) = Ok v' ->
  exists fs', v' = VObj ci (Some (wire x)) fs' /\ assoc (f_name f) fs' = Some (VStr t).
Proof.
  intros N Nt Hd FC Gn KH NC Hf K AL Ty V Ne AT X P.
  destruct (elem_back n m O E ci di xe fs tag ns efd x f (VStr t) _ t v' N Nt Hd FC Gn KH NC Hf K AL Ty)
    as (fs' & w & w' & -> & PW & AC & AS); auto; try discriminate.
  apply String.eqb_neq in Ne. rewrite Ne in PW. cbn in PW. injection PW as <-. exists fs'. split; auto. rewrite AS. f_equal.
  unfold field_accept in AC. rewrite K, Ty in AC. cbn [type_accept] in AC. congruence.
Qed.

(** ** NIL *)
Ltac split_match H :=
  match type of H with
  | context [match ?x with _ => _ end] => destruct x; cbn [bind res_map] in H; try discriminate H; try congruence
  end.
Lemma accept_not_nil O s w : w <> VNil -> st_accept O s w <> Ok VNil.
Proof.
  intros N H. destruct s; unfold st_accept in H.
  7: unfold decimal_accept in H; destruct w; try discriminate;
     apply bind_ok in H as (v' & V & H); apply bind_ok in H as (? & _ & H); injection H as ->; try discriminate;
     destruct (o_float O s); discriminate.
  7: unfold integer_accept in H; destruct w; try discriminate;
     apply bind_ok in H as (v' & V & H); apply bind_ok in H as (? & _ & H); injection H as ->; try discriminate;
     destruct (int_of_str s); discriminate.
  all: unfold str_accept, bool_accept, date_accept, datetime_accept, time_accept,
      maxoccurs_accept, mk_xsddate, time_parse, bind, res_map in H; repeat split_match H; congruence.
Qed.
Lemma decimal_python_cases acc v : decimal_pythonvalue acc v = Ok VNone \/ decimal_pythonvalue acc v = acc v.
Proof.
  unfold decimal_pythonvalue. destruct v; auto.
  repeat (match goal with |- context [match ?y with _ => _ end] => is_var y; destruct y; auto end).
Qed.
Lemma python_not_nil O s w : w <> VNil -> st_pythonvalue O s w <> Ok VNil.
Proof.
  intros N H. destruct s; unfold st_pythonvalue in H; try congruence.
  - unfold bool_pythonvalue in H. repeat split_match H.
  - unfold date_pythonvalue, mk_xsddate, bind in H. repeat split_match H.
  - unfold datetime_pythonvalue, res_map in H. repeat split_match H.
  - unfold time_pythonvalue, time_parse in H. repeat split_match H.
  - destruct (decimal_python_cases (decimal_accept O f) w) as [A|A]; rewrite A in H; [discriminate|]. revert H. apply (accept_not_nil O (SDecimal cls f) w N).
  - destruct (decimal_python_cases (integer_accept O (mk_integer c user)) w) as [A|A]; rewrite A in H; [discriminate|]. revert H. apply (accept_not_nil O (SInteger c user) w N).
  - revert H. apply (accept_not_nil O SMaxOccurs w N).
Qed.
Lemma parse_obj_obj n O E c x v : parse_obj n O E c x = Ok v -> exists fs, v = VObj c (Some x) fs.
Proof.
  destruct n; [discriminate|]. rewrite parse_obj_S. intros H. apply bind_ok in H as (d & _ & H).
  repeat (apply bind_ok in H as (? & _ & H)). injection H as <-. eauto.
Qed.
Lemma parse_type_not_nil O E n t x : parse_type O (parse_obj n O E) t x <> Ok VNil.
Proof.
  destruct t as [s|c]; cbn.
  - apply python_not_nil. destruct (el_text x); discriminate.
  - intros H. apply parse_obj_obj in H as (fs & H). discriminate.
Qed.
Lemma type_accept_not_nil O E t w : w <> VNil -> type_accept O E t w <> Ok VNil.
Proof.
  intros N H. destruct t as [s|c]; cbn in H.
  - revert H. now apply accept_not_nil.
  - unfold complex_accept in H. apply bind_ok in H as (d & _ & H).
    assert (Q : forall b : bool, (if b then Ok w else Err ValueError) = Ok VNil -> False) by (intros []; congruence).
    destruct (cd_kind d); try congruence; destruct w; try congruence; eauto.
Qed.

Lemma Forall2_weaken {A B} (R R' : A -> B -> Prop) l l' : (forall x y, R x y -> R' x y) -> Forall2 R l l' -> Forall2 R' l l'.
Proof. induction 2; constructor; auto. Qed.
Lemma elem_nil_iff n O E c d x xe fs f y : e_cls E c = Some d -> NoDup (map f_name (cd_fields d)) ->
  cd_ind d <> IChoice -> In f (cd_fields d) -> f_kind f = KElement ->
  filter (belongs f) (el_kids x) = [y] -> parse_obj n O E c x = Ok (VObj c xe fs) ->
  (assoc (f_name f) fs = Some VNil <-> el_get y xsi_nil = Some "true"%string).
Proof.
  intros Hd ND NC Hf K Hk H. destruct n as [|n]; [discriminate|].
  destruct (parse_one _ _ _ _ _ _ _ _ f y Hd ND NC Hf K Hk H) as (w & w' & PW & AC & AS). rewrite AS.
  unfold field_accept in AC. rewrite K in AC.
  destruct (el_get y xsi_nil) as [s|].
  - destruct (String.eqb s "true") eqn:Ne; [apply String.eqb_eq in Ne; subst s|apply String.eqb_neq in Ne].
    + injection PW as <-. destruct (f_nillable f); [|discriminate]. injection AC as <-. easy.
    + assert (Nw : w <> VNil) by (intros ->; now apply parse_type_not_nil in PW).
      split; [|congruence]. intros [= ->]. exfalso. apply (type_accept_not_nil O E (f_type f) w Nw).
      destruct w; congruence.
  - assert (Nw : w <> VNil) by (intros ->; now apply parse_type_not_nil in PW).
    split; [|congruence]. intros [= ->]. exfalso. apply (type_accept_not_nil O E (f_type f) w Nw).
    destruct w; congruence.
Qed.
Lemma list_nil_iff n O E c d x xe fs f : e_cls E c = Some d -> NoDup (map f_name (cd_fields d)) ->
  cd_ind d <> IChoice -> In f (cd_fields d) -> f_kind f = KList ->
  parse_obj n O E c x = Ok (VObj c xe fs) ->
  exists items, assoc (f_name f) fs = Some (VList true items) /\
    Forall2 (fun y w => w = VNil <-> exists s, el_get y xsi_nil = Some s /\ s <> ""%string)
      (filter (belongs f) (el_kids x)) items.
Proof.
  intros Hd ND NC Hf K H. destruct n as [|n]; [discriminate|].
  destruct (parse_many _ _ _ _ _ _ _ _ f Hd ND NC Hf K H) as (items & AS & F). exists items. split; auto.
  eapply Forall2_weaken; [|exact F]. intros y w' (w & PW & AC). cbn beta in *.
  assert (T : truthy_str (el_get y xsi_nil) = true <-> exists s, el_get y xsi_nil = Some s /\ s <> ""%string).
  { unfold truthy_str. destruct (el_get y xsi_nil) as [s|].
    - destruct s; split; intros Q; try discriminate Q; auto.
      + destruct Q as (s' & Q1 & Q2). congruence.
      + eexists. split; [reflexivity|discriminate].
    - split; [discriminate|]. intros (s' & Q1 & _). discriminate. }
  destruct (truthy_str (el_get y xsi_nil)).
  - injection PW as <-. destruct (f_nillable f); [|discriminate]. injection AC as <-. tauto.
  - assert (Nw : w <> VNil) by (intros ->; now apply parse_type_not_nil in PW).
    rewrite <- T. split; [|discriminate]. intros ->. exfalso. apply (type_accept_not_nil O E (f_type f) w Nw).
    destruct w; congruence.
Qed.

(** ** Choice *)
Lemma choice_unnamed n O E c d x v : e_cls E c = Some d -> NoDup (map f_name (cd_fields d)) -> cd_ind d = IChoice ->
  (forall g, In g (cd_fields d) -> is_plain g = true -> ~ names_field x g) ->
  parse_obj n O E c x = Ok v ->
  exists fs, v = VObj c (Some x) fs /\
    forall g, In g (cd_fields d) -> is_plain g = true -> fresh_value O E c g (assoc (f_name g) fs).
Proof.
  intros Hd ND Hc Hn P. destruct (parse_parts _ _ _ _ _ _ _ Hd ND P) as (m & fs0 & fs & -> & -> & H0 & _ & V).
  exists fs. split; auto. intros g Hg Pg. exists fs0. split; auto.
  destruct (V Hc) as [(pre & f & post & fsa & fsb & Eq & _ & B & _)|[_ B]]; [|now apply B].
  exfalso. assert (In f (filter is_plain (cd_fields d))) by (rewrite Eq; apply in_elt).
  apply filter_In in H as [Hf Pf]. now apply (Hn f Hf Pf).
Qed.
Lemma choice_named n O E c d x v pre f post : e_cls E c = Some d -> NoDup (map f_name (cd_fields d)) -> cd_ind d = IChoice ->
  filter is_plain (cd_fields d) = pre ++ f :: post -> (forall g, In g pre -> ~ names_field x g) -> names_field x f ->
  f_kind f = KElement -> el_get x xsi_nil <> Some "true"%string ->
  parse_obj (S n) O E c x = Ok v ->
  exists fs w w', v = VObj c (Some x) fs /\ parse_type O (parse_obj n O E) (f_type f) x = Ok w /\
    field_accept O E f w = Ok w' /\ assoc (f_name f) fs = Some w' /\
    forall g, In g (cd_fields d) -> is_plain g = true -> g <> f -> fresh_value O E c g (assoc (f_name g) fs).
Proof.
  intros Hd ND Hc Eq Np Nf K NN P.
  destruct (parse_parts _ _ _ _ _ _ _ Hd ND P) as (m & fs0 & fs & [= <-] & -> & H0 & _ & V).
  assert (Hf : In f (cd_fields d) /\ is_plain f = true) by (apply filter_In; rewrite Eq; apply in_elt).
  destruct Hf as [Hf Pf].
  destruct (V Hc) as [(pre' & f' & post' & fsa & fsb & Eq' & A' & B' & C' & D' & E')|[N _]]; [|now destruct (N f Hf Pf)].
  assert (f' = f).
  { rewrite Eq in Eq'. clear - Np Nf A' B' Eq'. revert pre' A' Eq'. induction pre as [|a pre IH]; intros [|b pre'] A Q; cbn in Q.
    - congruence.
    - injection Q as <- Q. destruct (A f (or_introl eq_refl) Nf).
    - injection Q as -> Q. destruct (Np f' (or_introl eq_refl) B').
    - injection Q as -> Q. apply (IH (fun g Hg => Np g (or_intror Hg)) pre' (fun g Hg => A g (or_intror Hg)) Q). }
  subst f'. pose proof D' as FR. unfold parse_field in D'. rewrite K in D'.
  assert (NT : match el_get x xsi_nil with Some s => String.eqb s "true" | None => false end = false).
  { destruct (el_get x xsi_nil) as [s|]; auto. apply String.eqb_neq. congruence. }
  rewrite NT in D'. apply bind_ok in D' as (w & W & D'). apply setattr_ok in D' as (g & w' & Fg & Acc & ->).
  rewrite (find_field_in _ _ ND Hf) in Fg. injection Fg as <-.
  exists fs, w, w'. repeat split; auto.
  - rewrite E' by auto. apply assoc_set_same.
  - intros g Hg Pg D. exists fs0. split; auto. rewrite E', (parse_field_frame _ _ _ _ _ _ _ _ FR); auto.
    intros Q. apply D. eapply same_name; eauto.
Qed.

(** ** References to ordinary complex types *)
Lemma ref_lost n m O E c d f ct dt xe fs tag ns efd x v : names_ok E -> ncname_ok tag = true ->
  e_cls E c = Some d -> cd_ind d <> IChoice -> cd_kind d <> CKHeader -> cd_fields d = [f] -> f_kind f = KRef ->
  f_type f = TComplex ct -> f_nillable f = false ->
  e_cls E ct = Some dt -> cd_kind dt <> CKHeader -> cd_kind dt <> CKGroup -> cd_ind dt <> IChoice -> NoDup (map f_name (cd_fields dt)) ->
  (forall fv, assoc (f_name f) fs = Some fv -> is_group_obj E fv = false) ->
  ns_good ns -> ns_good (match cd_schema d with Some si => si_tns si | None => None end) ->
  (forall g, In g (cd_fields dt) -> is_plain g = true -> f_name g <> tag_or_name f /\ f_tag g <> Some (tag_or_name f)) ->
  xml_of n O E (VObj c xe fs) tag ns efd = Ok x -> parse_obj m O E c (wire x) = Ok v ->
  exists fst, v = VObj c (Some (wire x)) [(f_name f, VObj ct (Some (wire x)) fst)] /\
    forall g, In g (cd_fields dt) -> is_plain g = true -> fresh_value O E ct g (assoc (f_name g) fst).
Proof.
  intros N Nt Hd NC KH Fs K Ty Nil Hdt KHt KGt NCt NDt NG Gn Gt U X P.
  assert (ND : NoDup (map f_name (cd_fields d))) by (rewrite Fs; repeat constructor; auto).
  assert (Nf : ncname_ok (tag_or_name f) = true) by (apply (N c d); auto; rewrite Fs; now left).
  destruct (parse_parts _ _ _ _ _ _ _ Hd ND P) as (m' & fs0 & fs' & -> & -> & H0 & V & _).
  (* what was written *)
  apply xml_of_shape in X as [Tg SH]; auto.
  inversion SH as [| |? ? ? ? tg entries blocks wss Fl C W]; subst.
  inversion Fl as [? ? d' ? di' ? ? ns1 eb Hd1 Hd2 Hn F]; subst.
  assert (d' = d) by congruence. assert (di' = d) by congruence. subst d' di'.
  rewrite Fs in F. inversion F as [|? b ? ? Fb F']; subst. inversion F'; subst. clear F F'.
  assert (G1 : ns_good ns1).
  { unfold ns_in_force in Hn. destruct (cd_schema d) as [si|]; [now subst|]. destruct (cd_kind d); subst; auto. congruence. }
  inversion Fb as [? ? ? ? fv ? G Ty' A GO Fl'|? ? ? fv A B]; subst.
  { rewrite (NG fv A) in GO. discriminate. }
  cbn [concat app] in C, W, SH, Fl. clear Fl Fb.
  assert (Af : is_attr f = false) by (unfold is_attr; now rewrite K).
  inversion W as [|? ws ? ? W1 W2]; subst. inversion W2; subst. cbn in W1. rewrite Af in W1. subst ws. clear W W2.
  inversion C as [|? ks ? ? C1 C2]; subst. inversion C2; subst. clear C C2. cbn [concat] in *.
  assert (AN : ks ++ [] = ks) by apply app_nil_r. rewrite AN in P, V, SH, Tg |- *. clear AN.
  cbn [fold_left] in *.
  assert (Hin : In f (cd_fields d)) by (rewrite Fs; now left).
  set (X0 := wire (Elem tg [] ks)) in *.
  assert (XN : el_get X0 xsi_nil = None) by reflexivity.
  destruct (parse_ref_value _ _ _ _ _ _ _ _ f Hd ND Hin K XN P) as (w & w' & PW & AC & AS).
  rewrite Ty in PW. cbn [parse_type] in PW.
  destruct (parse_obj_obj _ _ _ _ _ _ PW) as (fst & ->).
  unfold field_accept in AC. rewrite K, Ty in AC. cbn [type_accept] in AC.
  assert (w' = VObj ct (Some X0) fst).
  { unfold complex_accept, get_class in AC. rewrite Hdt in AC. cbn [bind] in AC.
    destruct (cd_kind dt); try congruence; destruct is_instance; congruence. }
  subst w'. exists fst. split.
  - f_equal. destruct (new_instance_ok _ _ _ _ _ Hd ND H0) as [(Keys & _) _].
    destruct (V f Hin) as (fsa & fsb & Va & Vb & Vc); [right; unfold is_plain, is_attr, is_group; now rewrite K|].
    (* the only key *)
    assert (KF : map (@Datatypes.fst string pyval) fs' = [f_name f]).
    { destruct m' as [|m']; [discriminate|].
      clear - P Hd ND Fs Keys H0 K X0. rewrite parse_obj_S in P. unfold get_class in P. rewrite Hd in P. cbn [bind] in P.
      apply bind_ok in P as (g0 & G0 & P). rewrite H0 in G0. injection G0 as <-.
      assert (FA : filter is_attr (cd_fields d) = []) by (rewrite Fs; cbn; unfold is_attr; now rewrite K).
      assert (FP : filter is_plain (cd_fields d) = []) by (rewrite Fs; cbn; unfold is_plain, is_attr, is_group; now rewrite K).
      assert (FG : filter is_group (cd_fields d) = [f]) by (rewrite Fs; cbn; unfold is_group; now rewrite K).
      rewrite FA, FP, FG in P. cbn [foldM bind] in P.
      assert (P' : (fs3 <- (a' <- parse_field O E (parse_obj (S m') O E) (cd_fields d) f fs0 X0 ;; Ok a') ;; Ok (VObj c (Some X0) fs3)) = Ok (VObj c (Some X0) fs')).
      { destruct (cd_ind d); exact P. }
      apply bind_ok in P' as (fs3 & P1 & P2). injection P2 as <-. apply bind_ok in P1 as (a & P1 & [= <-]).
      unfold parse_field in P1. rewrite K in P1. apply bind_ok in P1 as (w & _ & P1).
      apply setattr_ok in P1 as (g & w' & _ & _ & ->). rewrite assoc_set_keys; rewrite Keys, Fs; [reflexivity|now left]. }
    destruct fs' as [|[k1 v1] [|]]; try discriminate. injection KF as ->. cbn in AS. rewrite String.eqb_refl in AS.
    injection AS as ->. reflexivity.
  - intros g Hg Pg. destruct (parse_absent m' O E ct dt X0 fst (Some X0) g Hdt NDt NCt Hg Pg) as (fs1 & P1 & P2); [|exact PW|exists fs1; auto].
      intros y Hy. pose proof (children_elems _ _ _ _ _ C1) as EL. rewrite Forall_forall in EL.
      assert (KE : el_kids X0 = map wire ks).
      { cbn. apply merge_elems, Forall_forall. intros z Hz. apply in_map_iff in Hz as (z' & <- & Hz'). apply wire_is_elem. auto. }
      rewrite KE in Hy. apply in_map_iff in Hy as (z & <- & Hz). rewrite belongs_wire.
      pose proof (children_tags _ _ _ _ _ _ C1 Hz) as CT. unfold child_tag_ok in CT. rewrite K in CT.
      assert (L : local_name (el_tag z) = tag_or_name f).
      { rewrite CT. unfold ref_tag. destruct ns1 as [n1|]; [|now apply local_plain].
        destruct (String.eqb n1 ""); [now apply local_plain|]. now apply local_clark. }
      destruct (U g Hg Pg). apply tag_not_belongs; auto; rewrite L; congruence.
Qed.
