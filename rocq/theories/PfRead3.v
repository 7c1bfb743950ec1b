(** Elements that fit the XSD document of a class are read, continued. *)
From Coq Require Import String Ascii List ZArith NArith Bool Lia Permutation.
From Verif Require Import PyBase PyRe Xml PyVal XsdSimple XsdComplex LibClasses Py2Xsd SpecXsd SpecSimple SpecRound SpecTotal SpecValid SpecGiven SpecRead SpecParse SpecObject PfBase PfSimple PfObject PfParse PfRound PfValid PfValid2 PfValid3 PfRead PfRead2.
From Verif Require PfValid4.
Import ListNotations.
Open Scope nat_scope.
Open Scope string_scope.
Open Scope list_scope.

Lemma str_in_true c l : In c l -> str_in c l = true.
Proof. intros H. unfold str_in. apply existsb_exists. exists c. split; [exact H | apply String.eqb_refl]. Qed.
Lemma height_child x y : In y (el_children x) -> height y < height x.
Proof.
  destruct x as [t a k| | |]; try (intros []; fail). unfold el_children. cbn [el_kids height]. intros H. apply filter_In in H as [H _].
  apply le_n_S. apply list_max_in. now apply in_map.
Qed.
Lemma called_in s n k y : In y (called s n k) <-> In y k /\ el_tag y = child_tag s n.
Proof. unfold called. rewrite filter_In, String.eqb_eq. reflexivity. Qed.

Section Schema.
  Variable O : oracle. Variable E : env. Variable G : decls. Variable s : gschema. Variable mean : string -> re.
  Hypothesis HO : reads_numbers O.
  Hypothesis HS : schema_ok mean E G s.
  Hypothesis HR : schema_readable O E G s.
  Notation D := (the_doc O E G s).
  Notation HN := (proj1 (proj2 HS)).

  (** ** Which children belong to a field *)
  Lemma tag_local n : ncname_ok n = true -> local_name (child_tag s n) = n.
  Proof.
    intros H. unfold child_tag. destruct (String.eqb (gs_efd s) "qualified"); [apply local_clark; apply HR | now apply local_plain].
  Qed.
  Lemma own_tag f : tag_or_name f = f_name f \/ f_tag f = Some (tag_or_name f).
  Proof. unfold tag_or_name. destruct (f_tag f) as [t|]; [|auto]. destruct (String.eqb t ""); auto. Qed.
  Lemma apart_nodup (fs : list field) : NoDup (map f_name fs) -> told_apart fs -> NoDup (map tag_or_name (filter is_plain fs)).
  Proof.
    intros Hn Ha.
    assert (X : forall l, NoDup l -> (forall f, In f l -> In f fs) -> NoDup (map tag_or_name l)).
    { induction 1 as [|f l Hf _ IHl]; intros Hl; [constructor|]. cbn [map]. constructor; [|apply IHl; intros g Hg; apply Hl; now right].
      intros C. apply in_map_iff in C as (g & Hfg & Hg). apply Hf. replace f with g; [exact Hg|].
      apply (Ha f g); [apply Hl; now left | apply Hl; now right|]. rewrite Hfg. apply own_tag. }
    apply X; [apply NoDup_filter; now apply NoDup_map_inv in Hn|]. intros f Hf. now apply filter_In in Hf as [Hf _].
  Qed.
  Lemma belongs_called fs k f : told_apart fs -> In f fs -> ncname_ok (tag_or_name f) = true ->
    (forall y, In y k -> exists g t a l, In g fs /\ ncname_ok (tag_or_name g) = true /\ y = Elem t a l /\ t = child_tag s (tag_or_name g)) ->
    filter (belongs f) k = called s (tag_or_name f) k.
  Proof.
    intros Ha Hf Hnf Hk. unfold called. apply filter_ext_in. intros y Hy. destruct (Hk y Hy) as (g & t & a & l & Hg & Hn & -> & ->).
    cbn [belongs el_tag]. rewrite (tag_local _ Hn). apply eq_true_iff_eq. rewrite String.eqb_eq, orb_true_iff, String.eqb_eq. split.
    - intros H. assert (X : g = f); [|now subst]. apply (Ha f g Hf Hg). destruct H as [H | H]; [auto|]. right. destruct (f_tag f) as [t'|]; [|discriminate H]. apply String.eqb_eq in H. congruence.
    - intros H. assert (X : tag_or_name g = tag_or_name f) by (rewrite <- (tag_local _ Hn), H; now apply tag_local). rewrite X.
      destruct (own_tag f) as [Y | Y]; [left; exact Y | right; rewrite Y; apply String.eqb_refl].
  Qed.

  (** ** One element *)
  Definition reads_below (n : nat) : Prop :=
    forall c b y k k' tag, (In c (gs_complex s) \/ class_ok mean E G s c /\ class_readable O E G c) -> y = Elem tag [] k -> elements k k' -> content mean D (describe_class O G b c (class_of E c)) k' ->
      spelled E s (TComplex c) y -> height y < n -> exists v, parse_obj n O E c y = Ok v /\ says O E s (TComplex c) y v.
  Lemma readable c : In c (gs_complex s) -> class_ok mean E G s c /\ class_readable O E G c.
  Proof.
    intros H. destruct HS as (_ & _ & H1 & _). destruct HR as (_ & _ & H2 & _). rewrite Forall_forall in H1, H2. auto.
  Qed.
  Lemma says_object c y v : says O E s (TComplex c) y v -> exists fs, v = VObj c (Some y) fs.
  Proof. inversion 1; subst. eauto. Qed.
  Lemma object_accepted c y v : class_ok mean E G s c -> class_readable O E G c -> says O E s (TComplex c) y v -> type_accept O E (TComplex c) v = Ok v.
  Proof.
    intros (d & Ed & Hk & _) (d' & Ed' & _ & Hm & _) H. assert (d' = d) by congruence. subst d'. destruct (says_object c y v H) as (fs & ->).
    cbn [type_accept]. unfold complex_accept, get_class. rewrite Ed. cbn [bind]. unfold is_instance. rewrite Ed, (str_in_true _ _ Hm). destruct (cd_kind d); try reflexivity.
  Qed.
  Lemma item_reads n c i f y : reads_below n -> field_ok mean G s c i f -> (forall u, f_type f = TSimple u -> type_plain u /\ (dc_class G c f = false -> facets_shown G u)) ->
    fits mean D (describe_element O G c f) y -> spelled E s (f_type f) y -> height y < n ->
    (f_nillable f = true /\ exists tag, y = Elem tag [(xsi_nil, "true")] []) \/
    (exists v tag k, y = Elem tag [] k /\ parse_type O (parse_obj n O E) (f_type f) y = Ok v /\ says O E s (f_type f) y v /\ type_accept O E (f_type f) v = Ok v /\ v <> VNil).
  Proof.
    intros IH Hf Hp Hfit Hsp Hh. pose proof Hf as (_ & _ & _ & Ht).
    destruct (typed_fits O E G s mean HS HR c i f y Hf Hfit) as [H | [(u & tag & k & w & Hu & -> & Ho & Hx) | (c' & tag & k & k' & Hc' & Hin & -> & Hk & Hco)]].
    - left. exact H.
    - right. rewrite Hu in *. destruct (Hp u eq_refl) as [Hpl Hsh]. destruct Ho as [[-> ->] | ->].
      + exists VNone, tag, []. split; [reflexivity|]. cbn [parse_type el_text lead_text el_kids].
        split; [|split; [now constructor | split; [|discriminate]]].
        * assert (Hlib : match u with SMaxOccurs | SAbstract | SLang _ => False | _ => True end).
          { clear - Hu Ht. unfold type_ok in Ht. destruct (dc_class G c f).
            - rewrite Hu in Ht. destruct Ht as [Hb | (st & _ & (c0 & f0 & _ & _ & _ & -> & _))]; [destruct u; try contradiction; exact I | exact I].
            - destruct Ht as (u' & Hu' & Hr). assert (u' = u) by congruence. subst u'. destruct u; try contradiction; exact I. }
          destruct u; try contradiction; reflexivity.
        * assert (Hlib : match u with SMaxOccurs | SAbstract | SLang _ => False | _ => True end).
          { clear - Hu Ht. unfold type_ok in Ht. destruct (dc_class G c f).
            - rewrite Hu in Ht. destruct Ht as [Hb | (st & _ & (c0 & f0 & _ & _ & _ & -> & _))]; [destruct u; try contradiction; exact I | exact I].
            - destruct Ht as (u' & Hu' & Hr). assert (u' = u) by congruence. subst u'. destruct u; try contradiction; exact I. }
          destruct u; try contradiction; reflexivity.
      + assert (Hb : u = SBoolean -> w <> "0" /\ w <> "1").
        { intros ->. inversion Hsp as [u' x' Hsl|]; subst. apply (Hsl eq_refl). now left. }
        destruct (text_reads O E G s mean HO HS HR c f u w Ht Hu Hpl Hsh Hb Hx) as (v & Hv & Hst & Ha & Hn).
        exists v, tag, [Text w]. split; [reflexivity|]. split; [exact Hv|]. split; [now apply (sy_text O E s u _ w)|]. split; [exact Ha | exact Hn].
    - right. rewrite Hc' in *. destruct (readable c' Hin) as [K1 K2].
      destruct (IH c' true (Elem tag [] k) k k' tag (or_introl Hin) eq_refl Hk Hco Hsp Hh) as (v & Hv & Hsay).
      exists v, tag, k. split; [reflexivity|]. split; [exact Hv|]. split; [exact Hsay|]. split; [exact (object_accepted c' _ v K1 K2 Hsay)|].
      destruct (says_object c' _ v Hsay) as (fs & ->). discriminate.
  Qed.
  Lemma plain_not_nil tag k : ~ is_nil (Elem tag [] k).
  Proof. unfold is_nil. cbn. discriminate. Qed.

  (** ** One field *)
  Section Field.
    Variable n : nat. Variable c : string. Variable d : classdef. Variable f : field.
    Hypothesis IH : reads_below n.
    Hypothesis HF : field_ok mean G s c (cd_ind d) f.
    Hypothesis HP : forall u, f_type f = TSimple u -> type_plain u /\ (dc_class G c f = false -> facets_shown G u).
    Hypothesis HND : NoDup (map f_name (cd_fields d)).
    Hypothesis HI : In f (cd_fields d).
    Notation step := (fun fs y => parse_field O E (parse_obj n O E) (cd_fields d) f fs y).

    Lemma set_field fs v : field_accept O E f v = Ok v -> setattr O E (cd_fields d) fs (f_name f) v = Ok (assoc_set (f_name f) v fs).
    Proof. intros H. unfold setattr. rewrite (find_field_in _ _ HND HI). cbn [bind]. rewrite H. reflexivity. Qed.
    Lemma element_reads fs y : f_kind f = KElement -> fits mean D (describe_element O G c f) y -> spelled E s (f_type f) y -> height y < n ->
      exists v, step fs y = Ok (assoc_set (f_name f) v fs) /\ holds O E s f [y] v.
    Proof.
      intros Hk Hfit Hsp Hh. destruct (item_reads n c _ f y IH HF HP Hfit Hsp Hh) as [(Hn & tag & ->) | (v & tag & k & -> & Hv & Hs & Ha & Hn)]; unfold parse_field; rewrite Hk.
      - exists VNil. split; [|apply ho_nil; [exact Hk | reflexivity]]. cbn [el_get el_attrs assoc]. rewrite String.eqb_refl. cbn [String.eqb bind]. change (String.eqb "true" "true") with true. cbv iota. cbn [bind].
        apply set_field. unfold field_accept. now rewrite Hk, Hn.
      - exists v. split; [|apply ho_value; [exact Hk | apply plain_not_nil | exact Hs]]. cbn [el_get el_attrs assoc]. rewrite Hv. cbn [bind].
        apply set_field. unfold field_accept. rewrite Hk. destruct v; try exact Ha. now destruct Hn.
    Qed.
    Lemma list_reads ys : f_kind f = KList -> Forall (fun y => fits mean D (describe_element O G c f) y /\ spelled E s (f_type f) y /\ height y < n) ys ->
      forall fs l0, assoc (f_name f) fs = Some (VList true l0) -> exceeds (Z.of_nat (length l0 + length ys)) (f_max f) = false ->
      exists vs, Forall2 (fun x v => is_nil x /\ v = VNil \/ ~ is_nil x /\ says O E s (f_type f) x v) ys vs /\
        foldM step fs ys = Ok (assoc_set (f_name f) (VList true (l0 ++ vs)) fs).
    Proof.
      intros Hk. induction 1 as [|y ys (Hfit & Hsp & Hh) _ IHys]; intros fs l0 Ha Hm.
      - exists []. split; [constructor|]. rewrite app_nil_r. cbn [foldM]. now rewrite assoc_set_id.
      - cbn [length] in Hm.
        assert (Hone : exists v, (is_nil y /\ v = VNil \/ ~ is_nil y /\ says O E s (f_type f) y v) /\ step fs y = Ok (assoc_set (f_name f) (VList true (l0 ++ [v])) fs)).
        { assert (X : exceeds (Z.of_nat (length l0) + 1) (f_max f) = false).
          { destruct (f_max f) as [|z|]; try reflexivity. cbn [exceeds] in *. apply Z.ltb_ge in Hm. apply Z.ltb_ge. lia. }
          destruct (item_reads n c _ f y IH HF HP Hfit Hsp Hh) as [(Hn & tag & ->) | (v & tag & k & -> & Hv & Hs & Hacc & Hn)]; unfold parse_field; rewrite Hk.
          - exists VNil. split; [left; split; reflexivity|]. cbn [el_get el_attrs assoc]. rewrite String.eqb_refl. cbn [truthy_str]. change (String.eqb "true" "") with false. cbn [negb bind].
            unfold getattr. rewrite Ha. cbn [bind]. unfold tl_append. rewrite Hn. cbn [bind]. rewrite X. reflexivity.
          - exists v. split; [right; split; [apply plain_not_nil | exact Hs]|]. cbn [el_get el_attrs assoc truthy_str]. rewrite Hv. cbn [bind].
            unfold getattr. rewrite Ha. cbn [bind]. unfold tl_append.
            replace (match v with VNil => if f_nillable f then Ok VNil else Err ValueError | _ => type_accept O E (f_type f) v end) with (Ok v) by (destruct v; try (symmetry; exact Hacc); now destruct Hn).
            cbn [bind]. rewrite X. reflexivity. }
        destruct Hone as (v & Hv & Hstep).
        destruct (IHys (assoc_set (f_name f) (VList true (l0 ++ [v])) fs) (l0 ++ [v])) as (vs & Hvs & Hfold).
        { apply assoc_set_same. }
        { rewrite app_length. cbn [length]. replace (length l0 + 1 + length ys) with (length l0 + S (length ys)) by lia. exact Hm. }
        exists (v :: vs). split; [now constructor|]. cbn [foldM]. rewrite Hstep. cbn [bind]. rewrite Hfold, assoc_set_twice, <- app_assoc. reflexivity.
    Qed.
    Lemma run_reads ys fs0 fs : SpecValid.occurs mean D (describe_element O G c f) ys -> Forall (fun y => spelled E s (f_type f) y /\ height y < n) ys ->
      f_default f = VNone -> assoc (f_name f) fs = assoc (f_name f) fs0 ->
      (f_kind f = KList -> assoc (f_name f) fs0 = Some (VList true [])) -> (f_kind f = KElement -> assoc (f_name f) fs0 = Some VNone) ->
      exists v, foldM step fs ys = Ok (assoc_set (f_name f) v fs) /\ holds O E s f ys v.
    Proof.
      intros Hocc Hys Hdf Has Hl He. inversion Hocc as [dd nn kk Htag Hnm Hmin Hmax Hall]; subst.
      assert (Hfit : Forall (fun y => fits mean D (describe_element O G c f) y /\ spelled E s (f_type f) y /\ height y < n) ys).
      { rewrite Forall_forall in *. intros y Hy. destruct (Hall y Hy), (Hys y Hy). auto. }
      pose proof HF as (_ & _ & Ho & _). unfold occurrence_ok in Ho. unfold at_most in Hmax. rewrite decl_max in Hmax.
      destruct (f_kind f) eqn:Hk; try contradiction.
      - destruct ys as [|y [|y2 ys]].
        + exists VNone. cbn [foldM]. rewrite assoc_set_id; [split; [reflexivity | now constructor]|]. rewrite Has. auto.
        + inversion Hfit as [|? ? (F1 & F2 & F3) _]; subst. destruct (element_reads fs y Hk F1 F2 F3) as (v & Hv & Hh). exists v. cbn [foldM]. rewrite Hv. cbn [bind]. auto.
        + cbn [length] in Hmax. lia.
      - destruct (list_reads ys Hk Hfit fs []) as (vs & Hvs & Hf).
        + rewrite Has. auto.
        + destruct (f_max f) as [|z|] eqn:Em; try reflexivity. cbn [exceeds app length]. destruct Hmax as [C | (z' & Hz & Hle)].
          * exfalso. pose proof (dec_Z_whole z) as W. rewrite C in W. destruct W as (sl & sg & ds & Ew & Hsg & Hd & Hne & _).
            destruct Hsg as [(-> & _) | [(-> & _) | (-> & _)]]; cbn in Ew; [|discriminate Ew|discriminate Ew]. rewrite <- Ew in Hd. discriminate Hd.
          * rewrite (PfValid4.whole_unique _ _ _ Hz (dec_Z_whole z)) in Hle. apply Z.ltb_ge. lia.
        + exists (VList true vs). split; [exact Hf | now apply ho_list].
    Qed.
  End Field.

  (** ** Classes *)
  Lemma class_reads n : reads_below n -> reads_below (S n).
  Proof.
    intros IH c b y k k' tag Hc -> Hk Hco Hsp Hh.
    assert (HK : class_ok mean E G s c /\ class_readable O E G c) by (destruct Hc as [Hc | Hc]; [now apply readable | exact Hc]).
    destruct HK as [(d & Ed & Hkind & Hsi & Hfs) (d' & Ed' & Hch & Hmro & Hnd & Hap & (fs0 & Hnew) & Hpl)]. assert (d' = d) by congruence. subst d'.
    rewrite Forall_forall in Hfs, Hpl.
    assert (Hplain : forall f, In f (cd_fields d) -> is_plain f = true).
    { intros f Hf. destruct (Hfs f Hf) as (_ & _ & Ho & _). exact (occurrence_plain _ f Ho). }
    assert (Ek' : el_children (Elem tag [] k) = k') by (destruct Hk as [-> _]; reflexivity).
    assert (Hg : group_of (describe_class O G b c (class_of E c)) (indicator_tag (cd_ind d)) (map (describe_element O G c) (filter is_plain (cd_fields d)))).
    { exists []. unfold class_of. rewrite Ed. reflexivity. }
    assert (Hnc : indicator_tag (cd_ind d) <> "choice") by (destruct (cd_ind d); [discriminate | now destruct Hch | discriminate]).
    destruct (PfValid4.content_runs O E G s mean _ _ _ _ Hco Hg Hnc) as (runs & Hr & Hpm).
    pose proof (apart_nodup (cd_fields d) Hnd Hap) as Hndt.
    assert (Hocc : forall f, In f (cd_fields d) -> SpecValid.occurs mean D (describe_element O G c f) (called s (tag_or_name f) k')).
    { intros f Hf. assert (Hf' : In f (filter is_plain (cd_fields d))) by (apply filter_In; auto).
      exact (PfValid4.occurs_permuted O E G s mean _ _ _ (PfValid4.called_run O E G s mean c _ runs f Hndt Hr Hf') (PfValid4.called_permuted s _ _ _ Hpm)). }
    assert (Htags : forall y, In y k' -> exists g t a l, In g (cd_fields d) /\ ncname_ok (tag_or_name g) = true /\ y = Elem t a l /\ t = child_tag s (tag_or_name g)).
    { intros y Hy. apply (Permutation_in y (Permutation_sym Hpm)) in Hy. apply in_concat in Hy as (run & Hrun & Hy).
      assert (X : exists g, In g (cd_fields d) /\ SpecValid.occurs mean D (describe_element O G c g) run).
      { clear - Hr Hrun. remember (map (describe_element O G c) (filter is_plain (cd_fields d))) as ds eqn:Ed.
        assert (Hds : forall x, In x ds -> exists g, In g (cd_fields d) /\ x = describe_element O G c g).
        { intros x Hx. rewrite Ed in Hx. apply in_map_iff in Hx as (g & <- & Hg). apply filter_In in Hg as [Hg _]. eauto. }
        clear Ed. induction Hr as [|x r ds runs Hxr Hr IH]; [destruct Hrun|]. destruct Hrun as [-> | Hrun].
        - destruct (Hds x) as (g & Hg & ->); [now left|]. eauto.
        - apply IH; [exact Hrun|]. intros x' Hx'. apply Hds. now right. }
      destruct X as (g & Hg' & Ho). pose proof (PfValid4.occurs_tags O E G s mean c g run Ho) as Ht. rewrite Forall_forall in Ht. specialize (Ht y Hy).
      inversion Ho as [dd nn kk _ _ _ _ Hall]; subst. rewrite Forall_forall in Hall. destruct (Hall y Hy) as [_ Hfit].
      destruct (Hfs g Hg') as (Hnn & _). exists g.
      inversion Hfit; subst; cbn [el_tag] in Ht; eauto 10. }
    rewrite parse_obj_S. unfold get_class. rewrite Ed. cbn [bind]. rewrite Hnew. cbn [bind].
    replace (filter is_attr (cd_fields d)) with (@nil field).
    2:{ symmetry. clear - Hplain. induction (cd_fields d) as [|f fs IHf]; [reflexivity|]. cbn [filter].
        pose proof (Hplain f (or_introl eq_refl)) as P. unfold is_plain in P. destruct (is_attr f); [discriminate P|]. apply IHf. intros g Hg. apply Hplain. now right. }
    replace (filter is_group (cd_fields d)) with (@nil field).
    2:{ symmetry. clear - Hplain. induction (cd_fields d) as [|f fs IHf]; [reflexivity|]. cbn [filter].
        pose proof (Hplain f (or_introl eq_refl)) as P. unfold is_plain in P. destruct (is_group f); [now rewrite andb_false_r in P|]. apply IHf. intros g Hg. apply Hplain. now right. }
    replace (filter is_plain (cd_fields d)) with (cd_fields d).
    2:{ clear - Hplain. induction (cd_fields d) as [|f fs IHf]; [reflexivity|]. cbn [filter].
        rewrite (Hplain f (or_introl eq_refl)). f_equal. apply IHf. intros g Hg. apply Hplain. now right. }
    cbn [foldM bind]. rewrite Ek'.
    assert (Hinit : map fst fs0 = map f_name (cd_fields d) /\ forall f, In f (cd_fields d) ->
        (f_kind f = KList -> assoc (f_name f) fs0 = Some (VList true [])) /\ (f_kind f = KElement -> assoc (f_name f) fs0 = Some VNone)).
    { destruct (new_instance_ok O E c d fs0 Ed Hnd Hnew) as [(K & _) L]. split; [exact K|]. intros f Hf. split.
      - intros Hkk. apply (L f Hf). unfold is_list. now rewrite Hkk.
      - intros Hkk. unfold new_instance in Hnew. destruct (e_limit E) as [|m]; [discriminate Hnew|].
        destruct (new_inst_vals m O E c d fs0 Ed Hnd Hnew) as [_ V]. destruct (V f Hf) as (ev & v & Hev & Hac & Hv). rewrite Hv. f_equal.
        unfold empty_value in Hev. rewrite Hkk in Hev. destruct (Hpl f Hf) as [Hdf _].
        assert (ev = VNone) as ->.
        { apply bind_ok in Hev as (inst & _ & Hev). congruence. }
        unfold field_accept in Hac. rewrite Hkk in Hac. exact (type_accept_none O E _ v Hac). }
    destruct Hinit as [Hkeys Hinit].
    destruct (fold_update
      (fun fs f => subs <- find_sub f k' ;; foldM (fun fs y => parse_field O E (parse_obj n O E) (cd_fields d) f fs y) fs subs)
      (fun f v => holds O E s f (called s (tag_or_name f) k') v) (map f_name (cd_fields d)) fs0 (cd_fields d) Hnd) with (fs := fs0) as (fs' & Hfold & Hkeys' & Hvals & _); auto.
    - intros f Hf. now apply in_map.
    - intros f fs Hf Hkk Has. rewrite find_sub_spec.
      replace (existsb is_pi k') with false.
      2:{ symmetry. apply not_true_iff_false. intros X. apply existsb_exists in X as (y & Hy & Py). destruct (Htags y Hy) as (g & t & a & l & _ & _ & -> & _). discriminate Py. }
      destruct (Hfs f Hf) as (Hnn & _). rewrite (belongs_called (cd_fields d) k' f Hap Hf Hnn Htags). cbn [bind].
      destruct (Hpl f Hf) as [Hdf Hty]. destruct (Hinit f Hf) as [I1 I2].
      apply (run_reads n c d f IH (Hfs f Hf) Hty Hnd Hf _ fs0 fs (Hocc f Hf)); auto.
      apply Forall_forall. intros y Hy. split.
      + inversion Hsp as [|c' d' x Ed'' Hsl]; subst. assert (d' = d) by congruence. subst d'. apply (Hsl f y Hf). exact Hy.
      + apply called_in in Hy as [Hy _]. rewrite <- Ek' in Hy. apply height_child in Hy. lia.
    - exists (VObj c (Some (Elem tag [] k)) fs'). split.
      + assert (Hm : (match cd_ind d with
              | IChoice => parse_choice O E (parse_obj n O E) (cd_fields d) (cd_fields d) fs0 (Elem tag [] k)
              | _ => foldM (fun fs f => subs <- find_sub f k' ;; foldM (fun fs y => parse_field O E (parse_obj n O E) (cd_fields d) f fs y) fs subs) fs0 (cd_fields d)
              end) = Ok fs') by (destruct (cd_ind d); [exact Hfold | now destruct Hch | exact Hfold]).
        rewrite Hm. reflexivity.
      + apply (sy_object O E s c d _ fs' Ed Hkeys'). intros f Hf. destruct (Hvals f Hf) as (v & Hv & Hh'). exists v. rewrite Ek'. auto.
  Qed.
  Lemma reads_all n : reads_below n.
  Proof. induction n as [|n IH]; [intros c b y k k' tag _ _ _ _ _ H; lia | now apply class_reads]. Qed.

  (** ** Documents *)
  Lemma valid_reads name el c x n : In (name, el) (gs_elements s) -> ge_type el = TComplex c -> el_tag x = clark (gs_tns s) name -> valid mean D x ->
    spelled E s (TComplex c) x -> height x < n -> exists v, parse_obj n O E c x = Ok v /\ says O E s (TComplex c) x v.
  Proof.
    intros Hin Ht Htag Hv Hsp Hh.
    assert (Hc : if ge_class el then In c (gs_complex s) else class_ok mean E G s c /\ class_readable O E G c).
    { destruct HS as (_ & _ & _ & H1). destruct HR as (_ & _ & _ & H2). rewrite Forall_forall in H1, H2. specialize (H1 _ Hin c Ht). specialize (H2 _ Hin c Ht). cbn [snd] in H1, H2. destruct (ge_class el); auto. }
    destruct x as [t a k|w|w|w].
    2-4: destruct Hv as (ns & m & dd & _ & _ & _ & Hf); inversion Hf.
    cbn [el_tag] in Htag. pose proof (PfValid4.valid_toplevel O E G s mean HN name el t a k Hin Htag Hv) as Hf.
    assert (At : assoc "type" (el_attrs (describe_toplevel O E G (name, el))) = if ge_class el then Some (type_ref (ge_type el)) else None).
    { unfold describe_toplevel, xel. cbn [el_attrs fst snd]. destruct (ge_class el), (ge_subst el); reflexivity. }
    assert (Ak : el_kids (describe_toplevel O E G (name, el)) = if ge_class el then [] else [describe_class O G false c (class_of E c)]).
    { unfold describe_toplevel, xel. cbn [el_kids snd]. rewrite Ht. reflexivity. }
    inversion Hf as [d0 tag Hn|d0 tag k0 w Ho Htx|d0 tag ct k0 k' Hct Hk Hco]; subst.
    - exfalso. unfold describe_toplevel, xel in Hn. cbn [el_attrs fst snd] in Hn. destruct (ge_class el), (ge_subst el); discriminate Hn.
    - exfalso. destruct Htx as [(q & Hq & Hx) | (t' & base & fs & Hq & Hkid & (a1 & a2 & -> & _) & _)]; rewrite At in Hq; destruct (ge_class el) eqn:Eg; try discriminate Hq.
      + injection Hq as <-. rewrite Ht in Hx. exact (class_no_text O E G s mean HS HR c w Hc Hx).
      + rewrite Ak in Hkid. unfold describe_class, xel in Hkid. assert (Y : clark ns_xsd "complexType" = clark ns_xsd "simpleType") by congruence. apply clark_inj in Y. discriminate Y.
    - destruct Hct as (_ & [(q & ns & m & Hq & Hns & Hnm & Hg) | (Hq & Hk1)]); rewrite At in Hq; destruct (ge_class el) eqn:Eg; try discriminate Hq.
      + injection Hq as <-. rewrite Ht in Hnm. unfold type_ref in Hnm. apply PfValid4.names_sns in Hnm as (_ & ->).
        rewrite (PfValid4.the_one_same _ _ _ _ Hg (class_found O E G s mean HN c Hc)) in Hco.
        exact (reads_all n c true _ k k' _ (or_introl Hc) eq_refl Hk Hco Hsp Hh).
      + rewrite Ak in Hk1. injection Hk1 as <-. exact (reads_all n c false _ k k' _ (or_intror Hc) eq_refl Hk Hco Hsp Hh).
  Qed.
End Schema.
