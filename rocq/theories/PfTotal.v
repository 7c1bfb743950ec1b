(** Parsing gives an object or a ValueError (C33); defaults of attributes
    (C64); classes that contain themselves (C65). *)
From Coq Require Import String Ascii List ZArith NArith Bool Lia.
From Verif Require Import PyBase PyRe Xml PyVal XsdDate XsdSimple XsdComplex SpecObject SpecParse SpecTotal
  PfBase PfSimple PfObject PfParse PfRound PfParse2 PfParse3.
Import ListNotations.
Open Scope Z_scope.

Section Total.
  Context (allowed : exn -> Prop) (VE : allowed ValueError).

Lemma oov_bind {A B} (r : res A) (k : A -> res B) : ok_or allowed r ->
  (forall a, r = Ok a -> ok_or allowed (k a)) -> ok_or allowed (bind r k).
Proof. intros [[a ->]|(e & -> & A0)] H; cbn; [now apply H|right; eauto]. Qed.
Lemma oov_map {A B} (g : A -> B) (r : res A) : ok_or allowed r -> ok_or allowed (res_map g r).
Proof. intros [[a ->]|(e & -> & A0)]; cbn; [left; eauto|right; eauto]. Qed.
Lemma oov_ok {A} (a : A) : ok_or allowed (Ok a).
Proof. left. eauto. Qed.
Lemma oov_ve {A} : ok_or allowed (@Err A ValueError).
Proof. right. eauto. Qed.
Lemma oov_err {A} e : allowed e -> ok_or allowed (@Err A e).
Proof. right. eauto. Qed.
Local Hint Resolve oov_ok oov_ve oov_map oov_err : core.
Lemma oov_if {A} (b : bool) (x y : res A) : ok_or allowed x -> ok_or allowed y ->
  ok_or allowed (if b then x else y).
Proof. destruct b; auto. Qed.

Lemma str_accept_oov f v : ok_or allowed (str_accept f v).
Proof.
  unfold str_accept. destruct v; auto.
  assert (C : forall o bad, ok_or allowed (check_int o bad)).
  { intros o bad. unfold check_int. destruct o; auto. destruct (z =? 0); auto. destruct (bad z); auto. }
  repeat (apply oov_bind; [|intros ? _]); auto.
  - destruct (sf_pattern f); auto. destruct re_match; auto.
  - destruct (sf_enum f) as [[|]|]; auto. destruct str_in; auto.
Qed.

Lemma py_leb_num v w : number v -> number w -> exists b, py_leb v w = Ok b.
Proof. unfold number, py_leb. destruct (num_of v), (num_of w); try congruence. eauto. Qed.
Lemma py_ltb_num v w : number v -> number w -> exists b, py_ltb v w = Ok b.
Proof. unfold number, py_ltb. destruct (num_of v), (num_of w); try congruence. eauto. Qed.
Lemma check_oov O f v : number_facets f -> number v -> ok_or allowed (check_restrictions O f v).
Proof.
  intros (A & B & C & D) N. unfold check_restrictions.
  assert (K : forall X (o : option X) bad, (forall a, o = Some a -> exists b, bad a = Ok b) -> ok_or allowed (check_opt o bad)).
  { intros X o bad H. unfold check_opt. destruct o as [a|]; auto. destruct (H a eq_refl) as [b ->]. cbn. destruct b; auto. }
  repeat (apply oov_bind; [|intros ? _]); apply K; intros; eauto using py_leb_num, py_ltb_num.
Qed.
Lemma overrides_number f c : number_facets f -> number_facets (apply_overrides f c).
Proof.
  intros (A & B & C & D). destruct c; cbn; unfold number_facets; cbn; (split; [|split; [|split]]); auto; try (now intros b [= <-]).
Qed.
Lemma mk_integer_number c u : number_facets u -> number_facets (mk_integer c u).
Proof.
  unfold mk_integer. generalize (int_mro c). intros l. revert u. induction l as [|k l IH]; cbn; auto.
  intros u H. apply IH. now apply overrides_number.
Qed.
Lemma integer_accept_oov O f v : number_facets f -> ok_or allowed (integer_accept O f v).
Proof.
  intros H. unfold integer_accept. destruct v; cbn [bind res_map]; auto.
  - apply oov_bind; [apply check_oov; auto; discriminate|auto].
  - apply oov_bind; [apply check_oov; auto; discriminate|auto].
  - destruct (int_of_str s) eqn:X; cbn [bind res_map].
    + apply oov_bind; [apply check_oov; auto; discriminate|auto].
    + apply int_of_str_err in X as ->. auto.
Qed.
Lemma decimal_accept_oov O f t : number_facets f -> (forall s e, o_float O s = Err e -> e = ValueError) ->
  ok_or allowed (decimal_accept O f (VStr t)).
Proof.
  intros H HO. unfold decimal_accept. destruct (o_float O t) eqn:X; cbn [bind res_map].
  - apply oov_bind; [apply check_oov; auto; discriminate|auto].
  - apply HO in X as ->. auto.
Qed.

(** Text (or no text) is read, and the result stored, or it is a ValueError. *)
Lemma tame_st O s raw : tame O allowed s -> raw = VNone \/ (exists t, raw = VStr t) ->
  ok_or allowed (st_pythonvalue O s raw) /\ forall w, st_pythonvalue O s raw = Ok w -> ok_or allowed (st_accept O s w).
Proof.
  intros T R. destruct T as [c f0|f0| | | |c u Hu|c f0 Hf HO|A1 A2|A1 A2]; cbn [st_pythonvalue st_accept].
    - split; auto. intros w [= <-]. apply str_accept_oov.
    - split; auto. intros w [= <-]. apply str_accept_oov.
    - split.
      + destruct R as [-> | [t ->]]; cbn; auto. repeat apply oov_if; auto.
      + intros w _. unfold bool_accept. destruct py_in; auto.
    - split.
      + destruct R as [-> | [t ->]]; cbn; auto. apply oov_if; auto. unfold time_parse. destruct iso_parse; auto.
      + intros w _. unfold time_accept, time_parse. destruct w; auto. destruct iso_parse; auto.
    - assert (M : forall v, raw = v -> ok_or allowed (maxoccurs_accept v)).
      { intros v <-. destruct R as [-> | [t ->]]; cbn; auto. unfold maxoccurs_accept. apply oov_if; auto.
        cbn. apply oov_map. destruct (int_of_str t) eqn:X; auto. apply int_of_str_err in X as ->. auto. }
      split; [now apply M|]. intros w Hw. destruct R as [-> | [t ->]].
      + injection Hw as <-. auto.
      + unfold maxoccurs_accept in Hw. destruct (py_in (VStr t) _) in Hw; [injection Hw as <-; left; eexists; reflexivity|].
        cbn [py_int res_map] in Hw. destruct (int_of_str t) as [z|]; [|discriminate]. injection Hw as <-.
        unfold maxoccurs_accept. apply oov_if; auto. left. eexists. reflexivity.
    - pose proof (fun v => integer_accept_oov O (mk_integer c u) v (mk_integer_number c u Hu)) as I.
      split; auto. destruct (decimal_python_cases (integer_accept O (mk_integer c u)) raw) as [-> | ->]; auto.
    - split.
      + destruct (decimal_python_cases (decimal_accept O f0) raw) as [-> | ->]; auto.
        destruct R as [-> | [t ->]]; [left; eexists; reflexivity|now apply decimal_accept_oov].
      + intros w Hw. destruct (decimal_python_cases (decimal_accept O f0) raw) as [Q|Q]; rewrite Q in Hw.
        * injection Hw as <-. left. eexists. reflexivity.
        * destruct R as [-> | [t ->]]; [injection Hw as <-; left; eexists; reflexivity|].
          unfold decimal_accept in Hw. destruct (o_float O t); [|discriminate]. cbn [bind res_map] in Hw.
          apply bind_ok in Hw as (u & Hu & Hw). injection Hw as <-. cbn [bind decimal_accept].
          rewrite Hu. cbn. auto.
    - split.
      + destruct R as [-> | [t ->]]; cbn; auto. apply oov_if; auto.
        destruct (match_date _) as [[[[y m] d] z]|]; auto. apply oov_bind.
        * destruct z as [| |neg hh [mm|]]; cbn; auto. apply oov_bind; auto. unfold py_timezone. apply oov_if; auto.
        * intros tz _. unfold mk_xsddate. apply oov_bind; auto. unfold py_date. repeat apply oov_if; auto.
      + intros w Hw. destruct R as [-> | [t ->]]; cbn in Hw; [injection Hw as <-; cbn; auto|].
        destruct (String.eqb t "nil"); [injection Hw as <-; cbn; auto|].
        destruct (match_date _) as [[[[y m] d] z]|]; [|discriminate]. apply bind_ok in Hw as (tz & _ & Hw). apply bind_ok in Hw as (u & _ & [= <-]). cbn. auto.
    - assert (I : forall t, ok_or allowed (iso_parse O t)).
      { intros t. unfold iso_parse. destruct iso_canonical; [apply oov_if; auto|]. destruct (o_iso O t) eqn:X; eauto. }
      split.
      + destruct R as [-> | [t ->]]; cbn; auto. apply oov_if; auto.
      + intros w Hw. destruct w; cbn; auto.
Qed.
Lemma accept_oov O E f w : ok_or allowed (type_accept O E (f_type f) w) -> ok_or allowed (field_accept O E f w).
Proof. unfold field_accept. intros H. destruct (f_kind f); auto; destruct w; auto; destruct (f_nillable f); auto. Qed.



  Section Classes.
  Context (O : oracle) (E : env) (P : string -> Prop) (rank : string -> nat) (top : nat).
  Context (HP : tame_classes O allowed E P rank top).

  Definition lists_ok (F : list field) (fs : list (string * pyval)) : Prop :=
    forall f, In f F -> f_kind f = KList -> exists t l, assoc (f_name f) fs = Some (VList t l).
  Definition good (F : list field) (r : res (list (string * pyval))) : Prop :=
    (exists e, r = Err e /\ allowed e) \/ exists fs, r = Ok fs /\ lists_ok F fs.

  Lemma good_fold F {X} (step : list (string * pyval) -> X -> res (list (string * pyval))) L :
    (forall x fs, In x L -> lists_ok F fs -> good F (step fs x)) -> forall fs, lists_ok F fs -> good F (foldM step fs L).
  Proof.
    induction L as [|x L IH]; intros H fs Hfs; cbn.
    - right. eauto.
    - destruct (H x fs (or_introl eq_refl) Hfs) as [(e & -> & A0) | (fs1 & -> & H1)]; cbn; [left; eauto|].
      apply IH; auto. intros y fs2 Hy. apply H. now right.
  Qed.
  Lemma good_bind F r k : good F r -> (forall fs, lists_ok F fs -> good F (k fs)) -> good F (bind r k).
  Proof. intros [(e & -> & A0) | (fs & -> & H)] K; cbn; [left; eauto|auto]. Qed.

  Lemma good_set F f fs v : NoDup (map f_name F) -> In f F -> f_kind f <> KList -> lists_ok F fs ->
    ok_or allowed (field_accept O E f v) -> good F (setattr O E F fs (f_name f) v).
  Proof.
    intros ND Hf K L [[w A]|(e & A & A0)]; unfold setattr; rewrite (find_field_in _ _ ND Hf); cbn [bind]; rewrite A; cbn.
    - right. eexists. split; eauto. intros g Hg Kg. rewrite assoc_set_other; auto.
      intros Q. assert (f = g) by (eapply same_name; eauto). congruence.
    - left. eauto.
  Qed.

  (** Reading one field from [x]. *)
  Lemma field_good n d f fs x : NoDup (map f_name (cd_fields d)) -> In f (cd_fields d) ->
    (forall s, f_type f = TSimple s -> tame O allowed s) ->
    (is_attr f = true -> (exists s, f_type f = TSimple s) /\ (f_default f = VNone \/ exists t, f_default f = VStr t)) ->
    (forall c', f_type f = TComplex c' -> ok_or allowed (parse_obj n O E c' x) /\ exists d', e_cls E c' = Some d') ->
    lists_ok (cd_fields d) fs -> good (cd_fields d) (parse_field O E (parse_obj n O E) (cd_fields d) f fs x).
  Proof.
    intros ND Hf T A C L.
    (* the value read for the type *)
    assert (PT : ok_or allowed (parse_type O (parse_obj n O E) (f_type f) x) /\
       forall w, parse_type O (parse_obj n O E) (f_type f) x = Ok w ->
         ok_or allowed (type_accept O E (f_type f) w)).
    { destruct (f_type f) as [s|c'] eqn:Ty; cbn [parse_type].
      - assert (R : (match el_text x with Some s => VStr s | None => VNone end) = VNone \/
                    exists t, (match el_text x with Some s => VStr s | None => VNone end) = VStr t)
          by (destruct (el_text x); eauto).
        destruct (tame_st O s _ (T s eq_refl) R) as [T1 T2]. split; auto.
      - destruct (C c' eq_refl) as [C1 (d' & Hd')]. split; auto. intros w Hw.
        apply parse_obj_obj in Hw as (fs' & ->). cbn [type_accept]. unfold complex_accept, get_class. rewrite Hd'. cbn [bind].
        destruct (cd_kind d'); auto; destruct is_instance; auto. }
    destruct PT as [PT1 PT2].
    assert (EL : f_kind f <> KList -> f_kind f <> KAttribute ->
      good (cd_fields d) (v <- (if match el_get x xsi_nil with Some s => String.eqb s "true" | None => false end
            then Ok VNil else parse_type O (parse_obj n O E) (f_type f) x) ;; setattr O E (cd_fields d) fs (f_name f) v)).
    { intros K1 K2.
      destruct (match el_get x xsi_nil with Some s => String.eqb s "true" | None => false end).
      - cbn [bind]. apply good_set; auto. unfold field_accept. destruct (f_kind f); auto; destruct (f_nillable f); auto.
      - destruct PT1 as [[w W]|(e & W & A0)]; rewrite W; cbn [bind]; [|left; eauto]. apply good_set; auto. apply accept_oov; auto. }
    unfold parse_field. destruct (f_kind f) eqn:K; try (apply EL; discriminate).
    - assert (Af : is_attr f = true) by (unfold is_attr; now rewrite K). destruct (A Af) as [(s & Ty) Df].
      rewrite Ty.
      assert (R : match el_get x (f_name f) with Some s => VStr s | None => f_default f end = VNone \/
         exists t, match el_get x (f_name f) with Some s => VStr s | None => f_default f end = VStr t)
        by (destruct (el_get x (f_name f)); eauto).
      destruct (tame_st O s _ (T s Ty) R) as [[[w W]|(e & W & A0)] T2]; rewrite W; cbn [bind]; [|left; eauto].
      apply good_set; auto; [congruence|]. apply accept_oov. rewrite Ty. apply (T2 w W).
    - destruct (L f Hf K) as (t & l & Cur). unfold getattr. rewrite Cur.
      assert (V : ok_or allowed (if truthy_str (el_get x xsi_nil) then Ok VNil else parse_type O (parse_obj n O E) (f_type f) x) /\
        forall w, (if truthy_str (el_get x xsi_nil) then Ok VNil else parse_type O (parse_obj n O E) (f_type f) x) = Ok w ->
          ok_or allowed (tl_append O E f l w)).
      { split; [apply oov_if; auto|]. intros w Hw. unfold tl_append. apply oov_bind.
        - destruct (truthy_str (el_get x xsi_nil)).
          + injection Hw as <-. apply oov_if; auto.
          + destruct w; auto. now apply parse_type_not_nil in Hw.
        - intros a _. apply oov_if; auto. }
      destruct V as [[[w W]|(e & W & A0)] V2]; rewrite W; cbn [bind]; [|left; eauto].
      destruct (V2 w W) as [[l' L']|(e & L' & A0)]; rewrite L'; cbn [bind]; [|left; eauto].
      right. eexists. split; eauto. intros g Hg Kg.
      destruct (String.eqb_spec (f_name g) (f_name f)) as [Q|Q].
      + rewrite Q, assoc_set_same. eauto.
      + rewrite assoc_set_other; auto.
  Qed.

  Lemma height_kid t a k y : In y k -> (height y < height (Elem t a k))%nat.
  Proof. intros H. cbn. apply le_n_S. apply list_max_in. now apply in_map. Qed.
  Lemma no_pi_kids x : no_pi x -> existsb is_pi (el_kids x) = false /\ forall y, In y (el_kids x) -> no_pi y.
  Proof.
    destruct 1 as [t a k H| |]; cbn; auto; [|easy..]. rewrite Forall_forall in H. split; auto.
    induction k as [|y k IH]; auto. cbn. rewrite IH by (intros; apply H; now right).
    destruct (H y (or_introl eq_refl)); auto.
  Qed.

  Lemma total n : forall c x, P c -> no_pi x -> (height x * S top + rank c < n)%nat ->
    ok_or allowed (parse_obj n O E c x).
  Proof.
    induction n as [|n IH]; intros c x Pc Np Hn; [lia|].
    destruct (HP c Pc) as (d & Hd & ND & (fs0 & H0) & HF & Rk & Same).
    destruct (no_pi_kids x Np) as [NK KN].
    (* reading from the element itself *)
    assert (SELF : forall f fs, In f (cd_fields d) -> is_group f = true \/ cd_ind d = IChoice \/ is_attr f = true ->
      lists_ok (cd_fields d) fs -> good (cd_fields d) (parse_field O E (parse_obj n O E) (cd_fields d) f fs x)).
    { intros f fs Hf Hk L. destruct (HF f Hf) as (H1 & H2 & H3). apply field_good; auto.
      intros c' Ty. destruct (HP c' (H2 c' Ty)) as (d' & Hd' & _). split; [|eauto].
      destruct Hk as [Hk|[Hk|Hk]].
      - apply IH; auto. assert (rank c' < rank c)%nat by (apply Same; exists d, f; auto). lia.
      - apply IH; auto. assert (rank c' < rank c)%nat by (apply Same; exists d, f; auto). lia.
      - destruct (H3 Hk) as [(s & Q) _]. congruence. }
    assert (KID : forall f y fs, In f (cd_fields d) -> In y (el_kids x) -> lists_ok (cd_fields d) fs ->
      good (cd_fields d) (parse_field O E (parse_obj n O E) (cd_fields d) f fs y)).
    { intros f y fs Hf Hy L. destruct (HF f Hf) as (H1 & H2 & H3). apply field_good; auto.
      intros c' Ty. destruct (HP c' (H2 c' Ty)) as (d' & Hd' & _ & _ & _ & Rk' & _). split; [|eauto].
      apply IH; auto. assert (height y < height x)%nat by (destruct x; cbn in Hy; [now apply height_kid|easy..]).
      assert (height y * S top + S top <= height x * S top)%nat by nia. lia. }
    assert (L0 : lists_ok (cd_fields d) fs0).
    { destruct (new_instance_ok O E c d fs0 Hd ND H0) as [_ L]. intros f Hf K. rewrite (L f Hf); eauto.
      unfold is_list. now rewrite K. }
    rewrite parse_obj_S. unfold get_class. rewrite Hd. cbn [bind]. rewrite H0. cbn [bind].
    assert (G : good (cd_fields d)
      (fs1 <- foldM (fun fs f => parse_field O E (parse_obj n O E) (cd_fields d) f fs x) fs0 (filter is_attr (cd_fields d)) ;;
       fs2 <- (match cd_ind d with
               | IChoice => parse_choice O E (parse_obj n O E) (cd_fields d) (filter is_plain (cd_fields d)) fs1 x
               | _ => foldM (fun fs f => subs <- find_sub f (el_children x) ;;
                        foldM (fun fs s => parse_field O E (parse_obj n O E) (cd_fields d) f fs s) fs subs)
                        fs1 (filter is_plain (cd_fields d))
               end) ;;
       foldM (fun fs f => parse_field O E (parse_obj n O E) (cd_fields d) f fs x) fs2 (filter is_group (cd_fields d)))).
    { apply good_bind.
      { apply good_fold; auto. intros f fs Hf. apply filter_In in Hf as [Hf Af]. auto. }
      intros fs1 L1. apply good_bind.
      { assert (SEQ : good (cd_fields d) (foldM (fun fs f => subs <- find_sub f (el_children x) ;;
                        foldM (fun fs s => parse_field O E (parse_obj n O E) (cd_fields d) f fs s) fs subs)
                        fs1 (filter is_plain (cd_fields d)))).
        { apply good_fold; auto. intros f fs Hf L. apply filter_In in Hf as [Hf Pf].
          rewrite find_sub_kids, NK. cbn [bind]. apply good_fold; auto. intros y fs' Hy. apply filter_In in Hy as [Hy _]. auto. }
        destruct (cd_ind d) eqn:Ind; auto.
        assert (CH : forall L fs, (forall f, In f L -> In f (cd_fields d)) -> lists_ok (cd_fields d) fs ->
           good (cd_fields d) (parse_choice O E (parse_obj n O E) (cd_fields d) L fs x)).
        { induction L as [|f L IHL]; intros fs Sub Lf; cbn [parse_choice]; [right; eauto|].
          rewrite matches_belongs. assert (XP : is_pi x = false) by (destruct Np; reflexivity). rewrite XP. cbn [bind].
          destruct (belongs f x); [apply SELF; auto; apply Sub; now left|]. apply IHL; auto. intros g Hg. apply Sub. now right. }
        apply CH; auto. intros f Hf. now apply filter_In in Hf as [Hf _]. }
      intros fs2 L2. apply good_fold; auto. intros f fs Hf. apply filter_In in Hf as [Hf Gf]. auto. }
    destruct (foldM _ fs0 _) as [fs1|e]; cbn [bind] in *; [|destruct G as [(e0 & [= ->] & A0)|(? & ? & _)]; [right; eauto|discriminate]].
    destruct (match cd_ind d with IChoice => _ | _ => _ end) as [fs2|e]; cbn [bind] in *;
      [|destruct G as [(e0 & [= ->] & A0)|(? & ? & _)]; [right; eauto|discriminate]].
    destruct (foldM _ fs2 _) as [fs3|e]; cbn [bind] in *; [|destruct G as [(e0 & [= ->] & A0)|(? & ? & _)]; [right; eauto|discriminate]].
    left. eauto.
  Qed.

  End Classes.
End Total.

Lemma total_value O E P rank top : tame_classes O (eq ValueError) E P rank top ->
  forall n c x, P c -> no_pi x -> (height x * S top + rank c < n)%nat -> ok_or_ValueError (parse_obj n O E c x).
Proof.
  intros H n c x Pc Np Hn. destruct (total (eq ValueError) eq_refl O E P rank top H n c x Pc Np Hn) as [A|(e & A & <-)]; [now left|now right].
Qed.

(** ** Processing instructions *)
Lemma pi_type_error n O E c d f F x p fs0 : e_cls E c = Some d -> cd_ind d <> IChoice -> new_instance O E c = Ok fs0 ->
  filter is_attr (cd_fields d) = [] -> filter is_plain (cd_fields d) = f :: F -> In (PI p) (el_kids x) ->
  parse_obj (S n) O E c x = Err TypeError.
Proof.
  intros Hd NC H0 FA FP Hp. rewrite parse_obj_S. unfold get_class. rewrite Hd. cbn [bind]. rewrite H0. cbn [bind].
  rewrite FA, FP. cbn [foldM bind]. rewrite find_sub_kids.
  assert (X : existsb is_pi (el_kids x) = true) by (apply existsb_exists; exists (PI p); auto).
  rewrite X. cbn [bind]. destruct (cd_ind d); congruence || reflexivity.
Qed.

(** ** Classes that contain themselves *)
Lemma embeds_never O E (S0 : string -> Prop) : (forall c, S0 c -> exists c', S0 c' /\ embeds E c c') ->
  forall n c fs, S0 c -> new_inst n O E c <> Ok fs.
Proof.
  intros H. induction n as [|n IH]; intros c fs Sc Q; [discriminate|].
  destruct (H c Sc) as (c' & Sc' & d & f & Hd & Hf & K & Ty).
  cbn [new_inst] in Q. unfold get_class in Q. rewrite Hd in Q. cbn [bind] in Q.
  destruct (foldM_ok_each _ _ _ _ Q f Hf) as (b & b' & Step).
  rewrite Ty in Step. destruct (f_kind f); try congruence;
    (destruct (new_inst n O E c') as [fs'|] eqn:X; [exact (IH c' fs' Sc' X)|discriminate]).
Qed.

(** ** Defaults of attributes *)
Lemma decimal_accept_again O f v w : decimal_accept O f v = Ok w -> (forall q, v <> VDec q) -> decimal_accept O f w = Ok w.
Proof.
  intros H N. unfold decimal_accept in H |- *. destruct v; try discriminate; cbn [bind] in H.
  - now injection H as <-.
  - apply bind_ok in H as (u & Hu & [= <-]). cbn [bind]. now rewrite Hu.
  - apply bind_ok in H as (u & Hu & [= <-]). cbn [bind]. now rewrite Hu.
  - apply bind_ok in H as (u & Hu & [= <-]). cbn [bind]. now rewrite Hu.
  - destruct (N d eq_refl).
  - apply bind_ok in H as (z & Hz & H). apply bind_ok in H as (u & Hu & [= <-]).
    destruct (o_float O s); [|discriminate]. injection Hz as <-. cbn [bind]. now rewrite Hu.
Qed.
Lemma integer_accept_again O f v w : integer_accept O f v = Ok w -> integer_accept O f w = Ok w.
Proof.
  intros H. unfold integer_accept in H |- *. destruct v; try discriminate; cbn [bind] in H.
  - now injection H as <-.
  - apply bind_ok in H as (u & Hu & [= <-]). cbn [bind]. now rewrite Hu.
  - apply bind_ok in H as (u & Hu & [= <-]). cbn [bind]. now rewrite Hu.
  - apply bind_ok in H as (z & Hz & H). apply bind_ok in H as (u & Hu & [= <-]).
    destruct (int_of_str s); [|discriminate]. injection Hz as <-. cbn [bind]. now rewrite Hu.
Qed.
Lemma maxoccurs_accept_again v w : maxoccurs_accept v = Ok w -> maxoccurs_accept w = Ok w.
Proof.
  assert (U : maxoccurs_accept UNBOUNDED = Ok UNBOUNDED) by reflexivity.
  assert (Z : forall z, maxoccurs_accept (VInt z) = Ok (VInt z)).
  { intros z. cbn. now rewrite Z.quot_1_r. }
  intros H. unfold maxoccurs_accept in H.
  destruct v; try (injection H as <-; reflexivity);
    match type of H with context [if ?b then _ else _] => destruct b end;
    try (injection H as <-; exact U);
    (match type of H with res_map _ ?r = _ => destruct r as [?|]; [injection H as <-; apply Z|discriminate] end).
Qed.
Lemma decimal_pythonvalue_other acc v : v <> VStr "nil" -> decimal_pythonvalue acc v = acc v.
Proof.
  intros N. unfold decimal_pythonvalue. destruct v; auto.
  repeat (match goal with |- context [match ?y with _ => _ end] => is_var y; destruct y; auto end).
  congruence.
Qed.
Lemma python_accept O s v w w' v' : kept_default s v -> st_pythonvalue O s v = Ok w -> st_accept O s v = Ok v' -> st_accept O s w = Ok w' -> w' = v'.
Proof.
  intros K Py Av Ac. destruct s; cbn [st_pythonvalue st_accept] in *.
  - congruence.
  - congruence.
  - unfold bool_pythonvalue in Py. destruct v; try discriminate; cbn in K, Av. injection Py as <-. cbn in Ac. congruence.
  - unfold date_pythonvalue in Py. destruct v; try discriminate; cbn in K, Av; try discriminate. injection Py as <-. cbn in Ac. congruence.
  - unfold datetime_pythonvalue in Py. destruct v; try discriminate; [injection Py as <-; cbn in Ac, Av; congruence|]. cbn in K, Av.
    destruct (String.eqb_spec s "nil"); [contradiction|]. destruct (iso_parse O s); [|discriminate]. injection Py as <-. cbn in *. congruence.
  - unfold time_pythonvalue in Py. destruct v; try discriminate; [injection Py as <-; cbn in Ac, Av; congruence|]. cbn in K, Av.
    destruct (String.eqb_spec s "nil"); [contradiction|]. unfold time_parse in *. destruct (iso_parse O _); [|discriminate]. injection Py as <-. cbn in *. congruence.
  - assert (N : v <> VStr "nil") by (destruct v; cbn in K; congruence). rewrite (decimal_pythonvalue_other _ _ N) in Py.
    rewrite (decimal_accept_again _ _ _ _ Py) in Ac; [congruence|]. intros q ->. exact K.
  - assert (N : v <> VStr "nil") by (destruct v; cbn in K; congruence). rewrite (decimal_pythonvalue_other _ _ N) in Py.
    rewrite (integer_accept_again _ _ _ _ Py) in Ac. congruence.
  - rewrite (maxoccurs_accept_again _ _ Py) in Ac. congruence.
  - discriminate.
Qed.
Lemma python_nil O s w : st_pythonvalue O s VNil = Ok w -> w = VNil.
Proof. destruct s; cbn; try discriminate; now intros [= <-]. Qed.
Lemma python_not_nil O s v : v <> VNil -> st_pythonvalue O s v <> Ok VNil.
Proof.
  intros N H. destruct s; cbn [st_pythonvalue] in H.
  - congruence.
  - congruence.
  - unfold bool_pythonvalue in H. destruct v; try discriminate. repeat (destruct (String.eqb _ _); try discriminate).
  - unfold date_pythonvalue in H. destruct v; try discriminate. destruct (String.eqb _ _); try discriminate.
    destruct (match_date _) as [[[[y m] d] t]|]; try discriminate. apply bind_ok in H as (tz & _ & H). unfold mk_xsddate in H.
    apply bind_ok in H as (u & _ & H). discriminate.
  - unfold datetime_pythonvalue in H. destruct v; try discriminate. destruct (String.eqb _ _); try discriminate. destruct (iso_parse _ _); discriminate.
  - unfold time_pythonvalue, time_parse in H. destruct v; try discriminate. destruct (String.eqb _ _); try discriminate. destruct (iso_parse _ _); discriminate.
  - unfold decimal_pythonvalue in H. assert (A : decimal_accept O f v = Ok VNil) by (destruct v; auto; repeat (match type of H with context [match ?y with _ => _ end] => is_var y; destruct y; auto; try discriminate end)).
    unfold decimal_accept in A. destruct v; try discriminate; cbn [bind] in A; try (apply bind_ok in A as (u & _ & A); discriminate).
    apply bind_ok in A as (z & Hz & A). apply bind_ok in A as (u & _ & A). destruct (o_float O s); try discriminate. injection Hz as <-. discriminate.
  - unfold decimal_pythonvalue in H. assert (A : integer_accept O (mk_integer c user) v = Ok VNil) by (destruct v; auto; repeat (match type of H with context [match ?y with _ => _ end] => is_var y; destruct y; auto; try discriminate end)).
    unfold integer_accept in A. destruct v; try discriminate; cbn [bind] in A; try (apply bind_ok in A as (u & _ & A); discriminate).
    apply bind_ok in A as (z & Hz & A). apply bind_ok in A as (u & _ & A). destruct (int_of_str s); try discriminate. injection Hz as <-. discriminate.
  - unfold maxoccurs_accept in H. destruct v; try discriminate; (destruct (py_in _ _); [discriminate|]); destruct (py_int _); discriminate.
  - discriminate.
Qed.
Lemma absent_values n O E c d x xe fs f s : e_cls E c = Some d -> NoDup (map f_name (cd_fields d)) ->
  In f (cd_fields d) -> is_attr f = true -> f_type f = TSimple s ->
  el_get x (f_name f) = None -> parse_obj n O E c x = Ok (VObj c xe fs) ->
  exists fs0 v w w', new_instance O E c = Ok fs0 /\ assoc (f_name f) fs = Some w' /\ assoc (f_name f) fs0 = Some v /\
    field_accept O E f (f_default f) = Ok v /\ st_pythonvalue O s (f_default f) = Ok w /\ field_accept O E f w = Ok w'.
Proof.
  intros Hd ND Hf Af Ty Ab H.
  destruct (parse_attr_value _ _ _ _ _ _ _ _ f Hd ND Hf Af H) as (s' & w & w' & Ty' & Py & Ac & As).
  rewrite Ty in Ty'. injection Ty' as <-. rewrite Ab in Py.
  destruct (parse_parts _ _ _ _ _ _ _ Hd ND H) as (m & fs0 & fs' & -> & _ & H0 & _).
  assert (H0' := H0). unfold new_instance in H0. destruct (e_limit E) as [|k]; [discriminate|].
  destruct (new_inst_vals _ _ _ _ _ _ Hd ND H0) as [_ V]. destruct (V f Hf) as (ev & v & Ev & Av & Asv).
  assert (K : f_kind f = KAttribute) by (unfold is_attr in Af; destruct (f_kind f); congruence).
  assert (ev = f_default f).
  { unfold empty_value in Ev. rewrite K, Ty in Ev. cbn in Ev. congruence. }
  subst ev. exists fs0, v, w, w'. repeat split; auto.
Qed.
Lemma accept_attr O E f s v : is_attr f = true -> f_type f = TSimple s -> v <> VNil -> field_accept O E f v = st_accept O s v.
Proof. intros Af Ty N. unfold is_attr in Af. unfold field_accept. rewrite Ty. destruct (f_kind f); try discriminate. destruct v; cbn; congruence. Qed.
Lemma absent_default n O E c d x xe fs f s : e_cls E c = Some d -> NoDup (map f_name (cd_fields d)) ->
  In f (cd_fields d) -> is_attr f = true -> f_type f = TSimple s -> kept_default s (f_default f) ->
  el_get x (f_name f) = None -> parse_obj n O E c x = Ok (VObj c xe fs) ->
  exists fs0, new_instance O E c = Ok fs0 /\ assoc (f_name f) fs = assoc (f_name f) fs0.
Proof.
  intros Hd ND Hf Af Ty Kd Ab H.
  destruct (absent_values _ _ _ _ _ _ _ _ _ _ Hd ND Hf Af Ty Ab H) as (fs0 & v & w & w' & H0 & As & Asv & Av & Py & Ac).
  exists fs0. split; auto. rewrite As, Asv. f_equal.
  assert (N : f_default f = VNil \/ f_default f <> VNil) by (destruct (f_default f); auto; right; discriminate).
  destruct N as [N|N].
  - rewrite N in *. apply python_nil in Py as ->. congruence.
  - assert (W : w <> VNil) by (intros ->; exact (python_not_nil O s _ N Py)).
    rewrite (accept_attr _ _ _ _ _ Af Ty N) in Av. rewrite (accept_attr _ _ _ _ _ Af Ty W) in Ac.
    exact (python_accept _ _ _ _ _ _ Kd Py Av Ac).
Qed.
Lemma decimal_default_differs n O E c d x xe fs f cls u q : e_cls E c = Some d -> NoDup (map f_name (cd_fields d)) ->
  In f (cd_fields d) -> is_attr f = true -> f_type f = TSimple (SDecimal cls u) -> f_default f = VDec q ->
  el_get x (f_name f) = None -> parse_obj n O E c x = Ok (VObj c xe fs) ->
  exists fs0 y, new_instance O E c = Ok fs0 /\ assoc (f_name f) fs0 = Some (VStr (dec_str q)) /\
    o_float O (dec_str q) = Ok y /\ assoc (f_name f) fs = Some (VFloat y).
Proof.
  intros Hd ND Hf Af Ty Df Ab H.
  destruct (absent_values _ _ _ _ _ _ _ _ _ _ Hd ND Hf Af Ty Ab H) as (fs0 & v & w & w' & H0 & As & Asv & Av & Py & Ac).
  rewrite Df in *. rewrite (accept_attr _ _ _ _ _ Af Ty) in Av by discriminate.
  cbn in Av, Py. apply bind_ok in Av as (y1 & _ & [= <-]). apply bind_ok in Py as (y2 & _ & [= <-]).
  rewrite (accept_attr _ _ _ _ _ Af Ty) in Ac by discriminate. cbn in Ac.
  apply bind_ok in Ac as (y3 & E3 & Ac). apply bind_ok in Ac as (y4 & _ & [= <-]).
  destruct (o_float O (dec_str q)) as [y|] eqn:Fl; [|discriminate]. injection E3 as <-.
  exists fs0, y. auto.
Qed.
Lemma native_default_fails n O E c d x f s v : e_cls E c = Some d -> NoDup (map f_name (cd_fields d)) ->
  In f (cd_fields d) -> is_attr f = true -> f_type f = TSimple s -> native_default s (f_default f) ->
  el_get x (f_name f) = None -> parse_obj n O E c x <> Ok v.
Proof.
  intros Hd ND Hf Af Ty Df Ab H. destruct (parse_obj_obj _ _ _ _ _ _ H) as (fs & ->).
  destruct (parse_attr_value _ _ _ _ _ _ _ _ f Hd ND Hf Af H) as (s' & w & w' & Ty' & Py & _).
  rewrite Ty in Ty'. injection Ty' as <-. rewrite Ab in Py. destruct s, (f_default f); try destruct Df; discriminate.
Qed.

Lemma foldM_total {A B} (f : A -> B -> res A) l : (forall a x, In x l -> exists a', f a x = Ok a') ->
  forall a, exists a', foldM f a l = Ok a'.
Proof.
  induction l as [|y l IH]; intros H a; cbn; [eauto|].
  destruct (H a y (or_introl eq_refl)) as (a1 & ->). cbn. apply IH. intros b x Hx. apply H. now right.
Qed.
Lemma layered_inst O E P rank : layered O E P rank ->
  forall n c, P c -> (rank c < n)%nat -> exists fs, new_inst n O E c = Ok fs.
Proof.
  intros HP. induction n as [|n IH]; intros c Pc Hn; [lia|].
  destruct (HP c Pc) as (d & Hd & ND & Mro & Emb & Fl).
  cbn [new_inst]. unfold get_class. rewrite Hd. cbn [bind].
  apply foldM_total. intros fs f Hf. specialize (Fl f Hf).
  assert (SET : forall v, (exists w, field_accept O E f v = Ok w) -> exists fs', setattr O E (cd_fields d) fs (f_name f) v = Ok fs').
  { intros v (w & Hw). unfold setattr. rewrite (find_field_in _ _ ND Hf). cbn [bind]. rewrite Hw. cbn [bind]. eauto. }
  assert (SUB : forall c', f_type f = TComplex c' -> f_kind f <> KList -> exists fs', new_inst n O E c' = Ok fs' /\ P c').
  { intros c' Ty K. destruct (Emb c') as [Pc' R]; [exists d, f; auto|]. destruct (IH c' Pc') as (fs' & H); [lia|]. eauto. }
  destruct (f_kind f) eqn:K.
  all: try (destruct (f_type f) as [s|c'] eqn:Ty;
      [cbn [bind]; now apply SET | destruct (SUB c' eq_refl) as (fs' & -> & _); [discriminate|]; cbn [bind res_map]; now apply SET]).
  - destruct Fl as (c' & Ty). rewrite Ty. destruct (SUB c' Ty) as (fs' & -> & Pc'); [discriminate|]. cbn [bind res_map].
    apply SET. unfold field_accept. rewrite K, Ty. cbn [type_accept]. unfold complex_accept, get_class.
    destruct (HP c' Pc') as (d' & Hd' & _ & Mro' & _). rewrite Hd'. cbn [bind].
    assert (I : is_instance E (VObj c' None fs') c' = true) by (unfold is_instance; rewrite Hd'; now apply str_in_spec).
    rewrite I. destruct (cd_kind d'); eauto.
  - cbn [bind]. apply SET. unfold field_accept. rewrite K. eauto.
Qed.
