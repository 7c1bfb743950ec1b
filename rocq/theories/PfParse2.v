(** What each field of a parsed object is read from (C25-C27, C29, C34). *)
From Coq Require Import String Ascii List ZArith NArith Bool Lia.
From Verif Require Import PyBase Xml PyVal XsdDate XsdSimple XsdComplex SpecObject SpecRender SpecParse SpecRound
  PfBase PfObject PfRender PfRender2 PfParse PfRound.
Import ListNotations.
Open Scope Z_scope.

(** ** One field at a time *)
Lemma parse_field_frame O E rec F f fs x fs' : parse_field O E rec F f fs x = Ok fs' ->
  forall k, k <> f_name f -> assoc k fs' = assoc k fs.
Proof.
  intros H k N. unfold parse_field in H.
  assert (S : forall v, setattr O E F fs (f_name f) v = Ok fs' -> assoc k fs' = assoc k fs).
  { intros v S. apply setattr_ok in S as (g & v' & _ & _ & ->). now apply assoc_set_other. }
  destruct (f_kind f).
  1-5: apply bind_ok in H as (v & _ & H); eauto.
  apply bind_ok in H as (v & _ & H). apply bind_ok in H as (cur & _ & H).
  destruct cur; try discriminate. apply bind_ok in H as (l' & _ & H). injection H as <-.
  now apply assoc_set_other.
Qed.

Definition pstep (n : nat) (O : oracle) (E : env) (F : list field) (x : node)
    (fs : list (string * pyval)) (f : field) : res (list (string * pyval)) :=
  if is_plain f then
    subs <- find_sub f (el_children x) ;;
    foldM (fun fs s => parse_field O E (parse_obj n O E) F f fs s) fs subs
  else parse_field O E (parse_obj n O E) F f fs x.

Lemma fold_field_frame O E rec F f l : forall fs fs',
  foldM (fun fs s => parse_field O E rec F f fs s) fs l = Ok fs' ->
  forall k, k <> f_name f -> assoc k fs' = assoc k fs.
Proof.
  induction l as [|x l IH]; intros fs fs' H k N; cbn in H; [congruence|].
  apply bind_ok in H as (fs1 & H1 & H). rewrite (IH _ _ H k N). eapply parse_field_frame; eauto.
Qed.

Lemma pstep_frame n O E F x fs f fs' : pstep n O E F x fs f = Ok fs' ->
  forall k, k <> f_name f -> assoc k fs' = assoc k fs.
Proof.
  unfold pstep. destruct (is_plain f); intros H k N.
  - apply bind_ok in H as (subs & _ & H). eapply fold_field_frame; eauto.
  - eapply parse_field_frame; eauto.
Qed.

Lemma fold_frame (step : list (string * pyval) -> field -> res (list (string * pyval))) L :
  (forall f fs fs', step fs f = Ok fs' -> forall k, k <> f_name f -> assoc k fs' = assoc k fs) ->
  NoDup (map f_name L) -> forall fs fs', foldM step fs L = Ok fs' ->
  (forall k, ~ In k (map f_name L) -> assoc k fs' = assoc k fs) /\
  forall f, In f L -> exists fsa fsb, assoc (f_name f) fsa = assoc (f_name f) fs /\
    step fsa f = Ok fsb /\ assoc (f_name f) fs' = assoc (f_name f) fsb.
Proof.
  intros Fr. induction L as [|g L IH]; intros ND fs fs' H; cbn in H.
  - injection H as <-. split; [auto|easy].
  - apply bind_ok in H as (fs1 & H1 & H). cbn in ND. inversion ND as [|? ? N1 N2]; subst.
    destruct (IH N2 _ _ H) as [U V]. split.
    + intros k Hk. cbn in Hk. rewrite U by tauto. apply (Fr _ _ _ H1). intros ->. tauto.
    + intros f [<-|Hf].
      * exists fs, fs1. repeat split; auto.
      * destruct (V f Hf) as (fsa & fsb & A & B & C). exists fsa, fsb. repeat split; auto. rewrite A.
        apply (Fr _ _ _ H1). intros Eq. apply N1. rewrite <- Eq. now apply in_map.
Qed.

Lemma same_name F f g : NoDup (map f_name F) -> In f F -> In g F -> f_name f = f_name g -> f = g.
Proof.
  intros ND Hf Hg Eq. pose proof (find_field_in F f ND Hf) as A. pose proof (find_field_in F g ND Hg) as B.
  rewrite Eq, B in A. congruence.
Qed.
Lemma sep_name F (p q : field -> bool) f : NoDup (map f_name F) -> (forall g, p g = true -> q g = true -> False) ->
  In f F -> q f = true -> ~ In (f_name f) (map f_name (filter p F)).
Proof.
  intros ND D Hf Q H. apply in_map_iff in H as (g & Eg & Hg). apply filter_In in Hg as [Hg Pg].
  assert (g = f) by (eapply same_name; eauto). subst. eauto.
Qed.

Lemma parse_choice_spec O E rec F x : forall todo fs fs',
  parse_choice O E rec F todo fs x = Ok fs' ->
  (exists pre f post, todo = pre ++ f :: post /\ (forall g, In g pre -> ~ names_field x g) /\
     names_field x f /\ parse_field O E rec F f fs x = Ok fs') \/
  ((forall g, In g todo -> ~ names_field x g) /\ fs' = fs).
Proof.
  induction todo as [|f todo IH]; intros fs fs' H; cbn in H.
  - right. split; [easy|congruence].
  - apply bind_ok in H as (b & M & H).
    rewrite matches_belongs in M. destruct (is_pi x); [discriminate|]. injection M as <-.
    destruct (belongs f x) eqn:B.
    + left. exists [], f, todo. repeat split; auto. now apply belongs_names.
    + assert (N : ~ names_field x f) by (intros C; apply belongs_names in C; congruence).
      destruct (IH _ _ H) as [(pre & g & post & -> & P1 & P2 & P3)|[P1 P2]].
      * left. exists (f :: pre), g, post. repeat split; auto. intros h [<-|Hh]; auto.
      * right. split; auto. intros h [<-|Hh]; auto.
Qed.

Lemma attr_plain_false g : is_attr g = true -> is_plain g = true -> False.
Proof. unfold is_plain. intros -> H. discriminate. Qed.
Lemma group_plain_false g : is_group g = true -> is_plain g = true -> False.
Proof. unfold is_plain. intros -> H. rewrite andb_false_r in H. discriminate. Qed.
Lemma attr_group_false g : is_attr g = true -> is_group g = true -> False.
Proof. intros A G. apply is_group_not_attr in G. congruence. Qed.

(** The result of parsing, field by field; [fs0] is the fresh instance. *)
Lemma parse_parts n O E c d x v : e_cls E c = Some d -> NoDup (map f_name (cd_fields d)) ->
  parse_obj n O E c x = Ok v -> exists m fs0 fs, n = S m /\ v = VObj c (Some x) fs /\ new_instance O E c = Ok fs0 /\
  (forall f, In f (cd_fields d) -> cd_ind d <> IChoice \/ is_plain f = false ->
     exists fsa fsb, assoc (f_name f) fsa = assoc (f_name f) fs0 /\
       pstep m O E (cd_fields d) x fsa f = Ok fsb /\ assoc (f_name f) fs = assoc (f_name f) fsb) /\
  (cd_ind d = IChoice ->
     (exists pre f post fsa fsb, filter is_plain (cd_fields d) = pre ++ f :: post /\
        (forall g, In g pre -> ~ names_field x g) /\ names_field x f /\
        (forall g, In g (cd_fields d) -> is_plain g = true -> assoc (f_name g) fsa = assoc (f_name g) fs0) /\
        parse_field O E (parse_obj m O E) (cd_fields d) f fsa x = Ok fsb /\
        (forall g, In g (cd_fields d) -> is_plain g = true -> assoc (f_name g) fs = assoc (f_name g) fsb)) \/
     (forall g, In g (cd_fields d) -> is_plain g = true -> ~ names_field x g) /\
     (forall g, In g (cd_fields d) -> is_plain g = true -> assoc (f_name g) fs = assoc (f_name g) fs0)).
Proof.
  intros Hd ND H. destruct n as [|m]; [discriminate|]. rewrite parse_obj_S in H. unfold get_class in H.
  rewrite Hd in H. cbn [bind] in H. apply bind_ok in H as (fs0 & H0 & H).
  apply bind_ok in H as (fs1 & H1 & H). apply bind_ok in H as (fs2 & H2 & H).
  apply bind_ok in H as (fs3 & H3 & H). injection H as <-.
  exists m, fs0, fs3. split; auto. split; auto. split; auto.
  rewrite (foldM_ext _ (pstep m O E (cd_fields d) x)) in H1.
  2:{ intros a f Hf. apply filter_In in Hf as [_ Hf]. unfold pstep, is_plain. now rewrite Hf. }
  rewrite (foldM_ext _ (pstep m O E (cd_fields d) x)) in H3.
  2:{ intros a f Hf. apply filter_In in Hf as [_ Hf]. unfold pstep, is_plain. now rewrite Hf, andb_false_r. }
  apply fold_frame in H1 as [U1 V1]; [|intros; eapply pstep_frame; eauto|now apply NoDup_filter_names].
  apply fold_frame in H3 as [U3 V3]; [|intros; eapply pstep_frame; eauto|now apply NoDup_filter_names].
  assert (SA : forall f, In f (cd_fields d) -> is_plain f = true -> ~ In (f_name f) (map f_name (filter is_attr (cd_fields d)))).
  { intros f Hf Pf. apply (sep_name _ is_attr is_plain); auto. eauto using attr_plain_false. }
  assert (SG : forall f, In f (cd_fields d) -> is_plain f = true -> ~ In (f_name f) (map f_name (filter is_group (cd_fields d)))).
  { intros f Hf Pf. apply (sep_name _ is_group is_plain); auto. eauto using group_plain_false. }
  assert (FR2 : forall k, ~ In k (map f_name (filter is_plain (cd_fields d))) -> assoc k fs2 = assoc k fs1).
  { destruct (cd_ind d); rewrite ?(foldM_ext _ (pstep m O E (cd_fields d) x)) in H2.
    1: apply fold_frame in H2 as [U2 _]; auto; [intros; eapply pstep_frame; eauto|now apply NoDup_filter_names].
    1:{ intros a f Hf. apply filter_In in Hf as [_ Hf]. unfold pstep. now rewrite Hf. }
    1:{ intros k Hk. apply parse_choice_spec in H2 as [(pre & f & post & Eq & _ & _ & H2)|[_ ->]]; auto.
        eapply parse_field_frame; eauto. intros ->. apply Hk. rewrite Eq. apply in_map, in_elt. }
    1: apply fold_frame in H2 as [U2 _]; auto; [intros; eapply pstep_frame; eauto|now apply NoDup_filter_names].
    1:{ intros a f Hf. apply filter_In in Hf as [_ Hf]. unfold pstep. now rewrite Hf. } }
  split.
  - intros f Hf Hc. destruct (is_attr f) eqn:Af; [|destruct (is_group f) eqn:Gf].
    + destruct (V1 f) as (fsa & fsb & A & B & C); [apply filter_In; auto|]. exists fsa, fsb.
      repeat split; auto. rewrite U3, FR2; auto.
      * apply (sep_name _ is_plain is_attr); auto. eauto. eauto using attr_plain_false.
      * apply (sep_name _ is_group is_attr); auto. eauto using attr_group_false.
    + destruct (V3 f) as (fsa & fsb & A & B & C); [apply filter_In; auto|]. exists fsa, fsb.
      repeat split; auto. rewrite A, FR2, U1; auto.
      * apply (sep_name _ is_attr is_group); auto. eauto using attr_group_false.
      * apply (sep_name _ is_plain is_group); auto. eauto. eauto using group_plain_false.
    + assert (Pf : is_plain f = true) by (unfold is_plain; now rewrite Af, Gf).
      destruct Hc as [Hc|Hc]; [|congruence].
      assert (H2' : foldM (pstep m O E (cd_fields d) x) fs1 (filter is_plain (cd_fields d)) = Ok fs2).
      { rewrite <- H2. destruct (cd_ind d); try congruence; apply foldM_ext; intros a g Hg;
          apply filter_In in Hg as [_ Hg]; unfold pstep; now rewrite Hg. }
      apply fold_frame in H2' as [U2 V2]; [|intros; eapply pstep_frame; eauto|now apply NoDup_filter_names].
      destruct (V2 f) as (fsa & fsb & A & B & C); [apply filter_In; auto|]. exists fsa, fsb.
      repeat split; auto.
      * rewrite A, U1; auto.
      * rewrite U3; auto.
  - intros Hc. rewrite Hc in H2. apply parse_choice_spec in H2 as [(pre & f & post & Eq & P1 & P2 & P3)|[P1 ->]].
    + left. exists pre, f, post, fs1, fs2. repeat split; auto.
    + right. split.
      * intros g Hg Pg. apply P1. now apply filter_In.
      * intros g Hg Pg. rewrite U3, U1; auto.
Qed.

(** ** Attributes *)
Lemma parse_attr_value n O E c d x fs xe f : e_cls E c = Some d -> NoDup (map f_name (cd_fields d)) ->
  In f (cd_fields d) -> is_attr f = true -> parse_obj n O E c x = Ok (VObj c xe fs) ->
  exists s w w', f_type f = TSimple s /\
    st_pythonvalue O s (match el_get x (f_name f) with Some t => VStr t | None => f_default f end) = Ok w /\
    field_accept O E f w = Ok w' /\ assoc (f_name f) fs = Some w'.
Proof.
  intros Hd ND Hf Af H. destruct (parse_parts _ _ _ _ _ _ _ Hd ND H) as (m & fs0 & fs' & -> & Ev & _ & V & _).
  injection Ev as -> <-.
  destruct (V f Hf) as (fsa & fsb & A & B & C); [right; unfold is_plain; now rewrite Af|].
  unfold pstep, is_plain in B. rewrite Af in B. cbn [negb andb] in B. unfold parse_field in B.
  unfold is_attr in Af. destruct (f_kind f); try discriminate.
  apply bind_ok in B as (w & B1 & B2). destruct (f_type f) as [s|]; [|discriminate].
  apply setattr_ok in B2 as (g & w' & Fg & Acc & ->).
  rewrite (find_field_in _ _ ND Hf) in Fg. injection Fg as <-.
  exists s, w, w'. repeat split; auto. rewrite C. apply assoc_set_same.
Qed.

(** ** Elements *)
Lemma find_sub_none f x : (forall y, In y (el_kids x) -> belongs f y = false) ->
  forall subs, find_sub f (el_children x) = Ok subs -> subs = [].
Proof.
  intros H subs Hs. rewrite find_sub_kids in Hs. destruct (existsb is_pi (el_kids x)); [discriminate|].
  injection Hs as <-. rewrite <- (filter_none (belongs f) (el_kids x)); auto.
  apply Forall_forall. auto.
Qed.

Lemma parse_absent n O E c d x fs xe f : e_cls E c = Some d -> NoDup (map f_name (cd_fields d)) ->
  cd_ind d <> IChoice -> In f (cd_fields d) -> is_plain f = true ->
  (forall y, In y (el_kids x) -> belongs f y = false) ->
  parse_obj n O E c x = Ok (VObj c xe fs) ->
  exists fs0, new_instance O E c = Ok fs0 /\ assoc (f_name f) fs = assoc (f_name f) fs0.
Proof.
  intros Hd ND NC Hf Pf Hk H. destruct (parse_parts _ _ _ _ _ _ _ Hd ND H) as (m & fs0 & fs' & -> & Ev & H0 & V & _).
  injection Ev as -> <-. exists fs0. split; auto.
  destruct (V f Hf) as (fsa & fsb & A & B & C); [now left|].
  unfold pstep in B. rewrite Pf in B. apply bind_ok in B as (subs & S & B).
  apply find_sub_none in S; auto. subst. cbn in B. injection B as <-. congruence.
Qed.

(** One child for an element field. *)
Lemma parse_one n O E c d x fs xe f y : e_cls E c = Some d -> NoDup (map f_name (cd_fields d)) ->
  cd_ind d <> IChoice -> In f (cd_fields d) -> f_kind f = KElement ->
  filter (belongs f) (el_kids x) = [y] ->
  parse_obj (S n) O E c x = Ok (VObj c xe fs) ->
  exists w w', (if match el_get y xsi_nil with Some s => String.eqb s "true" | None => false end
                then Ok VNil else parse_type O (parse_obj n O E) (f_type f) y) = Ok w /\
     field_accept O E f w = Ok w' /\ assoc (f_name f) fs = Some w'.
Proof.
  intros Hd ND NC Hf K Hk H. destruct (parse_parts _ _ _ _ _ _ _ Hd ND H) as (m & fs0 & fs' & Em & Ev & H0 & V & _).
  injection Em as <-. injection Ev as -> <-.
  destruct (V f Hf) as (fsa & fsb & A & B & C); [now left|].
  assert (Pf : is_plain f = true) by (unfold is_plain, is_attr, is_group; now rewrite K).
  unfold pstep in B. rewrite Pf in B. apply bind_ok in B as (subs & S & B).
  rewrite find_sub_kids in S. destruct (existsb is_pi (el_kids x)); [discriminate|]. injection S as <-.
  rewrite Hk in B. cbn [foldM] in B. apply bind_ok in B as (fs1 & B & B'). injection B' as <-.
  unfold parse_field in B. rewrite K in B. apply bind_ok in B as (w & W & B).
  apply setattr_ok in B as (g & w' & Fg & Acc & ->).
  rewrite (find_field_in _ _ ND Hf) in Fg. injection Fg as <-.
  exists w, w'. repeat split; auto. rewrite C. apply assoc_set_same.
Qed.

(** Several children for a list field. *)
Lemma parse_many n O E c d x fs xe f : e_cls E c = Some d -> NoDup (map f_name (cd_fields d)) ->
  cd_ind d <> IChoice -> In f (cd_fields d) -> f_kind f = KList ->
  parse_obj (S n) O E c x = Ok (VObj c xe fs) ->
  exists items, assoc (f_name f) fs = Some (VList true items) /\
    Forall2 (fun y w' => exists w, (if truthy_str (el_get y xsi_nil) then Ok VNil
                          else parse_type O (parse_obj n O E) (f_type f) y) = Ok w /\
               (match w with VNil => if f_nillable f then Ok VNil else Err ValueError
                | _ => type_accept O E (f_type f) w end) = Ok w')
      (filter (belongs f) (el_kids x)) items.
Proof.
  intros Hd ND NC Hf K H. destruct (parse_parts _ _ _ _ _ _ _ Hd ND H) as (m & fs0 & fs' & Em & Ev & H0 & V & _).
  injection Em as <-. injection Ev as -> <-.
  destruct (V f Hf) as (fsa & fsb & A & B & C); [now left|].
  assert (Pf : is_plain f = true) by (unfold is_plain, is_attr, is_group; now rewrite K).
  unfold pstep in B. rewrite Pf in B. apply bind_ok in B as (subs & S & B).
  rewrite find_sub_kids in S. destruct (existsb is_pi (el_kids x)); [discriminate|]. injection S as <-.
  destruct (new_instance_ok O E c d fs0 Hd ND H0) as [_ L0].
  rewrite (L0 f Hf) in A by (unfold is_list; now rewrite K).
  rewrite C. clear C V H H0 L0. revert B.
  assert (G : forall l pre fsa, assoc (f_name f) fsa = Some (VList true pre) ->
    foldM (fun fs s => parse_field O E (parse_obj n O E) (cd_fields d) f fs s) fsa l = Ok fsb ->
    exists items, assoc (f_name f) fsb = Some (VList true (pre ++ items)) /\
    Forall2 (fun y w' => exists w, (if truthy_str (el_get y xsi_nil) then Ok VNil
                          else parse_type O (parse_obj n O E) (f_type f) y) = Ok w /\
               (match w with VNil => if f_nillable f then Ok VNil else Err ValueError
                | _ => type_accept O E (f_type f) w end) = Ok w') l items).
  { clear fsa A. induction l as [|y l IH]; intros pre fsa A B; cbn in B.
    - injection B as <-. exists []. rewrite app_nil_r. auto.
    - apply bind_ok in B as (fs1 & B1 & B). unfold parse_field in B1. rewrite K in B1.
      apply bind_ok in B1 as (w & W & B1). unfold getattr in B1. rewrite A in B1. cbn [bind] in B1.
      apply bind_ok in B1 as (l' & T & B1). injection B1 as <-.
      unfold tl_append in T. apply bind_ok in T as (a & T1 & T2).
      destruct (exceeds _ _); [discriminate|]. injection T2 as <-.
      destruct (IH (pre ++ [a]) _ (assoc_set_same _ _ _) B) as (items & I1 & I2).
      exists (a :: items). rewrite <- app_assoc in I1. split; auto. constructor; eauto. }
  intros B. destruct (G _ [] _ A B) as (items & I1 & I2). eauto.
Qed.

(** A reference is read from the referring element itself. *)
Lemma parse_ref_value n O E c d x fs xe f : e_cls E c = Some d -> NoDup (map f_name (cd_fields d)) ->
  In f (cd_fields d) -> f_kind f = KRef -> el_get x xsi_nil = None ->
  parse_obj (S n) O E c x = Ok (VObj c xe fs) ->
  exists w w', parse_type O (parse_obj n O E) (f_type f) x = Ok w /\
     field_accept O E f w = Ok w' /\ assoc (f_name f) fs = Some w'.
Proof.
  intros Hd ND Hf K Nn H. destruct (parse_parts _ _ _ _ _ _ _ Hd ND H) as (m & fs0 & fs' & Em & Ev & H0 & V & _).
  injection Em as <-. injection Ev as -> <-.
  assert (Pf : is_plain f = false) by (unfold is_plain, is_attr, is_group; now rewrite K).
  destruct (V f Hf) as (fsa & fsb & A & B & C); [now right|].
  unfold pstep in B. rewrite Pf in B. unfold parse_field in B. rewrite K, Nn in B.
  apply bind_ok in B as (w & W & B). apply setattr_ok in B as (g & w' & Fg & Acc & ->).
  rewrite (find_field_in _ _ ND Hf) in Fg. injection Fg as <-.
  exists w, w'. repeat split; auto. rewrite C. apply assoc_set_same.
Qed.
