(** Two environments that agree on some classes read, write and build the same. *)
From Coq Require Import String Ascii List ZArith NArith Bool Lia.
From Verif Require Import PyBase PfBase PyRe Xml PyVal XsdSimple XsdComplex LibClasses Py2Xsd SpecXsd Xsd2Py PyLoad SpecGenCode SpecUrl SpecService SpecLoadable SpecReclass SpecExchange.
Import ListNotations.
Open Scope nat_scope.
Open Scope string_scope.
Open Scope list_scope.

Section Agree.
  Variables (O : oracle) (E E' : env) (Cl : string -> Prop).

  Record alike (f f' : field) : Prop := {
    al_name : f_name f' = f_name f;
    al_kind : f_kind f' = f_kind f;
    al_kinds : f_kind f = KElement \/ f_kind f = KClassNamed \/ f_kind f = KList;
    al_type : f_type f' = f_type f;
    al_closed : forall c, f_type f = TComplex c -> Cl c;
    al_tag : tag_or_name f' = tag_or_name f;
    al_match : forall x, matches f' x = matches f x;
    al_ltag : f_kind f = KList -> f_tag f' = f_tag f /\ f_max f' = f_max f;
    al_min : f_min f' = f_min f;
    al_nil : f_nillable f' = f_nillable f;
    al_default : f_default f = VNone /\ f_default f' = VNone;
    al_ns : f_ns f' = f_ns f }.
  Hypothesis Ag : forall c, Cl c -> exists d d', e_cls E c = Some d /\ e_cls E' c = Some d' /\ cd_kind d' = cd_kind d /\
    In c (cd_mro d) /\ In c (cd_mro d') /\ cd_ind d' = cd_ind d /\ cd_schema d' = cd_schema d /\ Forall2 alike (cd_fields d) (cd_fields d').

  Definition settled (t : ftype) (v : pyval) : Prop :=
    match t, v with TComplex c, VObj c' _ _ => c' = c | _, _ => True end.

  Lemma str_in_true c l : In c l -> str_in c l = true.
  Proof. intros I. now apply str_in_spec. Qed.
  Lemma complex_accept_same c v : Cl c -> settled (TComplex c) v -> complex_accept E' c v = complex_accept E c v.
  Proof.
    intros Sc St. destruct (Ag c Sc) as (d & d' & H & H' & K & M & M' & _). unfold complex_accept, get_class. rewrite H, H'. cbn [bind]. rewrite K.
    destruct (cd_kind d); destruct v; try reflexivity; cbn [settled] in St; subst; unfold is_instance; now rewrite H, H', !str_in_true.
  Qed.
  Lemma type_accept_same t v : (forall c, t = TComplex c -> Cl c) -> settled t v -> type_accept O E' t v = type_accept O E t v.
  Proof. intros Sc St. destruct t as [u|c]; [reflexivity|]. apply complex_accept_same; [now apply Sc|exact St]. Qed.
  Lemma field_accept_same f f' v : alike f f' -> settled (f_type f) v -> field_accept O E' f' v = field_accept O E f v.
  Proof.
    intros A St. unfold field_accept. rewrite (al_kind _ _ A), (al_nil _ _ A), (al_type _ _ A).
    rewrite (type_accept_same (f_type f) v (al_closed _ _ A) St). reflexivity.
  Qed.
  Lemma find_field_same F F' name : Forall2 alike F F' ->
    (find_field F name = Err ValueError /\ find_field F' name = Err ValueError) \/
    exists f f', find_field F name = Ok f /\ find_field F' name = Ok f' /\ alike f f' /\ In f F.
  Proof.
    unfold find_field. induction 1 as [|f f' F F' A _ IH]; cbn [find]; [now left|]. rewrite (al_name _ _ A).
    destruct (String.eqb (f_name f) name); [right; exists f, f'; split; [reflexivity|]; split; [reflexivity|]; split; [exact A|now left]|].
    destruct IH as [IH | (g & g' & H1 & H2 & H3 & H4)]; [now left|right]. exists g, g'. split; [exact H1|]. split; [exact H2|]. split; [exact H3|now right].
  Qed.
  Lemma setattr_same F F' fs name v : Forall2 alike F F' -> (forall f, find_field F name = Ok f -> settled (f_type f) v) ->
    setattr O E' F' fs name v = setattr O E F fs name v.
  Proof.
    intros FF St. unfold setattr. destruct (find_field_same F F' name FF) as [[-> ->] | (f & f' & H & -> & A & _)]; [reflexivity|].
    specialize (St f H). rewrite H. cbn [bind]. now rewrite (field_accept_same f f' v A St).
  Qed.

  Lemma foldM_same {A B : Type} (P : A -> A -> Prop) (g g' : B -> A -> res B) l l' : Forall2 P l l' ->
    (forall b a a', In a l -> P a a' -> g' b a' = g b a) -> forall b, foldM g' b l' = foldM g b l.
  Proof.
    induction 1 as [|a a' l l' H F IH]; intros Hg b; [reflexivity|]. cbn [foldM]. rewrite (Hg b a a' (or_introl eq_refl) H).
    destruct (g b a); [|reflexivity]. cbn [bind]. apply IH. intros. apply Hg; auto. now right.
  Qed.
  Lemma foldM_same1 {A B : Type} (g g' : B -> A -> res B) l : (forall b a, In a l -> g' b a = g b a) -> forall b, foldM g' b l = foldM g b l.
  Proof.
    intros Hg. induction l as [|a l IH]; intros b; [reflexivity|]. cbn [foldM]. rewrite (Hg b a (or_introl eq_refl)).
    destruct (g b a); [|reflexivity]. cbn [bind]. apply IH. intros. apply Hg. now right.
  Qed.

  (** ** Building *)
  Lemma new_inst_same n c : Cl c -> new_inst n O E' c = new_inst n O E c.
  Proof.
    revert c. induction n as [|n IH]; intros c Sc; [reflexivity|]. cbn [new_inst].
    destruct (Ag c Sc) as (d & d' & H & H' & K & M & M' & _ & _ & FF). unfold get_class. rewrite H, H'. cbn [bind].
    apply (foldM_same alike); [exact FF|]. intros fs f f' If A. rewrite (al_kind _ _ A), (al_type _ _ A), (al_name _ _ A).
    destruct (al_default _ _ A) as [De De'].
    assert (R : (match f_kind f, f_type f with KList, _ => Ok None | _, TComplex ct => res_map Some (new_inst n O E' ct) | _, TSimple _ => Ok None end) =
                (match f_kind f, f_type f with KList, _ => Ok None | _, TComplex ct => res_map Some (new_inst n O E ct) | _, TSimple _ => Ok None end)).
    { destruct (f_type f) as [u|ct] eqn:Et; [reflexivity|]. now rewrite (IH ct (al_closed _ _ A ct Et)). }
    rewrite R. destruct (match f_kind f, f_type f with KList, _ => Ok None | _, TComplex ct => res_map Some (new_inst n O E ct) | _, TSimple _ => Ok None end); [|reflexivity].
    cbn [bind]. rewrite De, De'. destruct (al_kinds _ _ A) as [-> | [-> | ->]]; apply setattr_same; auto; intros g _; destruct (f_type g); exact I.
  Qed.
  Lemma new_inst_more n c fs : new_inst n O E c = Ok fs -> forall m, n <= m -> new_inst m O E c = Ok fs.
  Proof.
    revert c fs. induction n as [|n IH]; intros c fs H m Le; [discriminate H|]. destruct m as [|m]; [lia|]. cbn [new_inst] in *.
    destruct (get_class E c) as [d|]; [|discriminate H]. cbn [bind] in *. revert H. generalize (@nil (string * pyval)) as acc. generalize (cd_fields d) at 2 4 as l.
    induction l as [|f l IHl]; intros acc H; [exact H|]. cbn [foldM] in *. apply bind_ok in H as (acc' & H1 & H2). apply bind_ok in H1 as (inst & H0 & H1).
    assert (R : (match f_kind f, f_type f with KList, _ => Ok None | _, TComplex ct => res_map Some (new_inst m O E ct) | _, TSimple _ => Ok None end) = Ok inst).
    { revert H0. destruct (f_kind f), (f_type f) as [u|ct]; auto; destruct (new_inst n O E ct) eqn:N; intros H0; try discriminate H0; rewrite (IH _ _ N m) by lia; exact H0. }
    rewrite R. cbn [bind]. rewrite H1. cbn [bind]. exact (IHl _ H2).
  Qed.
  Hypothesis Inst : forall c, Cl c -> exists fs, new_instance O E' c = Ok fs.
  Hypothesis Lim : e_limit E' <= e_limit E.
  Lemma new_instance_same c : Cl c -> new_instance O E' c = new_instance O E c.
  Proof.
    intros Sc. destruct (Inst c Sc) as (fs & H). rewrite H. symmetry. unfold new_instance in *. rewrite (new_inst_same _ _ Sc) in H. exact (new_inst_more _ _ _ H _ Lim).
  Qed.
  Lemma construct_same c kw : Cl c -> (forall d name v f, e_cls E c = Some d -> In (name, v) kw -> find_field (cd_fields d) name = Ok f -> settled (f_type f) v) ->
    construct O E' c kw = construct O E c kw.
  Proof.
    intros Sc St. unfold construct, get_class. destruct (Ag c Sc) as (d & d' & H & H' & _ & _ & _ & _ & _ & FF). rewrite H, H'. cbn [bind].
    rewrite (new_instance_same c Sc). destruct (new_instance O E c) as [fs|]; [|reflexivity]. cbn [bind].
    rewrite (foldM_same1 (fun fs p => setattr O E (cd_fields d) fs (fst p) (snd p)) (fun fs p => setattr O E' (cd_fields d') fs (fst p) (snd p)) kw); [reflexivity|].
    intros b [name v] I. cbn [fst snd]. apply setattr_same; [exact FF|]. intros f Hf. exact (St d name v f H I Hf).
  Qed.

  (** ** Reading *)
  Lemma parse_obj_class n c x v : parse_obj n O E c x = Ok v -> exists fs, v = VObj c (Some x) fs.
  Proof.
    destruct n; [discriminate|]. cbn [parse_obj]. intros H. apply bind_ok in H as (d & _ & H). apply bind_ok in H as (f0 & _ & H). apply bind_ok in H as (f1 & _ & H).
    apply bind_ok in H as (f2 & _ & H). apply bind_ok in H as (f3 & _ & H). injection H as <-. eauto.
  Qed.
  Lemma find_sub_same f f' l : (forall x, matches f' x = matches f x) -> find_sub f' l = find_sub f l.
  Proof. intros M. induction l as [|x l IH]; [reflexivity|]. cbn [find_sub]. now rewrite M, IH. Qed.
  Lemma parse_field_same n F F' f f' fs x : (forall c, Cl c -> forall x, parse_obj n O E' c x = parse_obj n O E c x) -> Forall2 alike F F' -> NoDup (map f_name F) -> In f F -> alike f f' ->
    parse_field O E' (parse_obj n O E') F' f' fs x = parse_field O E (parse_obj n O E) F f fs x.
  Proof.
    intros IH FF Nd If A. unfold parse_field. rewrite (al_kind _ _ A), (al_name _ _ A), (al_type _ _ A).
    assert (Pt : parse_type O (parse_obj n O E') (f_type f) x = parse_type O (parse_obj n O E) (f_type f) x).
    { destruct (f_type f) as [u|c] eqn:Et; [reflexivity|]. cbn [parse_type]. apply IH. exact (al_closed _ _ A c Et). }
    rewrite Pt.
    assert (St : forall v, parse_type O (parse_obj n O E) (f_type f) x = Ok v -> settled (f_type f) v).
    { intros v. destruct (f_type f) as [u|c] eqn:Et; [intros; exact I|]. cbn [parse_type]. intros H. apply parse_obj_class in H as (l & ->). reflexivity. }
    assert (Own : forall g, find_field F (f_name f) = Ok g -> g = f).
    { intros g. unfold find_field. clear - Nd If. induction F as [|h F IHF]; [destruct If|]. cbn [find map] in *. inversion_clear Nd as [|? ? Nh Nd'].
      destruct (String.eqb_spec (f_name h) (f_name f)) as [Eh|Eh].
      - intros [= <-]. destruct If as [If|If]; [exact If|]. exfalso. apply Nh. rewrite Eh. now apply in_map.
      - apply IHF; auto. destruct If as [<-|If]; [congruence|exact If]. }
    destruct (al_kinds _ _ A) as [K | [K | K]]; rewrite K.
    - destruct (match el_get x xsi_nil with Some s => String.eqb s "true" | None => false end); cbn [bind].
      + apply setattr_same; [exact FF|]. intros g _. destruct (f_type g); exact I.
      + destruct (parse_type O (parse_obj n O E) (f_type f) x) as [v|] eqn:Pv; [|reflexivity]. cbn [bind]. apply setattr_same; [exact FF|]. intros g Hg. rewrite (Own g Hg). now apply St.
    - destruct (match el_get x xsi_nil with Some s => String.eqb s "true" | None => false end); cbn [bind].
      + apply setattr_same; [exact FF|]. intros g _. destruct (f_type g); exact I.
      + destruct (parse_type O (parse_obj n O E) (f_type f) x) as [v|] eqn:Pv; [|reflexivity]. cbn [bind]. apply setattr_same; [exact FF|]. intros g Hg. rewrite (Own g Hg). now apply St.
    - destruct (al_ltag _ _ A K) as [_ Mx].
      assert (Ta : forall l v, settled (f_type f) v -> tl_append O E' f' l v = tl_append O E f l v).
      { intros l v Sv. unfold tl_append. rewrite (al_nil _ _ A), (al_type _ _ A), Mx, (type_accept_same (f_type f) v (al_closed _ _ A) Sv). reflexivity. }
      assert (Nil : settled (f_type f) VNil) by (destruct (f_type f); exact I).
      destruct (truthy_str (el_get x xsi_nil)); cbn [bind].
      + destruct (getattr fs (f_name f)) as [w|]; [|reflexivity]. cbn [bind]. destruct w; try reflexivity. now rewrite Ta.
      + destruct (parse_type O (parse_obj n O E) (f_type f) x) as [v|] eqn:Pv; [|reflexivity]. cbn [bind].
        destruct (getattr fs (f_name f)) as [w|]; [|reflexivity]. cbn [bind]. destruct w; try reflexivity. rewrite Ta; [reflexivity|now apply St].
  Qed.
  Lemma filter_same (p p' : field -> bool) F F' : Forall2 alike F F' -> (forall f f', alike f f' -> p' f' = p f) -> Forall2 alike (filter p F) (filter p' F').
  Proof.
    intros FF Hp. induction FF as [|f f' F F' A FF IH]; cbn [filter]; [constructor|]. rewrite (Hp f f' A). destruct (p f); [now constructor|exact IH].
  Qed.
  Lemma attr_alike f f' : alike f f' -> is_attr f' = is_attr f.
  Proof. intros A. unfold is_attr. now rewrite (al_kind _ _ A). Qed.
  Lemma group_alike f f' : alike f f' -> is_group f' = is_group f.
  Proof. intros A. unfold is_group. now rewrite (al_kind _ _ A). Qed.
  Lemma plain_alike f f' : alike f f' -> is_plain f' = is_plain f.
  Proof. intros A. unfold is_plain. now rewrite (attr_alike _ _ A), (group_alike _ _ A). Qed.
  Hypothesis Nd : forall c d, Cl c -> e_cls E c = Some d -> NoDup (map f_name (cd_fields d)).
  Lemma parse_obj_same n c x : Cl c -> parse_obj n O E' c x = parse_obj n O E c x.
  Proof.
    revert c x. induction n as [|n IH]; intros c x Sc; [reflexivity|]. cbn [parse_obj].
    destruct (Ag c Sc) as (d & d' & H & H' & K & M & M' & Ei & Es & FF). unfold get_class. rewrite H, H'. cbn [bind]. rewrite (new_instance_same c Sc).
    destruct (new_instance O E c) as [f0|]; [|reflexivity]. cbn [bind].
    assert (IH' : forall c, Cl c -> forall x, parse_obj n O E' c x = parse_obj n O E c x) by (intros; now apply IH).
    assert (Pf : forall f f' fs y, In f (cd_fields d) -> alike f f' -> parse_field O E' (parse_obj n O E') (cd_fields d') f' fs y = parse_field O E (parse_obj n O E) (cd_fields d) f fs y).
    { intros f f' fs y If A. exact (parse_field_same n _ _ f f' fs y IH' FF (Nd c d Sc H) If A). }
    rewrite (foldM_same alike (fun fs f => parse_field O E (parse_obj n O E) (cd_fields d) f fs x) (fun fs f => parse_field O E' (parse_obj n O E') (cd_fields d') f fs x) (filter is_attr (cd_fields d)));
      [|apply filter_same; [exact FF|exact attr_alike]|intros b f f' If A; apply Pf; [now apply filter_In in If|exact A]].
    destruct (foldM _ f0 _) as [f1|]; [|reflexivity]. cbn [bind].
    assert (R : match cd_ind d' with
      | IChoice => parse_choice O E' (parse_obj n O E') (cd_fields d') (filter is_plain (cd_fields d')) f1 x
      | _ => foldM (fun fs f => subs <- find_sub f (el_children x) ;; foldM (fun fs s => parse_field O E' (parse_obj n O E') (cd_fields d') f fs s) fs subs) f1 (filter is_plain (cd_fields d'))
      end = match cd_ind d with
      | IChoice => parse_choice O E (parse_obj n O E) (cd_fields d) (filter is_plain (cd_fields d)) f1 x
      | _ => foldM (fun fs f => subs <- find_sub f (el_children x) ;; foldM (fun fs s => parse_field O E (parse_obj n O E) (cd_fields d) f fs s) fs subs) f1 (filter is_plain (cd_fields d))
      end).
    { rewrite Ei. pose proof (filter_same is_plain is_plain _ _ FF plain_alike) as FP.
      assert (In' : forall f, In f (filter is_plain (cd_fields d)) -> In f (cd_fields d)) by (intros f If; now apply filter_In in If).
      assert (Seq : foldM (fun fs f => subs <- find_sub f (el_children x) ;; foldM (fun fs s => parse_field O E' (parse_obj n O E') (cd_fields d') f fs s) fs subs) f1 (filter is_plain (cd_fields d')) =
        foldM (fun fs f => subs <- find_sub f (el_children x) ;; foldM (fun fs s => parse_field O E (parse_obj n O E) (cd_fields d) f fs s) fs subs) f1 (filter is_plain (cd_fields d))).
      { apply (foldM_same alike); [exact FP|]. intros b f f' If A. rewrite (find_sub_same f f' _ (al_match _ _ A)). destruct (find_sub f (el_children x)) as [subs|]; [|reflexivity].
        cbn [bind]. apply foldM_same1. intros b' a _. apply Pf; auto. }
      destruct (cd_ind d); [exact Seq| |exact Seq].
      clear Seq. revert In' FP. generalize (filter is_plain (cd_fields d)) as l. generalize (filter is_plain (cd_fields d')) as l'. intros l' l In' FP. revert In'.
      induction FP as [|f f' l l' A FP IHl]; intros In'; [reflexivity|]. cbn [parse_choice]. rewrite (al_match _ _ A). destruct (matches f x) as [b|]; [|reflexivity]. cbn [bind].
      destruct b; [apply Pf; [apply In'; now left|exact A]|]. apply IHl. intros; apply In'; now right. }
    rewrite R. destruct (match cd_ind d with IChoice => _ | _ => _ end) as [f2|]; [|reflexivity]. cbn [bind].
    rewrite (foldM_same alike (fun fs f => parse_field O E (parse_obj n O E) (cd_fields d) f fs x) (fun fs f => parse_field O E' (parse_obj n O E') (cd_fields d') f fs x) (filter is_group (cd_fields d)));
      [reflexivity|apply filter_same; [exact FF|exact group_alike]|intros b f f' If A; apply Pf; [now apply filter_In in If|exact A]].
  Qed.

  (** ** Writing *)
  Variable cs : list string.
  Hypothesis Cs : forall c, In c cs -> Cl c.
  Hypothesis Pl : forall c d, Cl c -> e_cls E c = Some d -> cd_kind d = CKPlain /\ Forall (fun f => f_kind f <> KClassNamed) (cd_fields d).
  Lemma made_attr fs name v : Forall (fun p => made_of cs (snd p)) fs -> getattr fs name = Ok v -> made_of cs v.
  Proof.
    intros F. unfold getattr. destruct (assoc name fs) as [w|] eqn:A; [|discriminate]. intros [= <-]. revert A. induction F as [|[k w'] fs Hw F IH]; [discriminate|].
    cbn [assoc]. destruct (String.eqb name k); [intros [= <-]; exact Hw|exact IH].
  Qed.
  Lemma made_items b l : made_of cs (VList b l) -> Forall (made_of cs) l.
  Proof. intros M. inversion M as [| |? ? No]; subst; [assumption|]. exfalso. exact (No b l eq_refl). Qed.
  Lemma render_type_same n t p v ns efd : (forall c, t = TComplex c -> Cl c) -> made_of cs v ->
    (forall c p v ns efd, Cl c -> made_of cs v -> render_obj n O E' c p v ns efd = render_obj n O E c p v ns efd) ->
    render_type O (render_obj n O E') t p v ns efd = render_type O (render_obj n O E) t p v ns efd.
  Proof. intros Sc M IH. destruct t as [u|c]; [reflexivity|]. cbn [render_type]. apply IH; auto. Qed.
  Lemma render_obj_same n c p v ns efd : Cl c -> made_of cs v -> render_obj n O E' c p v ns efd = render_obj n O E c p v ns efd.
  Proof.
    revert c p v ns efd. induction n as [|n IH]; intros c p v ns efd Sc Mv; [reflexivity|]. cbn [render_obj].
    destruct (Ag c Sc) as (d & d' & H & H' & K & M & M' & Ei & Es & FF). unfold get_class. rewrite H, H'. cbn [bind]. rewrite K, (proj1 (Pl c d Sc H)), Es. cbn [bind].
    destruct Mv as [c0 xe fs Ic Ff|b l Fl|v No Nl]; [|reflexivity|destruct v; try reflexivity; exfalso; eapply No; reflexivity].
    cbn [obj_parts bind fst snd]. destruct (Ag c0 (Cs c0 Ic)) as (d0 & d0' & H0 & H0' & _ & _ & _ & _ & _ & FF0). rewrite H0, H0'. cbn [bind].
    apply (foldM_same alike); [exact FF0|]. intros par f f' If A. rewrite (al_name _ _ A). destruct (getattr fs (f_name f)) as [w|] eqn:Gw; [|reflexivity]. cbn [bind].
    pose proof (made_attr _ _ _ Ff Gw) as Mw. set (ns1 := match cd_schema d with Some si => si_tns si | None => ns end).
    unfold render_field. rewrite (al_kind _ _ A), (al_tag _ _ A).
    assert (En : eff_ns f' ns1 = eff_ns f ns1) by (unfold eff_ns; now rewrite (al_ns _ _ A)).
    destruct (al_kinds _ _ A) as [Kf | [Kf | Kf]]; [rewrite Kf|exfalso; destruct (Pl c0 d0 (Cs c0 Ic) H0) as [_ Pf]; rewrite Forall_forall in Pf; exact (Pf f If Kf)|rewrite Kf].
    - unfold render_element. rewrite En, (al_type _ _ A).
      destruct w; try reflexivity; (destruct (mk_element _) as [yy|]; [|reflexivity]); cbn [bind]; try reflexivity;
        (rewrite (render_type_same n (f_type f) yy _ (eff_ns f ns1) efd (al_closed _ _ A) Mw (fun c p v ns efd => IH c p v ns efd)); reflexivity).
    - destruct (al_ltag _ _ A Kf) as [Tg Mx]. unfold render_list. rewrite En, (al_type _ _ A), (al_min _ _ A), Mx, Tg. destruct w; try reflexivity.
      destruct (match f_min f with Some m => _ | None => false end); [reflexivity|]. destruct (match f_max f with OInt m => _ | _ => false end); [reflexivity|].
      destruct (f_tag f) as [t|]; [|reflexivity]. apply foldM_same1. intros q a Ia. destruct (mk_element _) as [yy|]; [|reflexivity]. cbn [bind].
      pose proof (made_items _ _ Mw) as Fl. rewrite Forall_forall in Fl. specialize (Fl a Ia).
      destruct a; try reflexivity; (rewrite (render_type_same n (f_type f) yy _ (eff_ns f ns1) efd (al_closed _ _ A) Fl (fun c p v ns efd => IH c p v ns efd)); reflexivity).
  Qed.
End Agree.
