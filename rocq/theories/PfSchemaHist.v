(** The schemas of classes: proofs. *)
From Coq Require Import String Ascii List ZArith NArith Bool Lia.
From Verif Require Import PyBase Xml PyVal XsdSimple XsdComplex SchemaHist SpecSchemaHist PfBase.
Import ListNotations.
Open Scope nat_scope.
Open Scope string_scope.
Open Scope list_scope.

Section Calls.
  Variable P : nat -> passed.

  (** ** What one call does to one class *)
  Lemma take_all_in k l : forall s c, In c l -> assoc c (take_all k l s) = Some k.
  Proof.
    unfold take_all. induction l as [|x l IH]; intros s c I; [destruct I|]. cbn [fold_left].
    destruct (in_dec string_dec c l) as [J | J]; [now apply IH|]. destruct I as [<- | I]; [|contradiction].
    assert (K : forall s', ~ In x l -> assoc x (fold_left (fun s c => (c, k) :: s) l s') = assoc x s').
    { clear. induction l as [|y l IH]; intros s' N; [reflexivity|]. cbn [fold_left]. rewrite IH by (intros I; apply N; now right).
      cbn [assoc]. destruct (String.eqb_spec x y) as [-> | _]; [|reflexivity]. exfalso. apply N. now left. }
    rewrite K by exact J. cbn [assoc]. now rewrite String.eqb_refl.
  Qed.
  Lemma take_all_out k l : forall s c, ~ In c l -> assoc c (take_all k l s) = assoc c s.
  Proof.
    unfold take_all. induction l as [|y l IH]; intros s c N; [reflexivity|]. cbn [fold_left]. rewrite IH by (intros I; apply N; now right).
    cbn [assoc]. destruct (String.eqb_spec c y) as [-> | _]; [|reflexivity]. exfalso. apply N. now left.
  Qed.
  Lemma take_all_keeps k l s c : assoc c s = Some k -> assoc c (take_all k l s) = Some k.
  Proof. intros H. destruct (in_dec string_dec c l) as [I | I]; [now apply take_all_in|now rewrite take_all_out]. Qed.
  Lemma take_elements_keeps k tns l : forall st c, assoc c (fst st) = Some k -> assoc c (fst (fold_left (take_element P k tns) l st)) = Some k.
  Proof.
    induction l as [|e l IH]; intros st c H; [exact H|]. cbn [fold_left]. apply IH. unfold take_element. cbn [fst].
    destruct (P (snd e)) as [x|x|x]; try exact H. cbn [assoc]. destruct (String.eqb c x); [reflexivity|exact H].
  Qed.
  Lemma take_elements_in k tns l : forall st c, (exists n e, In (n, e) l /\ P e = PObject c) -> assoc c (fst (fold_left (take_element P k tns) l st)) = Some k.
  Proof.
    induction l as [|x l IH]; intros st c (n & e & I & E); [destruct I|]. cbn [fold_left]. destruct I as [-> | I]; [|apply IH; eauto].
    apply take_elements_keeps. unfold take_element. cbn [fst snd]. rewrite E. cbn [assoc]. now rewrite String.eqb_refl.
  Qed.
  Lemma take_elements_out k tns l : forall st c, ~ (exists n e, In (n, e) l /\ P e = PObject c) -> assoc c (fst (fold_left (take_element P k tns) l st)) = assoc c (fst st).
  Proof.
    induction l as [|[n e] l IH]; intros st c N; [reflexivity|]. cbn [fold_left]. rewrite IH.
    - unfold take_element. cbn [fst snd]. destruct (P e) as [x|x|x] eqn:E; try reflexivity. cbn [assoc].
      destruct (String.eqb_spec c x) as [-> | _]; [|reflexivity]. exfalso. apply N. exists n, e. split; [now left|exact E].
    - intros (n' & e' & I & E). apply N. exists n', e'. split; [now right|exact E].
  Qed.
  Lemma call_names h call c : names_class P call c -> assoc c (h_schema (fst (make_schema P h call))) = Some (length (h_calls h)).
  Proof.
    unfold make_schema. cbn [fst h_schema]. intros [I | [I | [I | [I | X]]]]; [apply take_elements_keeps; cbn [fst]..|now apply take_elements_in].
    - do 3 apply take_all_keeps. now apply take_all_in.
    - apply take_all_keeps. now apply take_all_in.
    - do 2 apply take_all_keeps. now apply take_all_in.
    - now apply take_all_in.
  Qed.
  Lemma call_leaves h call c : ~ names_class P call c -> assoc c (h_schema (fst (make_schema P h call))) = assoc c (h_schema h).
  Proof.
    unfold names_class. intros N. unfold make_schema. cbn [fst h_schema]. rewrite take_elements_out by tauto. cbn [fst].
    now rewrite !take_all_out by tauto.
  Qed.

  (** ** Histories *)
  Lemma run_snoc given l c : run_calls P given (l ++ [c]) = fst (make_schema P (run_calls P given l) c).
  Proof. unfold run_calls. rewrite fold_left_app. reflexivity. Qed.
  Lemma run_calls_list given l : h_calls (run_calls P given l) = l.
  Proof. induction l as [|c l IH] using rev_ind; [reflexivity|]. rewrite run_snoc. unfold make_schema. cbn [fst h_calls]. now rewrite IH. Qed.
  Lemma names_dec call c : names_class P call c \/ ~ names_class P call c.
  Proof.
    assert (D : (exists n e, In (n, e) (sc_elements call) /\ P e = PObject c) \/ ~ (exists n e, In (n, e) (sc_elements call) /\ P e = PObject c)).
    { induction (sc_elements call) as [|[n e] l IH]; [right; intros (? & ? & [] & _)|]. destruct IH as [(n' & e' & I & E) | N].
      - left. exists n', e'. split; [now right|exact E].
      - destruct (P e) as [x|x|x] eqn:E; try (right; intros (n' & e' & [[= -> ->] | I] & E'); [congruence|apply N; eauto]).
        destruct (string_dec x c) as [-> | Nx]; [left; exists n, e; split; [now left|exact E]|].
        right. intros (n' & e' & [[= -> ->] | I] & E'); [congruence|apply N; eauto]. }
    unfold names_class. destruct (in_dec string_dec c (sc_simple call)), (in_dec string_dec c (sc_attrgroups call)), (in_dec string_dec c (sc_groups call)), (in_dec string_dec c (sc_complex call)), D; tauto.
  Qed.
  Lemma own_schema given l c :
    (exists before call after, l = before ++ call :: after /\ names_class P call c /\ (forall x, In x after -> ~ names_class P x c) /\
       assoc c (h_schema (run_calls P given l)) = Some (length before)) \/
    (never_named P l c /\ assoc c (h_schema (run_calls P given l)) = None).
  Proof.
    induction l as [|call l IH] using rev_ind; [right; split; [intros x []|reflexivity]|]. rewrite run_snoc. destruct (names_dec call c) as [N | N].
    - left. exists l, call, []. split; [reflexivity|]. split; [exact N|]. split; [intros x []|]. rewrite (call_names _ _ _ N). now rewrite run_calls_list.
    - rewrite (call_leaves _ _ _ N). destruct IH as [(b & x & a & -> & Nx & La & As) | [Nv As]].
      + left. exists b, x, (a ++ [call]). rewrite <- app_assoc. split; [reflexivity|]. split; [exact Nx|]. split; [|exact As].
        intros y I. apply in_app_or in I as [I | [<- | []]]; [now apply La|exact N].
      + right. split; [|exact As]. intros y I. apply in_app_or in I as [I | [<- | []]]; [now apply Nv|exact N].
  Qed.
  Lemma last_unique l c x y : last_naming P l c x -> last_naming P l c y -> x = y.
  Proof.
    assert (W : forall b1 a1 b2 a2, b1 ++ x :: a1 = b2 ++ y :: a2 -> names_class P x c -> names_class P y c ->
      (forall z, In z a1 -> ~ names_class P z c) -> (forall z, In z a2 -> ~ names_class P z c) -> x = y).
    { induction b1 as [|b b1 IH]; intros a1 [|b' b2] a2 E Nx Ny L1 L2; cbn in E.
      - congruence.
      - injection E as <- E. exfalso. apply (L1 y); [rewrite E; apply in_elt|exact Ny].
      - injection E as -> E. exfalso. apply (L2 x); [rewrite <- E; apply in_elt|exact Nx].
      - injection E as -> E. eapply IH; eauto. }
    intros (b1 & a1 & -> & Nx & L1) (b2 & a2 & E & Ny & L2). eauto.
  Qed.
  Lemma schema_belongs given l mro s : belongs P l mro s <-> schema_at (run_calls P given l) mro = s.
  Proof.
    unfold schema_at. rewrite run_calls_list. revert s. induction mro as [|c bases IH]; intros s; cbn [schema_along].
    - split; [intros H; inversion H; reflexivity|intros <-; constructor].
    - destruct (own_schema given l c) as [(b & x & a & -> & Nx & La & ->) | [Nv ->]].
      + rewrite nth_error_app2 by lia. rewrite Nat.sub_diag. cbn [nth_error].
        assert (L : last_naming P (b ++ x :: a) c x) by (exists b, a; auto). split.
        * intros H. inversion H as [c' bs call L' | c' bs s' Nv' B'|]; subst; [now rewrite (last_unique _ _ _ _ L L')|]. exfalso. apply (Nv' x); [apply in_elt|exact Nx].
        * intros <-. now constructor.
      + split.
        * intros H. inversion H as [c' bs call L' | c' bs s' Nv' B'|]; subst.
          -- destruct L' as (b & a & -> & Nx & _). exfalso. apply (Nv call); [apply in_elt|exact Nx].
          -- now apply IH.
        * intros H. apply Belongs_base; [exact Nv|]. now apply IH.
  Qed.
  Lemma belongs_total l mro : exists s, belongs P l mro s.
  Proof. exists (schema_at (run_calls P [] l) mro). now apply schema_belongs with (given := []). Qed.

  (** ** Element objects *)
  Lemma elements_ns k tns l : forall st e, num_assoc e (snd (fold_left (take_element P k tns) l st)) =
    match num_assoc e (snd st) with Some n => Some n | None => if existsb (fun p => Nat.eqb e (snd p)) l then Some tns else None end.
  Proof.
    induction l as [|[n x] l IH]; intros st e; cbn [fold_left existsb snd]; [destruct (num_assoc e (snd st)); reflexivity|]. rewrite IH.
    unfold take_element. cbn [snd]. destruct (num_assoc x (snd st)) eqn:X.
    - destruct (num_assoc e (snd st)) eqn:Y; [reflexivity|]. destruct (Nat.eqb_spec e x) as [-> | _]; [congruence|]. reflexivity.
    - cbn [num_assoc]. destruct (Nat.eqb_spec e x) as [-> | _]; [now rewrite X|reflexivity].
  Qed.
  Lemma exists_element call e : existsb (fun p => Nat.eqb e (snd p)) (sc_elements call) = true <-> has_element call e.
  Proof.
    rewrite existsb_exists. split.
    - intros ([n x] & I & E). cbn in E. apply Nat.eqb_eq in E as ->. now exists n.
    - intros (n & I). exists (n, e). split; [exact I|]. apply Nat.eqb_refl.
  Qed.
  Lemma element_given given l e n : num_assoc e given = Some n -> num_assoc e (h_ns (run_calls P given l)) = Some n.
  Proof.
    intros G. induction l as [|c l IH] using rev_ind; [exact G|]. rewrite run_snoc. unfold make_schema. cbn [fst h_ns]. rewrite elements_ns. cbn [snd]. now rewrite IH.
  Qed.
  Lemma element_none given l e : num_assoc e given = None -> (forall c, In c l -> ~ has_element c e) -> num_assoc e (h_ns (run_calls P given l)) = None.
  Proof.
    intros G. induction l as [|c l IH] using rev_ind; [intros; exact G|]. intros N. rewrite run_snoc. unfold make_schema. cbn [fst h_ns]. rewrite elements_ns. cbn [snd].
    rewrite IH by (intros x I; apply N, in_or_app; now left). destruct (existsb _ _) eqn:X; [|reflexivity]. apply exists_element in X. exfalso. apply (N c); [apply in_or_app; right; now left|exact X].
  Qed.
  Lemma element_first given before call after e : num_assoc e given = None -> (forall c, In c before -> ~ has_element c e) -> has_element call e ->
    num_assoc e (h_ns (run_calls P given (before ++ call :: after))) = Some (sc_tns call).
  Proof.
    intros G N H. induction after as [|c l IH] using rev_ind.
    - change (before ++ [call]) with (before ++ [call]). rewrite run_snoc. unfold make_schema. cbn [fst h_ns]. rewrite elements_ns. cbn [snd].
      rewrite element_none by auto. apply exists_element in H. now rewrite H.
    - replace (before ++ call :: l ++ [c]) with ((before ++ call :: l) ++ [c]) by now rewrite <- app_assoc. rewrite run_snoc. unfold make_schema. cbn [fst h_ns]. rewrite elements_ns. cbn [snd]. now rewrite IH.
  Qed.
End Calls.

(** ** Reading does not look at schemas *)
Definition but_schema (E E' : env) : Prop :=
  e_limit E = e_limit E' /\
  forall n, match e_cls E n, e_cls E' n with
            | Some d, Some d' => cd_mro d = cd_mro d' /\ cd_kind d = cd_kind d' /\ cd_fields d = cd_fields d' /\ cd_ind d = cd_ind d'
            | None, None => True
            | _, _ => False
            end.
Lemma foldM_pointwise {A B} (f g : A -> B -> res A) l : (forall a x, f a x = g a x) -> forall a, foldM f a l = foldM g a l.
Proof. intros H. induction l as [|x l IH]; intros a; cbn [foldM]; [reflexivity|]. rewrite H. destruct (g a x); cbn [bind]; auto. Qed.
Section Reading.
  Variables (O : oracle) (E E' : env).
  Hypothesis B : but_schema E E'.
  Lemma b_instance v c : is_instance E v c = is_instance E' v c.
  Proof. destruct v; try reflexivity. cbn [is_instance]. pose proof (proj2 B cls) as H. destruct (e_cls E cls), (e_cls E' cls); try contradiction; [|reflexivity]. destruct H as (-> & _). reflexivity. Qed.
  Lemma b_complex c v : complex_accept E c v = complex_accept E' c v.
  Proof.
    unfold complex_accept, get_class. pose proof (proj2 B c) as H. destruct (e_cls E c), (e_cls E' c); try contradiction; [|reflexivity]. destruct H as (_ & K & _).
    cbn [bind]. now rewrite K, (b_instance v c).
  Qed.
  Lemma b_type t v : type_accept O E t v = type_accept O E' t v.
  Proof. destruct t; [reflexivity|apply b_complex]. Qed.
  Lemma b_field f v : field_accept O E f v = field_accept O E' f v.
  Proof. unfold field_accept. now rewrite (b_type (f_type f) v). Qed.
  Lemma b_setattr F fs n v : setattr O E F fs n v = setattr O E' F fs n v.
  Proof. unfold setattr. destruct (find_field F n); cbn [bind]; [|reflexivity]. now rewrite b_field. Qed.
  Lemma b_append f l v : tl_append O E f l v = tl_append O E' f l v.
  Proof. unfold tl_append. now rewrite (b_type (f_type f) v). Qed.
  Lemma b_new n : forall c, new_inst n O E c = new_inst n O E' c.
  Proof.
    induction n as [|n IH]; intros c; [reflexivity|]. cbn [new_inst]. unfold get_class. pose proof (proj2 B c) as H. destruct (e_cls E c), (e_cls E' c); try contradiction; [|reflexivity].
    destruct H as (_ & _ & K & _). cbn [bind]. rewrite K. apply foldM_pointwise. intros fs f.
    assert (I : (match f_kind f, f_type f with KList, _ => Ok None | _, TComplex ct => res_map Some (new_inst n O E ct) | _, TSimple _ => Ok None end) =
                (match f_kind f, f_type f with KList, _ => Ok None | _, TComplex ct => res_map Some (new_inst n O E' ct) | _, TSimple _ => Ok None end)).
    { destruct (f_kind f), (f_type f); try reflexivity; now rewrite IH. }
    rewrite I. destruct (match f_kind f, f_type f with KList, _ => Ok None | _, TComplex ct => res_map Some (new_inst n O E' ct) | _, TSimple _ => Ok None end); cbn [bind]; [|reflexivity].
    apply b_setattr.
  Qed.
  Lemma b_instance_new c : new_instance O E c = new_instance O E' c.
  Proof. unfold new_instance. rewrite (proj1 B). apply b_new. Qed.
  Lemma b_parse_type (r r' : parser) t x : (forall c x, r c x = r' c x) -> parse_type O r t x = parse_type O r' t x.
  Proof. intros H. destruct t; [reflexivity|apply H]. Qed.
  Lemma b_parse_field (r r' : parser) F f fs x : (forall c x, r c x = r' c x) -> parse_field O E r F f fs x = parse_field O E' r' F f fs x.
  Proof.
    intros H. unfold parse_field. rewrite (b_parse_type r r' (f_type f) x H).
    destruct (f_kind f).
    all: match goal with |- bind ?a _ = bind ?a _ => destruct a as [v|]; cbn [bind]; [|reflexivity] end.
    all: try apply b_setattr.
    destruct (getattr fs (f_name f)) as [[]|]; cbn [bind]; try reflexivity. now rewrite b_append.
  Qed.
  Lemma b_parse_choice (r r' : parser) F todo fs x : (forall c x, r c x = r' c x) -> parse_choice O E r F todo fs x = parse_choice O E' r' F todo fs x.
  Proof.
    intros H. induction todo as [|f todo IH]; cbn [parse_choice]; [reflexivity|]. destruct (matches f x) as [[]|]; cbn [bind]; [|exact IH|reflexivity].
    now apply b_parse_field.
  Qed.
  Lemma b_parse n : forall c x, parse_obj n O E c x = parse_obj n O E' c x.
  Proof.
    induction n as [|n IH]; intros c x; [reflexivity|]. cbn [parse_obj]. rewrite b_instance_new. unfold get_class. pose proof (proj2 B c) as H. destruct (e_cls E c) as [d|], (e_cls E' c) as [d'|]; try contradiction; [|reflexivity].
    destruct H as (_ & _ & K & K'). cbn [bind]. rewrite K, K'. destruct (new_instance O E' c) as [fs0|]; cbn [bind]; [|reflexivity].
    rewrite (foldM_pointwise _ (fun fs f => parse_field O E' (parse_obj n O E') (cd_fields d') f fs x)) by (intros; now apply b_parse_field).
    destruct (foldM _ fs0 _) as [fs1|]; cbn [bind]; [|reflexivity].
    rewrite (b_parse_choice _ (parse_obj n O E')) by exact IH.
    rewrite (foldM_pointwise (fun fs f => subs <- find_sub f (el_children x) ;; foldM (fun fs s => parse_field O E (parse_obj n O E) (cd_fields d') f fs s) fs subs)
                             (fun fs f => subs <- find_sub f (el_children x) ;; foldM (fun fs s => parse_field O E' (parse_obj n O E') (cd_fields d') f fs s) fs subs)).
    2:{ intros fs f. destruct (find_sub f (el_children x)); cbn [bind]; [|reflexivity]. apply foldM_pointwise. intros; now apply b_parse_field. }
    match goal with |- bind ?a _ = bind ?a _ => destruct a as [fs2|]; cbn [bind]; [|reflexivity] end.
    rewrite (foldM_pointwise _ (fun fs f => parse_field O E' (parse_obj n O E') (cd_fields d') f fs x)) by (intros; now apply b_parse_field).
    reflexivity.
  Qed.
End Reading.
Lemma now_but_schema h h' E : but_schema (env_now h E) (env_now h' E).
Proof. split; [reflexivity|]. intros n. cbn [env_now e_cls]. destruct (e_cls E n); [cbn; auto|exact I]. Qed.
Lemma reading_same h h' n O E c x : parse_obj n O (env_now h E) c x = parse_obj n O (env_now h' E) c x.
Proof. apply b_parse, now_but_schema. Qed.
Lemma making_same h h' O E c kw : construct O (env_now h E) c kw = construct O (env_now h' E) c kw.
Proof.
  pose proof (now_but_schema h h' E) as B. unfold construct. rewrite (b_instance_new O _ _ B). unfold get_class. pose proof (proj2 B c) as H.
  destruct (e_cls (env_now h E) c) as [d|], (e_cls (env_now h' E) c) as [d'|]; try contradiction; [|reflexivity]. destruct H as (_ & _ & K & _). cbn [bind]. rewrite K.
  destruct (new_instance O (env_now h' E) c); cbn [bind]; [|reflexivity].
  rewrite (foldM_pointwise _ (fun fs p => setattr O (env_now h' E) (cd_fields d') fs (fst p) (snd p))) by (intros; now apply b_setattr). reflexivity.
Qed.

(** ** Writing depends on the schemas of the classes only *)
Section Writing.
  Variables (O : oracle) (E E' : env).
  Hypothesis W : forall n, e_cls E n = e_cls E' n.
  Lemma w_class c : get_class E c = get_class E' c.
  Proof. unfold get_class. now rewrite W. Qed.
  Lemma w_type (r r' : renderer) t p v ns efd : (forall c p v ns efd, r c p v ns efd = r' c p v ns efd) -> render_type O r t p v ns efd = render_type O r' t p v ns efd.
  Proof. intros H. destruct t; [reflexivity|apply H]. Qed.
  Lemma w_field (r r' : renderer) f p v ns efd : (forall c p v ns efd, r c p v ns efd = r' c p v ns efd) -> render_field O E r f p v ns efd = render_field O E' r' f p v ns efd.
  Proof.
    intros H. unfold render_field. destruct (f_kind f); try reflexivity.
    - unfold render_element. destruct v; try reflexivity; destruct (mk_element _); cbn [bind]; try reflexivity; now rewrite (w_type r r').
    - unfold render_classnamed. destruct v; try reflexivity;
      repeat (match goal with
        | |- bind ?a _ = bind ?a _ => destruct a; cbn [bind]; try reflexivity
        | |- context [get_class E ?k] => rewrite (w_class k)
        | |- context [render_type O r] => rewrite (w_type r r') by exact H
        | |- match ?x with _ => _ end = _ => destruct x; try reflexivity
        end).
    - unfold render_ref, is_group_obj. destruct v; try reflexivity; try rewrite W; rewrite ?(w_type r r') by exact H;
        destruct (mk_element _); cbn [bind]; try reflexivity; now rewrite (w_type r r').
    - unfold render_ref, is_group_obj. destruct v; try reflexivity; try rewrite W; rewrite ?(w_type r r') by exact H;
        destruct (mk_element _); cbn [bind]; try reflexivity; now rewrite (w_type r r').
    - unfold render_list. destruct v; try reflexivity. destruct (match f_min f with Some m => _ | None => false end); [reflexivity|].
      destruct (match f_max f with OInt m => _ | _ => false end); [reflexivity|]. destruct (f_tag f); [|reflexivity].
      apply foldM_pointwise. intros a x. destruct (mk_element _); cbn [bind]; [|reflexivity]. destruct x; try reflexivity; now rewrite (w_type r r').
  Qed.
  Lemma w_render n : forall c p v ns efd, render_obj n O E c p v ns efd = render_obj n O E' c p v ns efd.
  Proof.
    induction n as [|n IH]; intros c p v ns efd; [reflexivity|]. cbn [render_obj]. rewrite w_class. destruct (get_class E' c) as [d|]; cbn [bind]; [|reflexivity].
    assert (K : (match cd_kind d with CKHeader => p0 <- obj_parts v ;; di <- get_class E (fst p0) ;; match cd_schema di with Some si => Ok (si_tns si) | None => Err AttributeError end | _ => Ok ns end) =
                (match cd_kind d with CKHeader => p0 <- obj_parts v ;; di <- get_class E' (fst p0) ;; match cd_schema di with Some si => Ok (si_tns si) | None => Err AttributeError end | _ => Ok ns end)).
    { destruct (cd_kind d); try reflexivity. destruct (obj_parts v); cbn [bind]; [|reflexivity]. now rewrite w_class. }
    rewrite K. match goal with |- bind ?a _ = bind ?a _ => destruct a as [ns0|]; cbn [bind]; [|reflexivity] end.
    destruct v; try reflexivity; cbn [obj_parts bind]. rewrite w_class. destruct (get_class E' _) as [di|]; cbn [bind]; [|reflexivity].
    apply foldM_pointwise. intros a f. destruct (getattr _ _); cbn [bind]; [|reflexivity]. now apply w_field.
  Qed.
  Lemma w_xml n v tag ns efd : xml_of n O E v tag ns efd = xml_of n O E' v tag ns efd.
  Proof. unfold xml_of. destruct (mk_element _); cbn [bind]; [|reflexivity]. destruct (obj_parts v); cbn [bind]; [|reflexivity]. apply w_render. Qed.
End Writing.
Lemma belongs_more P l call mro s : (forall c, In c mro -> ~ names_class P call c) -> belongs P l mro s -> belongs P (l ++ [call]) mro s.
Proof.
  intros N H. induction H as [c bases x (b & a & -> & Nx & La) | c bases s Nv H IH |].
  - constructor. exists b, (a ++ [call]). rewrite <- app_assoc. split; [reflexivity|]. split; [exact Nx|]. intros y I. apply in_app_or in I as [I | [<- | []]]; [now apply La|]. apply N. now left.
  - apply Belongs_base; [|apply IH; intros; apply N; now right]. intros y I. apply in_app_or in I as [I | [<- | []]]; [now apply Nv|]. apply N. now left.
  - constructor.
Qed.
Lemma writing_same P given l call n O E v tag ns efd :
  (forall c d k, e_cls E c = Some d -> In k (cd_mro d) -> ~ names_class P call k) ->
  xml_of n O (env_now (run_calls P given (l ++ [call])) E) v tag ns efd = xml_of n O (env_now (run_calls P given l) E) v tag ns efd.
Proof.
  intros N. apply w_xml. intros c. cbn [env_now e_cls]. destruct (e_cls E c) as [d|] eqn:Ed; [|reflexivity]. do 2 f_equal.
  apply schema_belongs. apply belongs_more; [intros k; now apply (N c d)|]. now apply schema_belongs with (given := given).
Qed.
Lemma raised_takes P given l call e c bases : sc_raises call = Some e -> names_class P call c ->
  snd (make_schema P (run_calls P given l) call) = Some e /\
  schema_at (fst (make_schema P (run_calls P given l) call)) (c :: bases) = Some {| si_tns := Some (sc_tns call); si_efd := sc_efd call |}.
Proof.
  intros R N. split; [exact R|]. rewrite <- run_snoc. apply schema_belongs. constructor. exists l, []. split; [reflexivity|]. split; [exact N|]. intros x [].
Qed.
