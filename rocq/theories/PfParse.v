(** Parsing depends only on what it reads (C22, C23). *)
From Coq Require Import String Ascii List ZArith NArith Bool Lia Permutation.
From Verif Require Import PyBase Xml PyVal XsdDate XsdSimple XsdComplex SpecObject SpecParse PfBase PfObject.
Import ListNotations.
Open Scope Z_scope.

(** ** Values up to [erase] *)
Definition efs (fs : list (string * pyval)) := map (fun p => (fst p, erase (snd p))) fs.

Lemma erase_idem v : erase (erase v) = erase v.
Proof.
  induction v as [v Hv|c xe fs IH|t l IH] using pyval_ind'.
  - destruct v; easy.
  - cbn. f_equal. rewrite map_map. apply map_ext_in. intros p Hp. cbn.
    rewrite Forall_forall in IH. now rewrite (IH p Hp).
  - cbn. f_equal. rewrite map_map. apply map_ext_in. intros p Hp.
    rewrite Forall_forall in IH. now apply IH.
Qed.

Lemma efs_assoc k fs : assoc k (efs fs) = option_map erase (assoc k fs).
Proof.
  induction fs as [|[k' v] fs IH]; cbn; auto. destruct String.eqb; auto.
Qed.
Lemma efs_assoc_set k v fs : efs (assoc_set k v fs) = assoc_set k (erase v) (efs fs).
Proof.
  unfold efs in *. induction fs as [|[k' w] fs IH]; cbn; auto. destruct String.eqb; cbn; auto. now rewrite IH.
Qed.
Lemma erase_scalar v w : match v with VObj _ _ _ | VList _ _ => False | _ => True end ->
  erase v = erase w -> v = w.
Proof. destruct v; try easy; intros _; destruct w; cbn; congruence. Qed.

Lemma st_accept_erase O s v w : erase v = erase w ->
  res_map erase (st_accept O s v) = res_map erase (st_accept O s w).
Proof.
  intros H. destruct v; try (apply erase_scalar in H; [subst w; reflexivity|exact I]).
  - destruct w; try discriminate. destruct s; reflexivity.
  - destruct w; try discriminate. destruct s; reflexivity.
Qed.
Lemma is_instance_erase E v w c : erase v = erase w -> is_instance E v c = is_instance E w c.
Proof.
  intros H. destruct v, w; cbn in H; try discriminate; try reflexivity. now injection H as -> _.
Qed.
Lemma complex_accept_erase E c v w : erase v = erase w ->
  res_map erase (complex_accept E c v) = res_map erase (complex_accept E c w).
Proof.
  intros H. unfold complex_accept. destruct (get_class E c) as [d|]; [cbn [bind]|reflexivity].
  pose proof (is_instance_erase E v w c H) as I.
  assert (G : res_map erase (match v with VNone => Ok VNone | _ => if is_instance E v c then Ok v else Err ValueError end)
    = res_map erase (match w with VNone => Ok VNone | _ => if is_instance E w c then Ok w else Err ValueError end)).
  { destruct v, w; cbn in H; try discriminate; try reflexivity; rewrite I; clear I; destruct is_instance; try reflexivity; apply (f_equal Ok); exact H. }
  destruct (cd_kind d); auto. cbn. congruence.
Qed.
Lemma field_accept_erase O E f v w : erase v = erase w ->
  res_map erase (field_accept O E f v) = res_map erase (field_accept O E f w).
Proof.
  intros H. unfold field_accept.
  assert (T : res_map erase (type_accept O E (f_type f) v) = res_map erase (type_accept O E (f_type f) w)).
  { unfold type_accept. destruct (f_type f); auto using st_accept_erase, complex_accept_erase. }
  assert (G : res_map erase (match v with VNil => if f_nillable f then Ok VNil else Err ValueError | _ => type_accept O E (f_type f) v end)
    = res_map erase (match w with VNil => if f_nillable f then Ok VNil else Err ValueError | _ => type_accept O E (f_type f) w end)).
  { destruct v, w; cbn in H; try discriminate; auto. }
  destruct (f_kind f); auto. cbn. congruence.
Qed.

(** Results equal up to [erase]. *)
Definition req (a b : res (list (string * pyval))) : Prop := res_map efs a = res_map efs b.

Lemma setattr_erase O E F fs fs' name v w : efs fs = efs fs' -> erase v = erase w ->
  req (setattr O E F fs name v) (setattr O E F fs' name w).
Proof.
  intros Hf Hv. unfold setattr, req. destruct find_field as [f|]; [cbn [bind]|reflexivity].
  pose proof (field_accept_erase O E f v w Hv) as H.
  destruct (field_accept O E f v), (field_accept O E f w); cbn in H |- *; try congruence.
  injection H as H. now rewrite !efs_assoc_set, Hf, H.
Qed.

Lemma foldM_req {B} (f g : list (string * pyval) -> B -> res (list (string * pyval))) l : forall a b,
  efs a = efs b ->
  (forall x a b, In x l -> efs a = efs b -> req (f a x) (g b x)) ->
  req (foldM f a l) (foldM g b l).
Proof.
  induction l as [|x l IH]; intros a b Hab H; cbn; [now unfold req; cbn; rewrite Hab|].
  pose proof (H x a b (or_introl eq_refl) Hab) as R. unfold req in R.
  destruct (f a x) as [a'|], (g b x) as [b'|]; cbn in R |- *; try congruence.
  apply IH; [congruence|]. intros; apply H; auto. now right.
Qed.

Lemma foldM_req2 {B} (f g : list (string * pyval) -> B -> res (list (string * pyval))) (R : B -> B -> Prop)
  l l' : Forall2 R l l' -> forall a b, efs a = efs b ->
  (forall x y a b, R x y -> efs a = efs b -> req (f a x) (g b y)) ->
  req (foldM f a l) (foldM g b l').
Proof.
  induction 1 as [|x y l l' Hxy HF IH]; intros a b Hab H; cbn; [now unfold req; cbn; rewrite Hab|].
  pose proof (H x y a b Hxy Hab) as Q. unfold req in Q.
  destruct (f a x) as [a'|], (g b y) as [b'|]; cbn in Q |- *; try congruence.
  apply IH; [congruence|]. auto.
Qed.

(** ** Agreement of two elements read with the same type *)
Definition agree (n : nat) (O : oracle) (E : env) (ft : ftype) (x x' : node) : Prop :=
  el_get x xsi_nil = el_get x' xsi_nil /\
  res_map erase (parse_type O (parse_obj n O E) ft x) = res_map erase (parse_type O (parse_obj n O E) ft x').

Lemma tl_append_erase O E f l l' v w : map erase l = map erase l' -> erase v = erase w ->
  res_map (map erase) (tl_append O E f l v) = res_map (map erase) (tl_append O E f l' w).
Proof.
  intros Hl Hv. unfold tl_append.
  assert (T : res_map erase (type_accept O E (f_type f) v) = res_map erase (type_accept O E (f_type f) w)).
  { unfold type_accept. destruct (f_type f); auto using st_accept_erase, complex_accept_erase. }
  assert (G : res_map erase (match v with VNil => if f_nillable f then Ok VNil else Err ValueError | _ => type_accept O E (f_type f) v end)
    = res_map erase (match w with VNil => if f_nillable f then Ok VNil else Err ValueError | _ => type_accept O E (f_type f) w end)).
  { destruct v, w; cbn in Hv; try discriminate; auto. }
  revert G.
  generalize (match v with VNil => if f_nillable f then Ok VNil else Err ValueError | _ => type_accept O E (f_type f) v end).
  generalize (match w with VNil => if f_nillable f then Ok VNil else Err ValueError | _ => type_accept O E (f_type f) w end).
  intros r2 r1 G. assert (L : length l = length l') by (rewrite <- (map_length erase l), Hl; apply map_length).
  destruct r1 as [a|], r2 as [b|]; cbn in G |- *; try congruence. rewrite L.
  destruct exceeds; cbn; auto. rewrite !map_app, Hl. cbn. congruence.
Qed.

Lemma parse_field_erase n O E F f fs fs' x x' : is_attr f = false -> efs fs = efs fs' ->
  agree n O E (f_type f) x x' ->
  req (parse_field O E (parse_obj n O E) F f fs x) (parse_field O E (parse_obj n O E) F f fs' x').
Proof.
  intros A Hf [Hn Hp]. unfold parse_field. rewrite Hn.
  assert (G : forall b : bool,
    req (v <- (if b then Ok VNil else parse_type O (parse_obj n O E) (f_type f) x) ;; setattr O E F fs (f_name f) v)
        (v <- (if b then Ok VNil else parse_type O (parse_obj n O E) (f_type f) x') ;; setattr O E F fs' (f_name f) v)).
  { intros [].
    - apply setattr_erase; auto.
    - destruct (parse_type O (parse_obj n O E) (f_type f) x), (parse_type O (parse_obj n O E) (f_type f) x');
        cbn in Hp |- *; try (unfold req; cbn; congruence). apply setattr_erase; auto. congruence. }
  destruct (f_kind f) eqn:K; try apply G.
  - unfold is_attr in A. now rewrite K in A.
  - assert (L : forall v w, erase v = erase w ->
      req (cur <- getattr fs (f_name f) ;;
           match cur with VList _ l => l' <- tl_append O E f l v ;; Ok (assoc_set (f_name f) (VList true l') fs)
           | _ => Err AttributeError end)
          (cur <- getattr fs' (f_name f) ;;
           match cur with VList _ l => l' <- tl_append O E f l w ;; Ok (assoc_set (f_name f) (VList true l') fs')
           | _ => Err AttributeError end)).
    { intros v w Hv. unfold getattr. pose proof (efs_assoc (f_name f) fs) as A1.
      pose proof (efs_assoc (f_name f) fs') as A2. rewrite Hf in A1. rewrite A1 in A2.
      destruct (assoc (f_name f) fs) as [c1|], (assoc (f_name f) fs') as [c2|]; cbn in A2 |- *;
        try discriminate; [|reflexivity].
      injection A2 as A2.
      destruct c1, c2; cbn in A2; try discriminate; try reflexivity.
      injection A2 as -> A2.
      pose proof (tl_append_erase O E f l l0 v w A2 Hv) as T.
      destruct (tl_append O E f l v), (tl_append O E f l0 w); cbn in T |- *; try (unfold req; cbn; congruence).
      unfold req. cbn. rewrite !efs_assoc_set, Hf. cbn. congruence. }
    destruct (truthy_str (el_get x' xsi_nil)); cbn [bind]; [now apply L|].
    destruct (parse_type O (parse_obj n O E) (f_type f) x), (parse_type O (parse_obj n O E) (f_type f) x');
      cbn in Hp |- *; try (unfold req; cbn; congruence). apply L. congruence.
Qed.
Lemma parse_attr_same n n' O E F f fs fs' x x' : is_attr f = true -> efs fs = efs fs' ->
  el_get x (f_name f) = el_get x' (f_name f) ->
  req (parse_field O E (parse_obj n O E) F f fs x) (parse_field O E (parse_obj n' O E) F f fs' x').
Proof.
  intros A Hf Hg. unfold is_attr in A. unfold parse_field. destruct (f_kind f); try discriminate.
  rewrite Hg. match goal with |- req (bind ?r _) _ => destruct r; cbn [bind]; [|reflexivity] end.
  apply setattr_erase; auto.
Qed.

Lemma parse_obj_S n O E c x : parse_obj (S n) O E c x =
  (d <- get_class E c ;;
   fs0 <- new_instance O E c ;;
   fs1 <- foldM (fun fs f => parse_field O E (parse_obj n O E) (cd_fields d) f fs x) fs0
            (filter is_attr (cd_fields d)) ;;
   fs2 <- (match cd_ind d with
           | IChoice => parse_choice O E (parse_obj n O E) (cd_fields d) (filter is_plain (cd_fields d)) fs1 x
           | _ => foldM (fun fs f => subs <- find_sub f (el_children x) ;;
                           foldM (fun fs s => parse_field O E (parse_obj n O E) (cd_fields d) f fs s) fs subs)
                    fs1 (filter is_plain (cd_fields d))
           end) ;;
   fs3 <- foldM (fun fs f => parse_field O E (parse_obj n O E) (cd_fields d) f fs x) fs2
            (filter is_group (cd_fields d)) ;;
   Ok (VObj c (Some x) fs3)).
Proof. reflexivity. Qed.

Lemma bind_req {A} (a b : res (list (string * pyval))) (f g : list (string * pyval) -> res A) (er : A -> A) :
  req a b -> (forall x y, efs x = efs y -> res_map er (f x) = res_map er (g y)) ->
  res_map er (bind a f) = res_map er (bind b g).
Proof.
  unfold req. intros H K. destruct a, b; cbn in H |- *; try congruence. apply K. congruence.
Qed.

(** The children of [f] in [x] and [x'] are pairwise read alike. *)
Definition subs_agree (n : nat) (O : oracle) (E : env) (f : field) (x x' : node) : Prop :=
  match find_sub f (el_children x), find_sub f (el_children x') with
  | Ok l, Ok l' => Forall2 (agree n O E (f_type f)) l l'
  | Err e, Err e' => e = e'
  | _, _ => False
  end.

Lemma is_group_not_attr f : is_group f = true -> is_attr f = false.
Proof. unfold is_group, is_attr. destruct (f_kind f); easy. Qed.
Lemma is_plain_not_attr f : is_plain f = true -> is_attr f = false.
Proof. unfold is_plain. destruct (is_attr f); easy. Qed.

Lemma agree_step n O E c d x x' : e_cls E c = Some d -> cd_ind d <> IChoice ->
  el_get x xsi_nil = el_get x' xsi_nil ->
  (forall f, In f (cd_fields d) -> is_attr f = true -> el_get x (f_name f) = el_get x' (f_name f)) ->
  (forall f, In f (cd_fields d) -> is_plain f = true -> subs_agree n O E f x x') ->
  (forall f, In f (cd_fields d) -> is_group f = true -> agree n O E (f_type f) x x') ->
  agree (S n) O E (TComplex c) x x'.
Proof.
  intros Hd Hi Hn Ha Hs Hg. split; auto. cbn [parse_type]. rewrite !parse_obj_S.
  unfold get_class. rewrite Hd. cbn [bind].
  destruct (new_instance O E c) as [fs0|]; [cbn [bind]|reflexivity].
  apply bind_req.
  { apply foldM_req; auto. intros f a b Hf Hab. apply filter_In in Hf as [Hf Af].
    apply parse_attr_same; auto. }
  intros fs1 fs1' H1. apply bind_req.
  { destruct (cd_ind d); try congruence.
    all: apply foldM_req; auto; intros f a b Hf Hab; apply filter_In in Hf as [Hf Pf];
      specialize (Hs f Hf Pf); unfold subs_agree in Hs;
      destruct (find_sub f (el_children x)) as [l|], (find_sub f (el_children x')) as [l'|]; try easy;
      [|cbn; unfold req; cbn; congruence]; cbn [bind];
      apply (foldM_req2 _ _ (agree n O E (f_type f))); auto;
      intros s s' a' b' Hss Hab'; apply parse_field_erase; auto using is_plain_not_attr. }
  intros fs2 fs2' H2. apply bind_req.
  { apply foldM_req; auto. intros f a b Hf Hab. apply filter_In in Hf as [Hf Gf].
    apply parse_field_erase; auto using is_group_not_attr. }
  intros fs3 fs3' H3. cbn. f_equal. f_equal. exact H3.
Qed.

Lemma agree_no_class n O E c x x' : e_cls E c = None -> el_get x xsi_nil = el_get x' xsi_nil ->
  agree n O E (TComplex c) x x'.
Proof.
  intros H Hn. split; auto. cbn. destruct n; [reflexivity|]. rewrite !parse_obj_S. unfold get_class.
  now rewrite H.
Qed.

Lemma ordinary_group E c d f ct : ordinary E c -> e_cls E c = Some d -> In f (cd_fields d) ->
  is_group f = true -> f_type f = TComplex ct -> ordinary E ct.
Proof. intros H Hd Hf G T c' d' L Hc'. apply (H c' d'); auto. eapply lv_group; eauto. Qed.

Lemma agree_level n O E : forall c x x', ordinary E c -> el_get x xsi_nil = el_get x' xsi_nil ->
  (forall name, reads_attr E c name -> el_get x name = el_get x' name) ->
  (forall f m, reads E c f -> (m < n)%nat -> subs_agree m O E f x x') ->
  agree n O E (TComplex c) x x'.
Proof.
  induction n as [|n IH]; intros c x x' Ord Hn Ha Hs.
  - split; auto.
  - destruct (e_cls E c) as [d|] eqn:Hd; [|now apply agree_no_class].
    destruct (Ord c d (lv_self E c) Hd) as [Hi Hr].
    apply agree_step with (d := d); auto.
    + intros f Hf Af. apply Ha. exists c, d, f. repeat split; auto. constructor.
    + intros f Hf Pf. apply Hs; auto. exists c, d. repeat split; auto. constructor.
    + intros f Hf Gf. destruct (Hr f Hf Gf) as [ct Ft]. rewrite Ft. apply IH; auto.
      * eapply ordinary_group; eauto.
      * intros name (c' & d' & g & L & R). apply Ha. exists c', d', g. split; auto.
        eapply lv_group; eauto.
      * intros g m (c' & d' & L & R) Hm. apply Hs; [|lia]. exists c', d'. split; auto.
        eapply lv_group; eauto.
Qed.

(** ** Selecting children *)
Lemma matches_belongs f x : matches f x = if is_pi x then Err TypeError else Ok (belongs f x).
Proof. destruct x; reflexivity. Qed.
Lemma belongs_names f x : belongs f x = true <-> names_field x f.
Proof.
  unfold names_field. destruct x; cbn; try (split; [discriminate|intros (? & ? & ? & [=] & _)]).
  rewrite orb_true_iff, String.eqb_eq. split.
  - intros H. exists tag, attrs, kids. split; auto. destruct H as [|H]; auto.
    destruct (f_tag f); [|discriminate]. apply String.eqb_eq in H. right. now rewrite H.
  - intros (t & a & k & [= <- <- <-] & H). destruct H as [|H]; auto. right. rewrite H.
    apply String.eqb_refl.
Qed.
Lemma find_sub_spec f kids : find_sub f kids =
  if existsb is_pi kids then Err TypeError else Ok (filter (belongs f) kids).
Proof.
  induction kids as [|x kids IH]; cbn; auto. rewrite matches_belongs, IH.
  destruct (is_pi x); cbn; auto. destruct (existsb is_pi kids); auto.
Qed.
Lemma pi_children x : existsb is_pi (el_children x) = existsb is_pi (el_kids x).
Proof.
  unfold el_children. induction (el_kids x) as [|y l IH]; cbn; auto.
  destruct y; cbn; auto.
Qed.
Lemma belongs_children f x : filter (belongs f) (el_children x) = filter (belongs f) (el_kids x).
Proof.
  unfold el_children. induction (el_kids x) as [|y l IH]; cbn; auto.
  destruct y; cbn; auto.
  match goal with |- (if ?b then _ else _) = _ => destruct b end; [f_equal|]; exact IH.
Qed.
Lemma find_sub_kids f x : find_sub f (el_children x) =
  if existsb is_pi (el_kids x) then Err TypeError else Ok (filter (belongs f) (el_kids x)).
Proof. now rewrite find_sub_spec, pi_children, belongs_children. Qed.

Lemma agree_refl n O E ft x : agree n O E ft x x.
Proof. split; auto. Qed.
Lemma agree_sym n O E ft x y : agree n O E ft x y -> agree n O E ft y x.
Proof. intros [A B]. split; auto. Qed.
Lemma agree_trans n O E ft x y z : agree n O E ft x y -> agree n O E ft y z -> agree n O E ft x z.
Proof. intros [A B] [C D]. split; congruence. Qed.
Lemma Forall2_refl {A} (R : A -> A -> Prop) l : (forall x, R x x) -> Forall2 R l l.
Proof. induction l; constructor; auto. Qed.

Lemma subs_agree_intro n O E f x x' :
  existsb is_pi (el_kids x) = existsb is_pi (el_kids x') ->
  Forall2 (agree n O E (f_type f)) (filter (belongs f) (el_kids x)) (filter (belongs f) (el_kids x')) ->
  subs_agree n O E f x x'.
Proof.
  intros H F. unfold subs_agree. rewrite !find_sub_kids, H.
  destruct (existsb is_pi (el_kids x')); [reflexivity|exact F].
Qed.

(** ** C22 *)
Lemma assoc_app {A} k (a b : list (string * A)) :
  assoc k (a ++ b) = match assoc k a with Some v => Some v | None => assoc k b end.
Proof. induction a as [|[k' v] a IH]; cbn; auto. destruct String.eqb; auto. Qed.

Lemma noise_head E c x x' : noise E c x x' ->
  (exists t a k t' a' k', x = Elem t a k /\ x' = Elem t' a' k' /\ t = t') /\
  el_get x xsi_nil = el_get x' xsi_nil.
Proof.
  induction 1; try (split; [now repeat eexists|reflexivity]).
  - split; [now repeat eexists|]. unfold el_get. cbn [el_attrs]. rewrite !assoc_app. destruct assoc; auto. cbn [assoc].
    destruct (String.eqb_spec xsi_nil name); congruence.
  - destruct IHnoise as [(t & a & k & t' & a' & k' & -> & -> & ->) N]. split; auto. now repeat eexists.
  - destruct IHnoise1 as [(t & a & k & t' & a' & k' & -> & -> & ->) N].
    destruct IHnoise2 as [(t1 & a1 & k1 & t1' & a1' & k1' & Eq & -> & ->) N1].
    injection Eq as -> -> ->. split; [now repeat eexists|congruence].
Qed.

Lemma noise_belongs E c x x' f : noise E c x x' -> belongs f x = belongs f x'.
Proof.
  intros H. apply noise_head in H as [(t & a & k & t' & a' & k' & -> & -> & ->) _]. reflexivity.
Qed.
Lemma noise_pi E c x x' : noise E c x x' -> is_pi x = false /\ is_pi x' = false.
Proof. intros H. now apply noise_head in H as [(t & a & k & t' & a' & k' & -> & -> & ->) _]. Qed.

Lemma noise_agree O E c x x' : noise E c x x' -> forall n, agree n O E (TComplex c) x x'.
Proof.
  induction 1 as [c t a k1 k2 s Ord|c t a k1 k2 s Ord|c t a k1 k2 t' a' k' Ord Hno|
                  c t a1 a2 k name value Ord Hno Hne|c t a k1 k2 s s' cls Ord Hc Hz IH [f0 [Hf0 Hn0]]|
                  c x x' H IH|c x y z H1 IH1 H2 IH2]; intros n.
  - apply agree_level; auto. intros f m _ _. apply subs_agree_intro; cbn [el_kids].
    + rewrite !existsb_app. reflexivity.
    + rewrite !filter_app. cbn. apply Forall2_refl, agree_refl.
  - apply agree_level; auto. intros f m _ _. apply subs_agree_intro; cbn [el_kids].
    + rewrite !existsb_app. reflexivity.
    + rewrite !filter_app. cbn. apply Forall2_refl, agree_refl.
  - apply agree_level; auto. intros f m Hr _. apply subs_agree_intro; cbn [el_kids].
    + rewrite !existsb_app. reflexivity.
    + rewrite !filter_app. cbn [filter].
      destruct (belongs f (Elem t' a' k')) eqn:B; [|apply Forall2_refl, agree_refl].
      apply belongs_names in B. now destruct (Hno f Hr).
  - apply agree_level; auto.
    + unfold el_get. cbn [el_attrs]. rewrite !assoc_app. destruct assoc; auto. cbn [assoc].
      destruct (String.eqb_spec xsi_nil name); congruence.
    + intros nm Hr. unfold el_get. cbn [el_attrs]. rewrite !assoc_app. destruct assoc; auto. cbn [assoc].
      destruct (String.eqb_spec nm name); [subst; contradiction|auto].
    + intros f m _ _. apply subs_agree_intro; cbn [el_kids]; auto. apply Forall2_refl, agree_refl.
  - assert (N0 : noise E (cls f0) s s') by (apply Hz; auto).
    destruct (noise_pi _ _ _ _ N0) as [P1 P2].
    apply agree_level; auto. intros f m Hr _. apply subs_agree_intro; cbn [el_kids].
    + rewrite !existsb_app. cbn. now rewrite P1, P2.
    + rewrite !filter_app. cbn [filter]. rewrite <- (noise_belongs _ _ _ _ f N0).
      apply Forall2_app; [apply Forall2_refl, agree_refl|].
      destruct (belongs f s) eqn:B; [|apply Forall2_refl, agree_refl].
      constructor; [|apply Forall2_refl, agree_refl].
      apply belongs_names in B. rewrite (Hc f Hr B). apply IH; auto.
  - apply agree_sym, IH.
  - eapply agree_trans; eauto.
Qed.

Lemma parse_ignores_noise n O E c x x' : noise E c x x' ->
  res_map erase (parse_obj n O E c x) = res_map erase (parse_obj n O E c x').
Proof. intros H. destruct (noise_agree O E c x x' H n) as [_ A]. exact A. Qed.

(** ** C23 *)
Lemma Permutation_existsb {A} (p : A -> bool) l l' : Permutation l l' -> existsb p l = existsb p l'.
Proof.
  induction 1; cbn; auto; try congruence. destruct (p x), (p y); reflexivity.
Qed.
Lemma parse_reorder n O E c t a k k' : ordinary E c -> Permutation k k' ->
  (forall f, reads E c f -> filter (belongs f) k = filter (belongs f) k') ->
  res_map erase (parse_obj n O E c (Elem t a k)) = res_map erase (parse_obj n O E c (Elem t a k')).
Proof.
  intros Ord P H. apply (agree_level n O E c (Elem t a k) (Elem t a k')); auto.
  intros f m Hr _. apply subs_agree_intro; cbn [el_kids].
  - now apply Permutation_existsb.
  - rewrite (H f Hr). apply Forall2_refl, agree_refl.
Qed.
