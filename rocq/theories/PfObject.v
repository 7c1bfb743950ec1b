(** Proofs about instances: assignment, construction, appending (C19, C20, C32). *)
From Coq Require Import String Ascii List ZArith NArith Bool Lia ZifyBool.
From Verif Require Import PyBase Xml PyVal XsdSimple XsdComplex SpecObject PfBase.
Import ListNotations.
Open Scope Z_scope.

Lemma find_field_ok F name f : find_field F name = Ok f -> In f F /\ f_name f = name.
Proof.
  unfold find_field. destruct find eqn:X; intros [= <-]. apply find_some in X as [H1 H2].
  apply String.eqb_eq in H2. auto.
Qed.
Lemma find_field_err F name e : find_field F name = Err e ->
  e = ValueError /\ ~ In name (map f_name F).
Proof.
  unfold find_field. destruct find eqn:X; intros [= <-]. split; auto.
  intros H. apply in_map_iff in H as (f & <- & Hf).
  pose proof (find_none _ _ X f Hf) as Y. cbn in Y. now rewrite String.eqb_refl in Y.
Qed.
Lemma find_field_in F f : NoDup (map f_name F) -> In f F -> find_field F (f_name f) = Ok f.
Proof.
  induction F as [|g F IH]; [easy|]. cbn. intros N [<-|H].
  - unfold find_field. cbn. now rewrite String.eqb_refl.
  - inversion N as [|? ? N1 N2]; subst. unfold find_field in *. cbn.
    destruct (String.eqb_spec (f_name g) (f_name f)) as [Eq|]; [|now apply IH].
    destruct N1. rewrite Eq. now apply in_map.
Qed.
Lemma find_field_unknown F name : ~ In name (map f_name F) -> find_field F name = Err ValueError.
Proof.
  intros H. destruct (find_field F name) eqn:X.
  - apply find_field_ok in X as [A <-]. destruct H. now apply in_map.
  - now apply find_field_err in X as [-> _].
Qed.

Lemma field_accept_holds O E f v v' : is_list f = false ->
  field_accept O E f v = Ok v' -> may_hold O E f v'.
Proof.
  unfold is_list, field_accept, may_hold, accepted_by. intros L H.
  assert (H' : match v with
         | VNil => if f_nillable f then Ok VNil else Err ValueError
         | _ => type_accept O E (f_type f) v
         end = Ok v') by (destruct (f_kind f); try exact H; discriminate).
  destruct v; try (right; eexists; exact H').
  destruct (f_nillable f); inversion H'; auto.
Qed.

Lemma setattr_ok O E F fs name v fs' : setattr O E F fs name v = Ok fs' <->
  exists f v', find_field F name = Ok f /\ field_accept O E f v = Ok v' /\
    fs' = assoc_set name v' fs.
Proof.
  unfold setattr. split.
  - intros H. apply bind_ok in H as (f & H1 & H). apply bind_ok in H as (v' & H2 & [= <-]). eauto.
  - intros (f & v' & -> & H & ->). cbn. rewrite H. reflexivity.
Qed.

Lemma setattr_unknown O E F fs name v : ~ In name (map f_name F) ->
  setattr O E F fs name v = Err ValueError.
Proof. intros H. unfold setattr. now rewrite find_field_unknown. Qed.

Lemma assoc_set_new_keys {A} k (v : A) l : ~ In k (map fst l) ->
  map fst (assoc_set k v l) = map fst l ++ [k].
Proof.
  induction l as [|[k' v'] l IH]; cbn; auto. intros H.
  destruct (String.eqb_spec k k') as [->|]; [destruct H; auto|]. cbn. rewrite IH; auto.
Qed.

(** The attribute dictionary of an instance of [F] is well-formed. *)
Definition dict_ok (O : oracle) (E : env) (F : list field) (fs : list (string * pyval)) : Prop :=
  map fst fs = map f_name F /\
  forall f, In f F -> is_list f = false -> exists v, assoc (f_name f) fs = Some v /\ may_hold O E f v.

(** ** Construction *)

(** One step of [__new__]. *)
Definition empty_value (n : nat) (O : oracle) (E : env) (f : field) : res pyval :=
  inst <- (match f_kind f, f_type f with
           | KList, _ => Ok None
           | _, TComplex ct => res_map Some (new_inst n O E ct)
           | _, TSimple _ => Ok None
           end) ;;
  Ok (match f_kind f with
      | KList => VList true []
      | KRef => match f_type f, inst with
                | TComplex ct, Some fs' => VObj ct None fs'
                | _, _ => VOther "SimpleType"
                end
      | KContent => VNone
      | _ => f_default f
      end).
Lemma new_inst_S n O E c : new_inst (S n) O E c =
  (d <- get_class E c ;;
   foldM (fun fs f => ev <- empty_value n O E f ;; setattr O E (cd_fields d) fs (f_name f) ev)
     [] (cd_fields d)).
Proof.
  cbn [new_inst]. destruct (get_class E c); [cbn [bind]|reflexivity].
  apply foldM_ext. intros fs f. unfold empty_value.
  destruct (f_kind f), (f_type f); cbn; try reflexivity; destruct new_inst; reflexivity.
Qed.
Lemma new_inst_0 O E c : new_inst 0 O E c = Err RecursionError.
Proof. reflexivity. Qed.

Lemma get_class_ok E c d : get_class E c = Ok d <-> e_cls E c = Some d.
Proof. unfold get_class. destruct (e_cls E c); split; intros [= ->]; auto. Qed.

(** After the loop over a prefix of the fields. *)
Lemma new_inst_fold n O E F : NoDup (map f_name F) -> forall todo pre fs fs',
  F = pre ++ todo ->
  map fst fs = map f_name pre ->
  (forall f, In f pre -> exists ev v, empty_value n O E f = Ok ev /\ field_accept O E f ev = Ok v /\
     assoc (f_name f) fs = Some v) ->
  foldM (fun fs f => ev <- empty_value n O E f ;; setattr O E F fs (f_name f) ev) fs todo = Ok fs' ->
  map fst fs' = map f_name F /\
  (forall f, In f F -> exists ev v, empty_value n O E f = Ok ev /\ field_accept O E f ev = Ok v /\
     assoc (f_name f) fs' = Some v).
Proof.
  intros ND. induction todo as [|f todo IH]; intros pre fs fs' HF K V H.
  - injection H as <-. rewrite app_nil_r in HF. subst. auto.
  - cbn [foldM] in H. apply bind_ok in H as (fs1 & H1 & H).
    apply bind_ok in H1 as (ev & He & H1). apply setattr_ok in H1 as (g & v' & Hg & Ha & ->).
    assert (Hin : In f F) by (rewrite HF; apply in_or_app; right; now left).
    rewrite (find_field_in F f ND Hin) in Hg. injection Hg as <-.
    assert (Hnew : ~ In (f_name f) (map f_name pre)).
    { intros C. rewrite HF, map_app in ND. cbn in ND. apply NoDup_remove_2 in ND. apply ND.
      apply in_or_app. now left. }
    apply (IH (pre ++ [f])) with (fs' := fs') in H; auto.
    + rewrite <- app_assoc. exact HF.
    + rewrite assoc_set_new_keys by (rewrite K; auto). rewrite K, map_app. reflexivity.
    + intros g Hg. apply in_app_or in Hg as [Hg|[<-|[]]].
      * destruct (V g Hg) as (ev' & v & E1 & E2 & E3). exists ev', v. repeat split; auto.
        rewrite assoc_set_other; auto. intros C. apply Hnew. rewrite <- C. now apply in_map.
      * exists ev, v'. repeat split; auto. apply assoc_set_same.
Qed.

Lemma new_inst_vals n O E c d fs : e_cls E c = Some d -> NoDup (map f_name (cd_fields d)) ->
  new_inst (S n) O E c = Ok fs ->
  map fst fs = map f_name (cd_fields d) /\
  (forall f, In f (cd_fields d) -> exists ev v, empty_value n O E f = Ok ev /\
     field_accept O E f ev = Ok v /\ assoc (f_name f) fs = Some v).
Proof.
  intros Hc ND H. rewrite new_inst_S in H. apply bind_ok in H as (d' & Hd & H).
  apply get_class_ok in Hd. rewrite Hc in Hd. injection Hd as <-.
  eapply (new_inst_fold n O E (cd_fields d) ND (cd_fields d) [] [] fs); auto. easy.
Qed.

Lemma new_instance_ok O E c d fs : e_cls E c = Some d -> NoDup (map f_name (cd_fields d)) ->
  new_instance O E c = Ok fs ->
  dict_ok O E (cd_fields d) fs /\
  (forall f, In f (cd_fields d) -> is_list f = true -> assoc (f_name f) fs = Some (VList true [])).
Proof.
  unfold new_instance. intros Hc ND H. destruct (e_limit E) as [|n]; [discriminate|].
  destruct (new_inst_vals _ _ _ _ _ _ Hc ND H) as [K V]. repeat split; auto.
  - intros f Hf L. destruct (V f Hf) as (ev & v & _ & A & B). exists v. split; auto.
    eapply field_accept_holds; eauto.
  - intros f Hf L. destruct (V f Hf) as (ev & v & A & B & C).
    unfold is_list in L. unfold empty_value in A. unfold field_accept in B.
    destruct (f_kind f); try discriminate. cbn in A. injection A as <-. injection B as <-. exact C.
Qed.

(** ** Assignment *)
Lemma setattr_dict_ok O E F fs name v fs' : NoDup (map f_name F) ->
  dict_ok O E F fs -> setattr O E F fs name v = Ok fs' -> dict_ok O E F fs'.
Proof.
  intros ND [K V] H. apply setattr_ok in H as (f & v' & Hf & Ha & ->).
  apply find_field_ok in Hf as [Hin Hn]. split.
  - rewrite assoc_set_keys; auto. rewrite K, <- Hn. now apply in_map.
  - intros g Hg L. destruct (String.eqb_spec (f_name g) name) as [Eq|Ne].
    + rewrite Eq, assoc_set_same. exists v'. split; auto.
      assert (g = f).
      { pose proof (find_field_in F g ND Hg) as A. pose proof (find_field_in F f ND Hin) as B.
        rewrite Eq, <- Hn, B in A. congruence. }
      subst g. eapply field_accept_holds; eauto.
    + rewrite assoc_set_other; auto.
Qed.

Lemma assign_all_ok O E F ops : NoDup (map f_name F) -> forall fs,
  dict_ok O E F fs -> dict_ok O E F (assign_all O E F fs ops).
Proof.
  intros ND. induction ops as [|[n v] ops IH]; intros fs H; auto. cbn. apply IH.
  destruct setattr eqn:X; auto. eapply setattr_dict_ok; eauto.
Qed.

Lemma assignments_valid O E c d fs0 ops fs : e_cls E c = Some d ->
  NoDup (map f_name (cd_fields d)) -> new_instance O E c = Ok fs0 ->
  fs = assign_all O E (cd_fields d) fs0 ops ->
  (forall name, assoc name fs <> None <-> In name (map f_name (cd_fields d))) /\
  (forall f, In f (cd_fields d) -> is_list f = false ->
     exists v, getattr fs (f_name f) = Ok v /\ may_hold O E f v).
Proof.
  intros Hc ND H ->. destruct (new_instance_ok _ _ _ _ _ Hc ND H) as [D _].
  apply (assign_all_ok O E (cd_fields d) ops ND) in D. destruct D as [K V]. split.
  - intros name. rewrite <- K. pose proof (assoc_none name (assign_all O E (cd_fields d) fs0 ops)) as N.
    destruct assoc eqn:X.
    + split; intros _; [|discriminate]. apply assoc_in in X.
      apply in_map_iff. exists (name, p). auto.
    + split; [congruence|]. intros Hin. apply N in Hin; easy.
  - intros f Hf L. destruct (V f Hf L) as (v & A & B). exists v. unfold getattr. rewrite A. auto.
Qed.

Lemma assign_effect O E F fs name v :
  (forall fs', setattr O E F fs name v = Ok fs' ->
     (exists f v', In f F /\ f_name f = name /\ field_accept O E f v = Ok v' /\ getattr fs' name = Ok v') /\
     forall other, other <> name -> getattr fs' other = getattr fs other) /\
  (~ In name (map f_name F) -> setattr O E F fs name v = Err ValueError).
Proof.
  split; [|apply setattr_unknown]. intros fs' H.
  apply setattr_ok in H as (f & v' & Hf & Ha & ->). apply find_field_ok in Hf as [Hin Hn]. split.
  - exists f, v'. repeat split; auto. unfold getattr. now rewrite assoc_set_same.
  - intros o Ho. unfold getattr. now rewrite assoc_set_other.
Qed.

(** ** Lists *)
Lemma tl_append_ok O E f l v l' : tl_append O E f l v = Ok l' ->
  exists a, l' = l ++ [a] /\ may_hold O E f a /\ max_allows (f_max f) (Z.of_nat (length l')).
Proof.
  unfold tl_append. intros H. apply bind_ok in H as (a & Ha & H).
  destruct exceeds eqn:X; [discriminate|]. injection H as <-. exists a. repeat split.
  - unfold may_hold, accepted_by. destruct v; try (right; eexists; exact Ha).
    destruct (f_nillable f); inversion Ha; auto.
  - unfold max_allows, exceeds in *. rewrite app_length. cbn. destruct (f_max f); auto. lia.
Qed.
Lemma append_all_ok O E f vs : forall l,
  Forall (may_hold O E f) l -> max_allows (f_max f) (Z.of_nat (length l)) ->
  Forall (may_hold O E f) (append_all O E f l vs) /\
  max_allows (f_max f) (Z.of_nat (length (append_all O E f l vs))).
Proof.
  induction vs as [|v vs IH]; intros l A B; auto. cbn.
  destruct tl_append eqn:X; [|now apply IH].
  apply tl_append_ok in X as (x & -> & C & D). apply IH; auto.
  apply Forall_app. auto.
Qed.
Lemma appends_valid O E f vs : match f_max f with OInt z => 0 <= z | _ => True end ->
  Forall (may_hold O E f) (append_all O E f [] vs) /\
  max_allows (f_max f) (Z.of_nat (length (append_all O E f [] vs))).
Proof. intros H. apply append_all_ok; [constructor|]. exact H. Qed.

Lemma append_effect O E f l v :
  (forall l', tl_append O E f l v = Ok l' -> exists a, l' = l ++ [a] /\ may_hold O E f a) /\
  (f_max f = OInt (Z.of_nat (length l)) -> forall l', tl_append O E f l v <> Ok l').
Proof.
  split.
  - intros l' H. apply tl_append_ok in H as (a & -> & A & _). eauto.
  - intros Hm l' H. apply tl_append_ok in H as (a & -> & _ & B). rewrite Hm in B.
    cbn in B. rewrite app_length in B. cbn in B. lia.
Qed.

(** Rendering a list field. *)
Lemma render_list_bounds O E rec f parent v ns efd p' : f_kind f = KList ->
  render_field O E rec f parent v ns efd = Ok p' ->
  exists t items, v = VList t items /\
    (forall m, f_min f = Some m -> m <> 0 -> m <= Z.of_nat (length items)) /\
    (forall m, f_max f = OInt m -> m <> 0 -> Z.of_nat (length items) <= m).
Proof.
  intros K H. unfold render_field in H. rewrite K in H. unfold render_list in H.
  destruct v; try discriminate. exists typed, l. split; auto.
  set (len := Z.of_nat (length l)) in *.
  destruct (match f_min f with Some m => negb (m =? 0) && (len <? m) | None => false end) eqn:A;
    [discriminate|].
  destruct (match f_max f with OInt m => negb (m =? 0) && (m <? len) | _ => false end) eqn:B;
    [discriminate|].
  split; intros m Hm N; rewrite Hm in *; lia.
Qed.
Lemma render_list_out_of_bounds O E rec f parent t items ns efd : f_kind f = KList ->
  (exists m, f_min f = Some m /\ m <> 0 /\ Z.of_nat (length items) < m) \/
  (exists m, f_max f = OInt m /\ m <> 0 /\ m < Z.of_nat (length items)) ->
  render_field O E rec f parent (VList t items) ns efd = Err ValueError.
Proof.
  intros K H. unfold render_field. rewrite K. unfold render_list.
  set (len := Z.of_nat (length items)) in *.
  destruct (match f_min f with Some m => negb (m =? 0) && (len <? m) | None => false end) eqn:A;
    [reflexivity|].
  destruct (match f_max f with OInt m => negb (m =? 0) && (m <? len) | _ => false end) eqn:B;
    [reflexivity|].
  destruct H as [(m & Hm & N & L)|(m & Hm & N & L)]; rewrite Hm in *; lia.
Qed.

(** Whole objects: a list field out of bounds makes rendering fail. *)
Lemma foldM_ok_each {A B} (f : A -> B -> res A) l : forall a a',
  foldM f a l = Ok a' -> forall x, In x l -> exists b b', f b x = Ok b'.
Proof.
  induction l as [|y l IH]; intros a a' H x Hx; [easy|]. cbn in H.
  apply bind_ok in H as (a1 & H1 & H). destruct Hx as [<-|Hx]; eauto.
Qed.
Lemma render_obj_S n O E c parent v ns efd : render_obj (S n) O E c parent v ns efd =
  (d <- get_class E c ;;
   ns0 <- (match cd_kind d with
           | CKHeader =>
               p <- obj_parts v ;; di <- get_class E (fst p) ;;
               match cd_schema di with Some si => Ok (si_tns si) | None => Err AttributeError end
           | _ => Ok ns end) ;;
   match v with
   | VNone => Ok parent
   | _ => p <- obj_parts v ;;
          di <- get_class E (fst p) ;;
          foldM (fun par f =>
                   fv <- getattr (snd p) (f_name f) ;;
                   render_field O E (render_obj n O E) f par fv
                     (match cd_schema d with Some si => si_tns si | None => ns0 end) efd)
                parent (cd_fields di)
   end).
Proof. reflexivity. Qed.

Lemma render_obj_ok n O E c parent ci xe fs ns efd p' :
  render_obj n O E c parent (VObj ci xe fs) ns efd = Ok p' ->
  exists n' d di ns1, n = S n' /\ e_cls E c = Some d /\ e_cls E ci = Some di /\
    match cd_schema d with
    | Some si => ns1 = si_tns si
    | None => match cd_kind d with
              | CKHeader => exists si, cd_schema di = Some si /\ ns1 = si_tns si
              | _ => ns1 = ns end
    end /\
    foldM (fun par f => fv <- getattr fs (f_name f) ;;
             render_field O E (render_obj n' O E) f par fv ns1 efd) parent (cd_fields di) = Ok p'.
Proof.
  destruct n as [|n]; [discriminate|]. rewrite render_obj_S. intros H.
  apply bind_ok in H as (d & Hd & H). apply bind_ok in H as (ns0 & Hn & H).
  apply get_class_ok in Hd. cbn [obj_parts bind fst snd] in *.
  apply bind_ok in H as (di & Hdi & H). apply get_class_ok in Hdi.
  exists n, d, di, (match cd_schema d with Some si => si_tns si | None => ns0 end).
  repeat (split; [auto; fail|]). split; [|exact H].
  destruct (cd_schema d); auto. destruct (cd_kind d); try congruence.
  apply bind_ok in Hn as (di' & Hdi' & Hn). apply get_class_ok in Hdi'.
  rewrite Hdi in Hdi'. injection Hdi' as <-.
  destruct (cd_schema di); inversion Hn; eauto.
Qed.

Lemma render_checks_lists n O E c parent ci xe fs ns efd p' di f :
  render_obj n O E c parent (VObj ci xe fs) ns efd = Ok p' ->
  e_cls E ci = Some di -> In f (cd_fields di) -> f_kind f = KList ->
  exists t items, getattr fs (f_name f) = Ok (VList t items) /\
    (forall m, f_min f = Some m -> m <> 0 -> m <= Z.of_nat (length items)) /\
    (forall m, f_max f = OInt m -> m <> 0 -> Z.of_nat (length items) <= m).
Proof.
  intros H Hdi Hin K. apply render_obj_ok in H as (n' & d & di' & ns1 & -> & _ & Hdi' & _ & H).
  rewrite Hdi in Hdi'. injection Hdi' as <-.
  destruct (foldM_ok_each _ _ _ _ H f Hin) as (b & b' & Hb).
  apply bind_ok in Hb as (fv & Hg & Hb).
  destruct (render_list_bounds _ _ _ _ _ _ _ _ _ K Hb) as (t & items & -> & A & B). eauto 6.
Qed.

(** maxOccurs=0: append refuses everything, rendering accepts anything. *)
Lemma max_zero_append O E f v l' : f_max f = OInt 0 -> tl_append O E f [] v <> Ok l'.
Proof. intros H. apply (append_effect O E f []). exact H. Qed.
Definition zero_list : field :=
  {| f_name := "xs"; f_kind := KList; f_type := TSimple SBoolean; f_tag := Some "x"%string;
     f_min := None; f_max := OInt 0; f_nillable := false; f_default := VNone; f_ns := None |}.
Lemma max_zero_render O E rec parent items t :
  Forall (fun v => exists b, v = VBool b) items ->
  exists p', render_field O E rec zero_list parent (VList t items) None None = Ok p'.
Proof.
  intros H. cbn. revert parent. induction H as [|v items [b ->] H IH]; intros p; [now eexists|].
  cbn [foldM]. destruct b; cbn; apply IH.
Qed.

(** ** Instances of subclasses *)
Lemma is_instance_spec E v c : is_instance E v c = true <->
  exists ci xe fs, v = VObj ci xe fs /\ subclass E ci c.
Proof.
  unfold is_instance, subclass. destruct v; try (split; [discriminate|intros (? & ? & ? & [=] & _)]).
  destruct (e_cls E cls) eqn:X.
  - rewrite str_in_spec. split.
    + intros H. exists cls, xe, fs. split; auto. exists c0. auto.
    + intros (? & ? & ? & [= <- <- <-] & d & Hd & Hin). congruence.
  - split; [discriminate|]. intros (? & ? & ? & [= <- <- <-] & d & Hd & Hin). congruence.
Qed.
Lemma complex_accept_spec O E f c d v w : f_kind f <> KList -> f_type f = TComplex c ->
  e_cls E c = Some d -> cd_kind d <> CKHeader -> v <> VNil ->
  field_accept O E f v = Ok w <->
  w = v /\ (v = VNone \/ exists ci xe fs, v = VObj ci xe fs /\ subclass E ci c).
Proof.
  intros K T Hd NH NN.
  assert (Eq : field_accept O E f v = complex_accept E c v).
  { unfold field_accept, type_accept. rewrite T. destruct (f_kind f), v; congruence. }
  rewrite Eq. unfold complex_accept, get_class. rewrite Hd. cbn [bind].
  assert (Eq2 : match cd_kind d with
    | CKHeader => Ok v
    | _ => match v with VNone => Ok VNone | _ => if is_instance E v c then Ok v else Err ValueError end
    end = if (match v with VNone => true | _ => is_instance E v c end) then Ok v else Err ValueError).
  { destruct (cd_kind d), v; congruence. }
  rewrite Eq2. split.
  - destruct v; try discriminate; try (now intros [= <-]; auto).
    destruct is_instance eqn:X; intros [= <-]. apply is_instance_spec in X. auto.
  - intros (-> & [-> | H]); auto. destruct H as (ci & xe & fs & -> & S).
    assert (X : is_instance E (VObj ci xe fs) c = true) by (apply is_instance_spec; eauto).
    now rewrite X.
Qed.
Lemma complex_accept_err O E f c d v e : f_kind f <> KList -> f_type f = TComplex c ->
  e_cls E c = Some d -> cd_kind d <> CKHeader ->
  field_accept O E f v = Err e -> e = ValueError.
Proof.
  intros K T Hd NH. unfold field_accept, type_accept, complex_accept, get_class. rewrite T, Hd. cbn [bind].
  destruct (f_kind f); try congruence; destruct v; try (destruct (f_nillable f); congruence);
  destruct (cd_kind d); try congruence; destruct is_instance; congruence.
Qed.
