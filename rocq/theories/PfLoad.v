(** Lemmas about loading a generated module: what a class statement does. *)
From Coq Require Import String Ascii List ZArith NArith Bool Lia Permutation Sorted.
From Verif Require Import PyBase PyVal XsdSimple XsdComplex PySort XsdMeta SpecMeta Xsd2Py PyLoad PfBase PfMeta PfMeta2.
Import ListNotations.
Open Scope nat_scope.
Open Scope string_scope.
Open Scope list_scope.

(** ** Worlds in which every Element object keeps its name *)
Definition tidy (w : world) : Prop :=
  Inv w /\ forall c n d, has_field w c n d -> f_name (desc (w_store w) d) = n.

Lemma set_name_id store : forall d n, f_name (desc store d) = n -> set_name store d n = store.
Proof.
  induction store as [|f t IH]; intros [|d] n H; cbn in *; try reflexivity.
  - destruct f. cbn in H. now subst.
  - f_equal. now apply IH.
Qed.
Lemma named_id cs mro names store :
  (forall n d, mro_get cs mro n = Some (ADesc d) -> f_name (desc store d) = n) -> named cs mro store names = store.
Proof.
  intros H. unfold named. induction names as [|n t IH]; cbn [fold_left]; [reflexivity|].
  destruct (mro_get cs mro n) as [[d|]|] eqn:E; auto. rewrite set_name_id by now apply H. exact IH.
Qed.

Lemma sorted_ext l : forall l', StronglySorted lt l -> StronglySorted lt l' -> (forall d, In d l <-> In d l') -> l = l'.
Proof.
  assert (Nd : forall l, StronglySorted lt l -> NoDup l).
  { induction 1 as [|x l0 S IH F]; constructor; auto. intros I. rewrite Forall_forall in F. specialize (F x I). lia. }
  assert (Or : forall l, StronglySorted lt l -> ordered (fun d => d) l).
  { induction 1 as [|x l0 S IH F]; constructor; auto. eapply Forall_impl; [|exact F]. cbn. lia. }
  intros l' S S' H. apply ordered_unique; auto. apply NoDup_Permutation; auto.
Qed.
Lemma sorted_app (a b : list nat) n : StronglySorted lt a -> StronglySorted lt b -> Forall (fun x => x < n) a -> Forall (fun x => n <= x) b ->
  StronglySorted lt (a ++ b).
Proof.
  intros A B Fa Fb. induction A as [|x a S IH F]; cbn; [exact B|]. inversion_clear Fa as [|? ? Hx Fa'].
  constructor; [now apply IH|]. apply Forall_app. split; [exact F|]. eapply Forall_impl; [|exact Fb]. cbn. lia.
Qed.
Lemma sorted_filter (p : nat -> bool) l : StronglySorted lt l -> StronglySorted lt (filter p l).
Proof.
  induction 1 as [|x l S IH F]; cbn; [constructor|]. destruct (p x); auto. constructor; auto.
  rewrite Forall_forall in *. intros y Hy. apply filter_In in Hy. now apply F.
Qed.
Lemma sorted_seq n : forall k, StronglySorted lt (seq k n).
Proof.
  induction n as [|n IH]; intros k; cbn; constructor; auto. apply Forall_forall. intros y Hy. apply in_seq in Hy. lia.
Qed.

Lemma exec_news fs : forall w, exec_all w (map NewElement fs) = Ok (mkWorld (w_store w ++ fs) (w_classes w)).
Proof.
  unfold exec_all. induction fs as [|f t IH]; intros [st cl]; cbn [map foldM exec bind w_store w_classes]; [now rewrite app_nil_r|].
  rewrite IH. cbn. now rewrite <- app_assoc.
Qed.
Lemma tidy_news w fs : tidy w -> tidy (mkWorld (w_store w ++ fs) (w_classes w)).
Proof.
  intros [I N]. split.
  - clear N. revert w I. induction fs as [|f t IH]; intros [st cl] I; cbn in *; [now rewrite app_nil_r|].
    replace (st ++ f :: t) with ((st ++ [f]) ++ t) by now rewrite <- app_assoc. apply (IH (mkWorld (st ++ [f]) cl)).
    now apply (inv_new (mkWorld st cl)).
  - intros c n d H. cbn [w_store]. assert (H' : has_field w c n d) by exact H. rewrite desc_app; [now apply (N c)|].
    apply has_field_declared in H' as (b & D). now apply (i_dict w I) in D.
Qed.

Lemma all_sorted w c k : tidy w -> nth_error (w_classes w) c = Some k -> StronglySorted lt (mt_all (k_meta k)).
Proof.
  intros [I N] Hk. apply ordered_strict; [now apply (i_ord w I c)|].
  apply (Permutation_NoDup (Permutation_sym (i_all w I c k Hk))). apply raw_nodup; [apply dir_nodup|].
  intros n1 n2 d H1 H2.
  assert (L : lineage w c = k_mro k) by (unfold lineage; now rewrite Hk).
  transitivity (f_name (desc (w_store w) d)); [symmetry|]; apply (N c), has_field_get; now rewrite L.
Qed.

Definition kept (dict : namespace) (f : field) : bool := match assoc (f_name f) dict with Some _ => false | None => true end.
Definition survives (dict : namespace) (store : list field) (d : nat) : bool :=
  match assoc (f_name (desc store d)) dict with Some (ADesc d') => Nat.eqb d' d | _ => false end.

Lemma def_tidy w fs dict b kb w2 :
  tidy w -> nth_error (w_classes w) b = Some kb ->
  exec (mkWorld (w_store w ++ fs) (w_classes w)) (DefClass dict (k_mro kb)) = Ok w2 ->
  (forall n d, assoc n dict = Some (ADesc d) -> length (w_store w) <= d /\ f_name (desc (w_store w ++ fs) d) = n) ->
  tidy w2 /\ w_store w2 = w_store w ++ fs /\
  (exists k, w_classes w2 = w_classes w ++ [k] /\ k_mro k = length (w_classes w) :: k_mro kb /\ k_dict k = dict) /\
  class_fields w2 (length (w_classes w)) =
    filter (kept dict) (class_fields w b) ++
    map (desc (w_store w ++ fs)) (filter (survives dict (w_store w ++ fs)) (seq (length (w_store w)) (length fs))).
Proof.
  intros Tw Hb X Own. set (w1 := mkWorld (w_store w ++ fs) (w_classes w)) in *.
  assert (T1 : tidy w1) by now apply tidy_news. destruct T1 as [I1 N1].
  assert (I2 : Inv w2) by (eapply inv_def; eauto).
  destruct (exec_def _ _ _ _ X) as (k & EC & Kd & Km & Ha & Hd & Kt & St).
  assert (Lin : lineage w b = k_mro kb) by (unfold lineage; now rewrite Hb).
  assert (L2 : lineage w2 (length (w_classes w)) = k_mro k) by now apply (lineage_new w1 w2 k).
  assert (Get : forall n, mro_get (dicts w2) (k_mro k) n = match assoc n dict with Some v => Some v | None => mro_get (dicts w) (k_mro kb) n end).
  { intros n. rewrite Km. cbn [mro_get]. rewrite (dicts_new w1 w2 k EC).
    unfold dict_of. rewrite app_nth2 by (rewrite dicts_length; apply le_n).
    rewrite dicts_length, Nat.sub_diag. cbn [nth]. rewrite Kd. destruct (assoc n dict); [reflexivity|].
    apply mro_get_app. rewrite dicts_length. exact Ha. }
  assert (Nm : forall n d, mro_get (dicts w2) (k_mro k) n = Some (ADesc d) -> f_name (desc (w_store w ++ fs) d) = n).
  { intros n d. rewrite Get. destruct (assoc n dict) as [v|] eqn:E.
    - intros [= ->]. now apply Own in E.
    - intros G. apply (N1 b). apply has_field_get. cbn. change (lineage w1 b) with (lineage w b). rewrite Lin. exact G. }
  assert (St2 : w_store w2 = w_store w ++ fs) by (rewrite St; now apply named_id).
  assert (T2 : tidy w2).
  { split; [exact I2|]. intros c n d H. rewrite St2. destruct (Nat.eq_dec c (length (w_classes w))) as [->|Hc].
    - apply Nm. apply has_field_get in H. now rewrite L2 in H.
    - apply (N1 c). apply (old_field w1 w2 k I1 EC); [|exact H]. apply has_field_class in H. rewrite EC, app_length in H. cbn in H |- *. lia. }
  split; [exact T2|]. split; [exact St2|]. split; [eauto|].
  assert (Nk : nth_error (w_classes w2) (length (w_classes w)) = Some k) by (rewrite EC; cbn; rewrite nth_error_app2, Nat.sub_diag by auto; reflexivity).
  rewrite (class_fields_of w2 _ k Nk), (class_fields_of w b kb Hb), St2.
  assert (Known : forall d, In d (mt_all (k_meta kb)) -> d < length (w_store w)) by (intros d; apply (all_known w b kb d (proj1 Tw) Hb)).
  replace (filter (kept dict) (map (desc (w_store w)) (mt_all (k_meta kb))))
    with (map (desc (w_store w ++ fs)) (filter (fun d => kept dict (desc (w_store w ++ fs) d)) (mt_all (k_meta kb)))).
  2:{ clear - Known. induction (mt_all (k_meta kb)) as [|d l IH]; [reflexivity|]. cbn [filter map].
      assert (E : desc (w_store w ++ fs) d = desc (w_store w) d) by (apply desc_app, Known; now left). rewrite E.
      rewrite <- IH by (intros; apply Known; now right). destruct (kept dict (desc (w_store w) d)); cbn [map]; [now rewrite E|reflexivity]. }
  rewrite <- map_app. f_equal.
  apply sorted_ext.
  - now apply (all_sorted w2 (length (w_classes w))).
  - apply (sorted_app _ _ (length (w_store w))).
    + apply sorted_filter. now apply (all_sorted w b).
    + apply sorted_filter, sorted_seq.
    + apply Forall_forall. intros d H. apply filter_In in H as [H _]. now apply Known.
    + apply Forall_forall. intros d H. apply filter_In in H as [H _]. apply in_seq in H. lia.
  - intros d. rewrite (all_in w2 _ k d I2 Nk), in_app_iff, !filter_In, in_seq, (all_in w b kb d (proj1 Tw) Hb). split.
    + intros (n & H). apply has_field_get in H. rewrite L2 in H. pose proof (Nm _ _ H) as En. rewrite Get in H.
      destruct (assoc n dict) as [v|] eqn:E.
      * injection H as ->. right. pose proof (Own _ _ E) as [Lo _]. pose proof (Hd _ _ E) as Hi. cbn in Hi. rewrite app_length in Hi.
        split; [lia|]. unfold survives. rewrite En, E. apply Nat.eqb_refl.
      * left. split; [exists n; apply has_field_get; now rewrite Lin|]. unfold kept. now rewrite En, E.
    + intros [[(n & H) K]|[R S]].
      * exists n. apply has_field_get in H as G. rewrite Lin in G. apply has_field_get. rewrite L2, Get.
        assert (En : f_name (desc (w_store w ++ fs) d) = n) by (apply (N1 b); exact H). unfold kept in K. rewrite En in K.
        destruct (assoc n dict); [discriminate|exact G].
      * unfold survives in S. exists (f_name (desc (w_store w ++ fs) d)). apply has_field_get. rewrite L2, Get.
        destruct (assoc _ dict) as [[d'|]|]; try discriminate. apply Nat.eqb_eq in S. now subst.
Qed.

(** ** The dictionary of a class body *)
Lemma assoc_set_get {A} k k' (v : A) l : assoc k (assoc_set k' v l) = if String.eqb k k' then Some v else assoc k l.
Proof.
  destruct (String.eqb k k') eqn:E.
  - apply String.eqb_eq in E as ->. apply assoc_set_same.
  - apply String.eqb_neq in E. now apply assoc_set_other.
Qed.

(** The number of the last field of that name. *)
Fixpoint last_field (n : nat) (fs : list field) (s : string) : option nat :=
  match fs with
  | [] => None
  | f :: t => match last_field (S n) t s with Some d => Some d | None => if String.eqb (f_name f) s then Some n else None end
  end.
Lemma field_dict_get fs : forall n d s, assoc s (field_dict n fs d) = match last_field n fs s with Some k => Some (ADesc k) | None => assoc s d end.
Proof.
  induction fs as [|f t IH]; intros n d s; cbn [field_dict last_field]; [reflexivity|]. rewrite IH.
  destruct (last_field (S n) t s); [reflexivity|]. rewrite assoc_set_get, String.eqb_sym. now destruct (String.eqb (f_name f) s).
Qed.
Lemma last_field_some fs : forall n s d, last_field n fs s = Some d -> exists i f, d = n + i /\ nth_error fs i = Some f /\ f_name f = s.
Proof.
  induction fs as [|f t IH]; intros n s d; cbn [last_field]; [discriminate|]. destruct (last_field (S n) t s) as [d'|] eqn:E.
  - intros [= ->]. apply IH in E as (i & g & -> & G & Hg). exists (S i), g. split; [lia|]. now split.
  - destruct (String.eqb (f_name f) s) eqn:Ef; [|discriminate]. intros [= <-]. exists 0, f. apply String.eqb_eq in Ef. split; [lia|]. now split.
Qed.
Lemma last_field_none fs : forall n s, last_field n fs s = None <-> ~ In s (map f_name fs).
Proof.
  induction fs as [|f t IH]; intros n s; cbn [last_field map In]; [intuition|].
  destruct (last_field (S n) t s) as [d|] eqn:E.
  - split; [discriminate|]. intros H. exfalso. apply H. right. apply last_field_some in E as (i & g & _ & G & <-).
    apply in_map. now apply nth_error_In in G.
  - apply IH in E. destruct (String.eqb (f_name f) s) eqn:Ef.
    + apply String.eqb_eq in Ef. split; [discriminate|tauto].
    + apply String.eqb_neq in Ef. split; [tauto|reflexivity].
Qed.

Definition const_names (g : gclass) : list string := map fst (gc_consts g).
Definition created (g : gclass) : list string := match gc_create g with Some _ => ["create"] | None => [] end.

Lemma consts_get (l : list (string * pyx)) : forall d s, (forall x, assoc s d = Some x -> x = AOther) ->
  assoc s (fold_left (fun d p => assoc_set (fst p) AOther d) l d) =
    if str_in s (map fst l) then Some AOther else assoc s d.
Proof.
  induction l as [|[k v] t IH]; intros d s H; cbn [fold_left map]; [reflexivity|]. rewrite IH.
  2:{ cbn [fst]. intros x. rewrite assoc_set_get. destruct (String.eqb s k); [congruence|apply H]. }
  cbn [fst]. rewrite assoc_set_get. unfold str_in. cbn [existsb]. fold (str_in s (map fst t)).
  destruct (String.eqb s k); cbn; [|reflexivity]. now destruct (str_in s (map fst t)).
Qed.
Lemma class_dict_get n g fs s :
  assoc s (class_dict n g fs) =
    if str_in s (created g) then Some AOther
    else match last_field n fs s with
         | Some k => Some (ADesc k)
         | None => if str_in s (const_names g) then Some AOther else None
         end.
Proof.
  unfold class_dict, created, const_names. destruct (gc_create g) as [ps|].
  - rewrite assoc_set_get. unfold str_in at 1. cbn [existsb]. rewrite orb_false_r. destruct (String.eqb s "create"); [reflexivity|].
    rewrite field_dict_get, consts_get by discriminate. reflexivity.
  - cbn. rewrite field_dict_get, consts_get by discriminate. reflexivity.
Qed.

Lemma desc_mid store fs i f : nth_error fs i = Some f -> desc (store ++ fs) (length store + i) = f.
Proof.
  intros H. unfold desc. rewrite app_nth2 by lia. replace (length store + i - length store) with i by lia. now apply nth_error_nth.
Qed.
Lemma class_dict_own store g fs n d : assoc n (class_dict (length store) g fs) = Some (ADesc d) ->
  length store <= d /\ f_name (desc (store ++ fs) d) = n.
Proof.
  rewrite class_dict_get. destruct (str_in n (created g)); [discriminate|].
  destruct (last_field (length store) fs n) as [k|] eqn:E.
  - intros [= ->]. apply last_field_some in E as (i & f & -> & G & <-). split; [lia|]. now rewrite (desc_mid store fs i f G).
  - destruct (str_in n (const_names g)); discriminate.
Qed.

(** The fields of a body that are still there at its end. *)
Fixpoint surviving (created : list string) (fs : list field) : list field :=
  match fs with
  | [] => []
  | f :: t => if str_in (f_name f) created || str_in (f_name f) (map f_name t) then surviving created t else f :: surviving created t
  end.
Lemma last_field_shift fs : forall n s, last_field (S n) fs s = option_map S (last_field n fs s).
Proof.
  induction fs as [|f t IH]; intros n s; cbn [last_field]; [reflexivity|]. rewrite IH, (IH n).
  destruct (last_field n t s); cbn; [reflexivity|]. now destruct (String.eqb (f_name f) s).
Qed.
Lemma survivors_eq g fs : forall store,
  map (desc (store ++ fs)) (filter (survives (class_dict (length store) g fs) (store ++ fs)) (seq (length store) (length fs))) =
  surviving (created g) fs.
Proof.
  assert (S0 : forall store, filter (survives (class_dict (length store) g fs) (store ++ fs)) (seq (length store) (length fs)) =
    filter (fun d => negb (str_in (f_name (desc (store ++ fs) d)) (created g)) &&
              match last_field (length store) fs (f_name (desc (store ++ fs) d)) with Some d' => Nat.eqb d' d | None => false end)
           (seq (length store) (length fs))).
  { intros store. apply filter_in_ext. intros d _. unfold survives. rewrite class_dict_get.
    destruct (str_in _ (created g)); cbn; [reflexivity|]. destruct (last_field _ _ _); [reflexivity|].
    destruct (str_in _ (const_names g)); reflexivity. }
  intros store. rewrite S0. clear S0. revert store. induction fs as [|f t IH]; intros store; [reflexivity|].
  cbn [length seq filter surviving].
  assert (E0 : desc (store ++ f :: t) (length store) = f).
  { rewrite <- (Nat.add_0_r (length store)). now apply desc_mid. }
  rewrite E0. specialize (IH (store ++ [f])). rewrite app_length in IH. cbn [length] in IH. rewrite Nat.add_1_r in IH.
  rewrite <- app_assoc in IH. cbn [app] in IH.
  assert (Tl : filter (fun d => negb (str_in (f_name (desc (store ++ f :: t) d)) (created g)) &&
              match last_field (length store) (f :: t) (f_name (desc (store ++ f :: t) d)) with Some d' => Nat.eqb d' d | None => false end)
           (seq (S (length store)) (length t)) =
     filter (fun d => negb (str_in (f_name (desc (store ++ f :: t) d)) (created g)) &&
              match last_field (S (length store)) t (f_name (desc (store ++ f :: t) d)) with Some d' => Nat.eqb d' d | None => false end)
           (seq (S (length store)) (length t))).
  { apply filter_in_ext. intros d Hd. apply in_seq in Hd. f_equal. cbn [last_field].
    destruct (last_field (S (length store)) t _) as [d'|]; [reflexivity|]. destruct (String.eqb _ _); [|reflexivity].
    apply Nat.eqb_neq. lia. }
  rewrite Tl. cbn [last_field]. rewrite String.eqb_refl.
  destruct (str_in (f_name f) (created g)); cbn [negb andb orb]; [exact IH|].
  destruct (last_field (S (length store)) t (f_name f)) as [d'|] eqn:El.
  - assert (In (f_name f) (map f_name t)).
    { apply last_field_some in El as (i & h & _ & G & <-). apply in_map. now apply nth_error_In in G. }
    apply str_in_spec in H. rewrite H.
    assert (Nat.eqb d' (length store) = false) by (apply Nat.eqb_neq; apply last_field_some in El as (i & h & -> & _); lia).
    rewrite H0. exact IH.
  - apply last_field_none in El.
    destruct (str_in (f_name f) (map f_name t)) eqn:Es; [apply str_in_spec in Es; contradiction|].
    rewrite Nat.eqb_refl. cbn [map]. rewrite E0. now rewrite IH.
Qed.
