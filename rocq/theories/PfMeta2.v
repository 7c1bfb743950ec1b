(** Histories of class definitions. *)
From Coq Require Import String Ascii List ZArith NArith Bool Lia Permutation Sorted.
From Verif Require Import PyBase PyVal XsdSimple XsdComplex PySort XsdMeta SpecMeta PfBase PfMeta.
Import ListNotations.
Open Scope nat_scope.
Open Scope string_scope.
Open Scope list_scope.

Definition dicts (w : world) : list namespace := map k_dict (w_classes w).

Lemma declares_dict w b n v : declares w b n v <-> assoc n (dict_of (dicts w) b) = Some v.
Proof.
  unfold declares, dict_of, dicts. destruct (nth_error (w_classes w) b) as [k|] eqn:E.
  - assert (X : nth b (map k_dict (w_classes w)) [] = k_dict k).
    { apply (map_nth_error k_dict) in E. now apply nth_error_nth. }
    rewrite X. split; [intros (k' & [= <-] & H); exact H|eauto].
  - rewrite nth_overflow by (rewrite map_length; now apply nth_error_None).
    split; [intros (k & [=] & _)|discriminate].
Qed.
Lemma mro_get_spec cs mro n v : mro_get cs mro n = Some v <->
  exists before b after, mro = before ++ b :: after /\ assoc n (dict_of cs b) = Some v /\
    forall a, In a before -> assoc n (dict_of cs a) = None.
Proof.
  induction mro as [|c t IH]; cbn.
  - split; [discriminate|]. intros ([|] & b & after & [=] & _).
  - destruct (assoc n (dict_of cs c)) as [v'|] eqn:E.
    + split.
      * intros [= ->]. exists [], c, t. repeat split; auto. intros a [].
      * intros ([|x before] & b & after & [= -> ->] & H & N); [congruence|]. specialize (N x (or_introl eq_refl)). congruence.
    + rewrite IH. split.
      * intros (before & b & after & -> & H & N). exists (c :: before), b, after. repeat split; auto. intros a [<- | I]; auto.
      * intros ([|x before] & b & after & [= -> ->] & H & N); [congruence|]. exists before, b, after. repeat split; auto. intros a I. apply N. now right.
Qed.
Lemma has_field_get w c n d : has_field w c n d <-> mro_get (dicts w) (lineage w c) n = Some (ADesc d).
Proof.
  rewrite mro_get_spec. unfold has_field. split; intros (before & b & after & E & H & N); exists before, b, after; (split; [exact E|]); split.
  - now apply declares_dict.
  - intros a I. destruct (assoc n (dict_of (dicts w) a)) as [v|] eqn:Ea; [|reflexivity]. apply declares_dict in Ea. now apply N in Ea.
  - now apply declares_dict.
  - intros a v I D. apply declares_dict in D. rewrite N in D; [discriminate|exact I].
Qed.
Lemma has_field_fun w c n d d' : has_field w c n d -> has_field w c n d' -> d = d'.
Proof. rewrite !has_field_get. congruence. Qed.

(** Adding a class changes nothing for the others. *)
Lemma dict_of_app cs x b : b < length cs -> dict_of (cs ++ x) b = dict_of cs b.
Proof. intros H. unfold dict_of. now apply app_nth1. Qed.
Lemma mro_get_app cs x mro n : Forall (fun b => b < length cs) mro -> mro_get (cs ++ x) mro n = mro_get cs mro n.
Proof. induction 1 as [|b t Hb Ht IH]; cbn; [reflexivity|]. rewrite dict_of_app by exact Hb. now rewrite IH. Qed.
Lemma dir_app cs x mro : Forall (fun b => b < length cs) mro -> dir (cs ++ x) mro = dir cs mro.
Proof.
  intros H. unfold dir. f_equal. induction H as [|b t Hb Ht IH]; cbn; [reflexivity|]. now rewrite dict_of_app, IH by exact Hb.
Qed.
Lemma raw_app cs x mro names : Forall (fun b => b < length cs) mro -> raw (cs ++ x) mro names = raw cs mro names.
Proof. intros H. unfold raw. apply flat_map_ext. intros n. now rewrite mro_get_app. Qed.

Definition parts (store : list field) (m : meta) : Prop :=
  mt_attributes m = filter (fun d => is_attr (desc store d)) (mt_all m) /\
  mt_groups m = filter (fun d => is_group (desc store d)) (mt_all m) /\
  mt_fields m = filter (fun d => is_plain (desc store d)) (mt_all m) /\
  mt_allelements m = filter (fun d => negb (is_attr (desc store d))) (mt_all m).

Record Inv (w : world) : Prop := {
  i_mro : forall c k, nth_error (w_classes w) c = Some k -> Forall (fun b => b < length (w_classes w)) (k_mro k);
  i_dict : forall b n d, declares w b n (ADesc d) -> d < length (w_store w);
  i_ord : forall c k, nth_error (w_classes w) c = Some k -> ordered (fun d => d) (mt_all (k_meta k));
  i_all : forall c k, nth_error (w_classes w) c = Some k ->
    Permutation (mt_all (k_meta k)) (raw (dicts w) (k_mro k) (dir (dicts w) (k_mro k)));
  i_parts : forall c k, nth_error (w_classes w) c = Some k -> parts (w_store w) (k_meta k);
  i_names : forall c n d, has_field w c n d -> exists c' n', has_field w c' n' d /\ f_name (desc (w_store w) d) = n' }.

Lemma has_field_class w c n d : has_field w c n d -> c < length (w_classes w).
Proof.
  rewrite has_field_get. unfold lineage. destruct (nth_error (w_classes w) c) eqn:E; [|discriminate].
  intros _. apply nth_error_Some. congruence.
Qed.
Lemma has_field_declared w c n d : has_field w c n d -> exists b, declares w b n (ADesc d).
Proof. intros (before & b & after & _ & H & _). eauto. Qed.
Lemma all_in w c k d : Inv w -> nth_error (w_classes w) c = Some k ->
  (In d (mt_all (k_meta k)) <-> exists n, has_field w c n d).
Proof.
  intros I Hk. assert (L : lineage w c = k_mro k) by (unfold lineage; now rewrite Hk). split.
  - intros H. apply (Permutation_in _ (i_all w I c k Hk)) in H. apply raw_in in H as (n & _ & H). exists n. apply has_field_get. now rewrite L.
  - intros (n & H). apply has_field_get in H. rewrite L in H.
    apply (Permutation_in _ (Permutation_sym (i_all w I c k Hk))). apply raw_in. exists n. split; [|exact H]. eapply mro_get_dir; eauto.
Qed.
Lemma all_known w c k d : Inv w -> nth_error (w_classes w) c = Some k -> In d (mt_all (k_meta k)) -> d < length (w_store w).
Proof.
  intros I Hk H. apply (all_in w c k d I Hk) in H as (n & H). apply has_field_declared in H as (b & H). eapply i_dict; eauto.
Qed.

Lemma desc_app store x d : d < length store -> desc (store ++ x) d = desc store d.
Proof. intros H. unfold desc. now apply app_nth1. Qed.
Lemma filter_in_ext {A} (p q : A -> bool) l : (forall x, In x l -> p x = q x) -> filter p l = filter q l.
Proof.
  induction l as [|x l IH]; intros H; cbn; [reflexivity|]. rewrite (H x) by now left. rewrite IH; [reflexivity|]. intros y Hy. apply H. now right.
Qed.
Lemma parts_kinds store store' m : (forall d, In d (mt_all m) -> f_kind (desc store' d) = f_kind (desc store d)) -> parts store m -> parts store' m.
Proof.
  intros K (A & G & F & Al). unfold parts. rewrite A, G, F, Al.
  repeat split; apply filter_in_ext; intros d Hd; specialize (K d Hd); symmetry.
  - now apply is_attr_kind. - now apply is_group_kind. - now apply is_plain_kind. - f_equal. now apply is_attr_kind.
Qed.

Lemma lineage_new w w' k : w_classes w' = w_classes w ++ [k] -> lineage w' (length (w_classes w)) = k_mro k.
Proof. intros E. unfold lineage. rewrite E, nth_error_app2, Nat.sub_diag by auto. reflexivity. Qed.

Section Step.
  Variables (w w' : world) (k : klass).
  Hypothesis I : Inv w.
  Hypothesis EC : w_classes w' = w_classes w ++ [k].
  Lemma dicts_new : dicts w' = dicts w ++ [k_dict k].
  Proof. unfold dicts. rewrite EC. now rewrite map_app. Qed.
  Lemma dicts_length : length (dicts w) = length (w_classes w).
  Proof. unfold dicts. now rewrite map_length. Qed.
  Lemma old_class c : c < length (w_classes w) -> nth_error (w_classes w') c = nth_error (w_classes w) c.
  Proof. intros H. rewrite EC. now apply nth_error_app1. Qed.
  Lemma old_mro c kc : nth_error (w_classes w) c = Some kc -> Forall (fun b => b < length (dicts w)) (k_mro kc).
  Proof. intros H. rewrite dicts_length. now apply (i_mro w I c). Qed.
  Lemma old_field c n d : c < length (w_classes w) -> (has_field w' c n d <-> has_field w c n d).
  Proof.
    intros H. rewrite !has_field_get. unfold lineage. rewrite old_class by exact H.
    destruct (nth_error (w_classes w) c) as [kc|] eqn:E; [|reflexivity]. rewrite dicts_new, mro_get_app by now apply (old_mro c). reflexivity.
  Qed.
  Lemma old_declares b n v : b < length (w_classes w) -> (declares w' b n v <-> declares w b n v).
  Proof. intros H. unfold declares. now rewrite old_class. Qed.
End Step.

Lemma exec_def w dict anc w' : exec w (DefClass dict anc) = Ok w' ->
  exists k, w_classes w' = w_classes w ++ [k] /\ k_dict k = dict /\ k_mro k = length (w_classes w) :: anc /\
    Forall (fun b => b < length (w_classes w)) anc /\
    (forall n d, assoc n dict = Some (ADesc d) -> d < length (w_store w)) /\
    k_meta k = snd (build_meta (dicts w') (k_mro k) (w_store w)) /\
    w_store w' = named (dicts w') (k_mro k) (w_store w) (dir (dicts w') (k_mro k)).
Proof.
  cbn [exec]. destruct (forallb (known_attr w) dict && _)%bool eqn:B; [|discriminate]. apply andb_true_iff in B as [B1 B2].
  fold (dicts w).
  rewrite build_eq. cbn zeta. intros [= <-]. eexists. split; [reflexivity|]. cbn [k_dict k_mro k_meta w_store].
  assert (D : dicts {| w_store := named (dicts w ++ [dict]) (length (w_classes w) :: anc) (w_store w) (dir (dicts w ++ [dict]) (length (w_classes w) :: anc));
     w_classes := w_classes w ++ [mkK dict (length (w_classes w) :: anc) (snd (build_meta (dicts w ++ [dict]) (length (w_classes w) :: anc) (w_store w)))] |} = dicts w ++ [dict])
    by (unfold dicts; cbn; now rewrite map_app).
  rewrite build_eq in D. cbn zeta in D. cbn [snd] in D.
  split; [reflexivity|]. split; [reflexivity|]. split; [|split; [|split]].
  - apply Forall_forall. intros b Hb. rewrite forallb_forall in B2. apply Nat.ltb_lt. now apply B2.
  - intros n d H. apply assoc_in in H. rewrite forallb_forall in B1. specialize (B1 _ H). now apply Nat.ltb_lt in B1.
  - rewrite D, build_eq. reflexivity.
  - now rewrite D.
Qed.

Lemma inv_empty : Inv empty_world.
Proof.
  split.
  - intros [|c] k [=]. - intros [|b] n d (k & [=] & _). - intros [|c] k [=]. - intros [|c] k [=]. - intros [|c] k [=].
  - intros c n d H. apply has_field_class in H. cbn in H. lia.
Qed.
Lemma inv_new w f : Inv w -> Inv (mkWorld (w_store w ++ [f]) (w_classes w)).
Proof.
  intros I. assert (HF : forall c n d, has_field (mkWorld (w_store w ++ [f]) (w_classes w)) c n d <-> has_field w c n d) by (intros; reflexivity).
  split; cbn [w_classes w_store].
  - apply (i_mro w I).
  - intros b n d H. rewrite app_length. assert (d < length (w_store w)) by (apply (i_dict w I b n); exact H). lia.
  - apply (i_ord w I).
  - apply (i_all w I).
  - intros c k Hk. apply (parts_kinds (w_store w)); [|now apply (i_parts w I c)]. intros d Hd. rewrite desc_app; [reflexivity|]. eapply all_known; eauto.
  - intros c n d H. apply HF in H. destruct (i_names w I c n d H) as (c' & n' & H' & E). exists c', n'. split; [exact H'|].
    rewrite desc_app; [exact E|]. apply has_field_declared in H as (b & H). eapply i_dict; eauto.
Qed.
Lemma inv_def w dict anc w' : Inv w -> exec w (DefClass dict anc) = Ok w' -> Inv w'.
Proof.
  intros I X. apply exec_def in X as (k & EC & Kd & Km & Ha & Hd & Kt & St).
  assert (Nk : nth_error (w_classes w') (length (w_classes w)) = Some k) by (rewrite EC, nth_error_app2, Nat.sub_diag by auto; reflexivity).
  assert (Cl : forall c kc, nth_error (w_classes w') c = Some kc -> c < length (w_classes w) /\ nth_error (w_classes w) c = Some kc \/ c = length (w_classes w) /\ kc = k).
  { intros c kc H. destruct (Nat.lt_trichotomy c (length (w_classes w))) as [L|[->|L]].
    - left. split; [exact L|]. now rewrite <- (old_class w w' k EC).
    - right. split; [reflexivity|]. congruence.
    - exfalso. assert (c < length (w_classes w')) by (apply nth_error_Some; congruence). rewrite EC, app_length in H0. cbn in H0. lia. }
  assert (Ls : length (w_store w') = length (w_store w)) by (rewrite St; apply named_length).
  assert (Hm : Forall (fun b => b < length (w_classes w')) (k_mro k)).
  { rewrite Km, EC, app_length. cbn. constructor; [lia|]. eapply Forall_impl; [|exact Ha]. cbn. lia. }
  assert (Dd : forall b n d, declares w' b n (ADesc d) -> d < length (w_store w')).
  { intros b n d (kb & Hb & H). rewrite Ls. destruct (Cl _ _ Hb) as [[L Hb']|[-> ->]].
    - apply (i_dict w I b n). exists kb. auto.
    - rewrite Kd in H. eapply Hd; eauto. }
  assert (Ap : Permutation (mt_all (k_meta k)) (raw (dicts w') (k_mro k) (dir (dicts w') (k_mro k)))).
  { rewrite Kt. apply build_all_perm. }
  split.
  - intros c kc H. destruct (Cl _ _ H) as [[L H']|[-> ->]]; [|exact Hm].
    eapply Forall_impl; [|apply (i_mro w I c kc H')]. cbn. intros a La. rewrite EC, app_length. lia.
  - exact Dd.
  - intros c kc H. destruct (Cl _ _ H) as [[L H']|[-> ->]]; [now apply (i_ord w I c)|]. rewrite Kt. apply build_all_ordered.
  - intros c kc H. destruct (Cl _ _ H) as [[L H']|[-> ->]]; [|exact Ap].
    rewrite (dicts_new w w' k EC), dir_app, raw_app by now apply (old_mro w I c). now apply (i_all w I c).
  - intros c kc H. apply (parts_kinds (w_store w)); [intros d _; rewrite St; apply named_kind|].
    destruct (Cl _ _ H) as [[L H']|[-> ->]]; [now apply (i_parts w I c)|]. rewrite Kt. apply build_parts.
  - intros c n d H. destruct (in_dec Nat.eq_dec d (raw (dicts w') (k_mro k) (dir (dicts w') (k_mro k)))) as [J|J].
    + assert (Ld : d < length (w_store w)) by (rewrite <- Ls; apply has_field_declared in H as (b & H); eapply Dd; eauto).
      destruct (named_hit _ _ _ (w_store w) d Ld J) as (n' & _ & G & E). exists (length (w_classes w)), n'. split.
      * apply has_field_get. now rewrite (lineage_new w w' k EC).
      * rewrite St, E. reflexivity.
    + assert (Lc : c < length (w_classes w)).
      { apply has_field_class in H as L. rewrite EC, app_length in L. cbn in L. destruct (Nat.eq_dec c (length (w_classes w))) as [->|]; [|lia].
        exfalso. apply J. apply raw_in. exists n. apply has_field_get in H. rewrite (lineage_new w w' k EC) in H. split; [eapply mro_get_dir; eauto|exact H]. }
      apply (old_field w w' k I EC c n d Lc) in H. destruct (i_names w I c n d H) as (c' & n' & H' & E). exists c', n'. split.
      * apply (old_field w w' k I EC c' n' d); [eapply has_field_class; eauto|exact H'].
      * rewrite St, named_miss by exact J. exact E.
Qed.
Lemma reachable_inv es w : exec_all empty_world es = Ok w -> Inv w.
Proof.
  intros H. unfold exec_all in H. revert H. apply (foldM_inv Inv); [apply inv_empty|].
  intros e a b _ Ia Hx. destruct e as [f|dict anc]; [injection Hx as <-; now apply inv_new|eapply inv_def; eauto].
Qed.

(** ** Results *)
Lemma class_fields_of w c k : nth_error (w_classes w) c = Some k -> class_fields w c = map (desc (w_store w)) (mt_all (k_meta k)).
Proof. intros H. unfold class_fields, meta_of. now rewrite H. Qed.
Lemma element_desc w d : d < length (w_store w) -> element w d (desc (w_store w) d).
Proof. intros H. unfold element, desc. now apply nth_error_nth'. Qed.
Lemma meta_parts es w c : exec_all empty_world es = Ok w -> let m := meta_of w c in let elements := map (desc (w_store w)) in
  elements (mt_attributes m) = filter is_attr (class_fields w c) /\
  elements (mt_groups m) = filter is_group (class_fields w c) /\
  elements (mt_fields m) = filter is_plain (class_fields w c) /\
  elements (mt_allelements m) = filter (fun f => negb (is_attr f)) (class_fields w c).
Proof.
  intros H. apply reachable_inv in H as I. cbn zeta. unfold class_fields, meta_of. destruct (nth_error (w_classes w) c) as [k|] eqn:E; [|repeat split].
  destruct (i_parts w I c k E) as (A & G & F & Al). rewrite A, G, F, Al.
  assert (X : forall (p : field -> bool) l, map (desc (w_store w)) (filter (fun d => p (desc (w_store w) d)) l) = filter p (map (desc (w_store w)) l)).
  { intros p l. induction l as [|d l IH]; cbn; [reflexivity|]. destruct (p (desc (w_store w) d)); cbn; now rewrite IH. }
  repeat split; apply (X is_attr) || apply (X is_group) || apply (X is_plain) || apply (X (fun f => negb (is_attr f))).
Qed.

Lemma map_forall2 {A B} (f : A -> B) (R : A -> B -> Prop) l : (forall x, In x l -> R x (f x)) -> Forall2 R l (map f l).
Proof. induction l as [|x l IH]; intros H; cbn; constructor; [apply H; now left|apply IH; intros y Hy; apply H; now right]. Qed.

Section New.
  Variables (w w' : world) (dict : namespace) (anc : list nat).
  Hypothesis I : Inv w.
  Hypothesis X : exec w (DefClass dict anc) = Ok w'.
  Let c := length (w_classes w).
  Lemma new_field d n : has_field w' c n d -> exists m, has_field w' c m d /\ d < length (w_store w) /\
    desc (w_store w') d = rename m (desc (w_store w) d).
  Proof.
    intros H. assert (I' : Inv w') by (eapply inv_def; eauto). destruct (exec_def _ _ _ _ X) as (k & EC & Kd & Km & Ha & Hd & Kt & St).
    assert (Ls : length (w_store w') = length (w_store w)) by (rewrite St; apply named_length).
    assert (Ld : d < length (w_store w)) by (rewrite <- Ls; apply has_field_declared in H as (b & H); eapply i_dict; eauto).
    apply has_field_get in H as G. unfold c in G. rewrite (lineage_new w w' k EC) in G.
    destruct (named_hit (dicts w') (k_mro k) (dir (dicts w') (k_mro k)) (w_store w) d Ld) as (m & _ & Gm & E).
    { apply raw_in. exists n. split; [eapply mro_get_dir; eauto|exact G]. }
    exists m. split; [|split; [exact Ld|now rewrite St]]. apply has_field_get. unfold c. now rewrite (lineage_new w w' k EC).
  Qed.
  Lemma other_field d : (forall n, ~ has_field w' c n d) -> desc (w_store w') d = desc (w_store w) d.
  Proof.
    intros H. destruct (exec_def _ _ _ _ X) as (k & EC & Kd & Km & Ha & Hd & Kt & St).
    rewrite St. apply named_miss. intros J. apply raw_in in J as (n & _ & G). apply (H n). apply has_field_get. unfold c. now rewrite (lineage_new w w' k EC).
  Qed.
  Lemma new_order : one_name w' c ->
    exists ids, StronglySorted lt ids /\ (forall d, In d ids <-> exists n, has_field w' c n d) /\
      Forall2 (fun d f => has_field w' c (f_name f) d /\ exists g, element w d g /\ same_declaration f g) ids (class_fields w' c).
  Proof.
    intros O. assert (I' : Inv w') by (eapply inv_def; eauto). destruct (exec_def _ _ _ _ X) as (k & EC & Kd & Km & Ha & Hd & Kt & St).
    assert (Nk : nth_error (w_classes w') c = Some k) by (unfold c; rewrite EC, nth_error_app2, Nat.sub_diag by auto; reflexivity).
    exists (mt_all (k_meta k)). split; [|split].
    - apply ordered_strict; [now apply (i_ord w' I' c)|]. apply (Permutation_NoDup (Permutation_sym (i_all w' I' c k Nk))).
      apply raw_nodup; [apply dir_nodup|]. intros n1 n2 d H1 H2. apply (O n1 n2 d); apply has_field_get; unfold lineage; now rewrite Nk.
    - intros d. now apply all_in.
    - rewrite (class_fields_of w' c k Nk). apply map_forall2. intros d Hd'. apply (all_in w' c k d I' Nk) in Hd' as (n & H).
      destruct (new_field d n H) as (m & Hm & Ld & E). rewrite E. cbn [rename f_name]. split; [exact Hm|].
      exists (desc (w_store w) d). split; [now apply element_desc|repeat split].
  Qed.
  Lemma new_twice n1 n2 d : n1 <> n2 -> has_field w' c n1 d -> has_field w' c n2 d ->
    ~ NoDup (mt_all (meta_of w' c)) /\ exists n, (n = n1 \/ n = n2) /\ find_field (class_fields w' c) n = Err ValueError.
  Proof.
    intros N H1 H2. assert (I' : Inv w') by (eapply inv_def; eauto). destruct (exec_def _ _ _ _ X) as (k & EC & Kd & Km & Ha & Hd & Kt & St).
    assert (Nk : nth_error (w_classes w') c = Some k) by (unfold c; rewrite EC, nth_error_app2, Nat.sub_diag by auto; reflexivity).
    assert (L : lineage w' c = k_mro k) by (unfold lineage; now rewrite Nk). split.
    - intros D. unfold meta_of in D. rewrite Nk in D. apply (Permutation_NoDup (i_all w' I' c k Nk)) in D.
      apply has_field_get in H1, H2. rewrite L in H1, H2. revert D. apply (raw_twice _ _ _ n1 n2 d); auto; eapply mro_get_dir; eauto.
    - destruct (new_field d n1 H1) as (m & Hm & Ld & E).
      assert (Hn : exists n, (n = n1 \/ n = n2) /\ n <> m).
      { destruct (string_dec n1 m) as [<-|]; [exists n2|exists n1]; split; auto. }
      destruct Hn as (n & Hn & Nm). exists n. split; [exact Hn|]. unfold find_field.
      destruct (find _ _) as [f|] eqn:F; [|reflexivity]. exfalso. apply find_some in F as [F Ef]. apply String.eqb_eq in Ef.
      rewrite (class_fields_of w' c k Nk) in F. apply in_map_iff in F as (d' & <- & Hd'). apply (all_in w' c k d' I' Nk) in Hd' as (n' & H').
      destruct (new_field d' n' H') as (m' & Hm' & Ld' & E'). rewrite E' in Ef. cbn in Ef. subst m'.
      assert (d' = d) by (apply (has_field_fun w' c n); [exact Hm'|destruct Hn as [-> | ->]; assumption]). subst d'.
      rewrite E in E'. apply (f_equal f_name) in E'. cbn in E'. congruence.
  Qed.
End New.

Lemma one_name_keeps w : Inv w -> one_name_each w -> forall c n d, has_field w c n d -> f_name (desc (w_store w) d) = n.
Proof. intros I O c n d H. destruct (i_names w I c n d H) as (c' & n' & H' & E). rewrite E. eapply O; eauto. Qed.
Lemma find_own w : Inv w -> one_name_each w -> forall c n d, has_field w c n d -> find_field (class_fields w c) n = Ok (desc (w_store w) d).
Proof.
  intros I O c n d H. apply has_field_class in H as Lc. destruct (nth_error (w_classes w) c) as [k|] eqn:Nk; [|apply nth_error_None in Nk; lia].
  unfold find_field. rewrite (class_fields_of w c k Nk). destruct (find _ _) as [f|] eqn:F.
  - apply find_some in F as [F Ef]. apply String.eqb_eq in Ef. apply in_map_iff in F as (d' & <- & Hd').
    apply (all_in w c k d' I Nk) in Hd' as (n' & H'). rewrite (one_name_keeps w I O c n' d' H') in Ef. subst n'.
    now rewrite (has_field_fun w c n d d' H H').
  - exfalso. assert (J : In (desc (w_store w) d) (map (desc (w_store w)) (mt_all (k_meta k)))) by (apply in_map, (all_in w c k d I Nk); eauto).
    apply (find_none _ _ F) in J. rewrite (one_name_keeps w I O c n d H), String.eqb_refl in J. discriminate.
Qed.
Lemma names_kept es w : exec_all empty_world es = Ok w -> one_name_each w ->
  forall c n d, has_field w c n d -> exists f, element w d f /\ f_name f = n /\ find_field (class_fields w c) n = Ok f /\
    forall O E fs v fs', setattr O E (class_fields w c) fs n v = Ok fs' -> exists v', field_accept O E f v = Ok v' /\ getattr fs' n = Ok v'.
Proof.
  intros R O c n d H. apply reachable_inv in R as I. exists (desc (w_store w) d).
  split; [apply element_desc; apply has_field_declared in H as (b & H); eapply i_dict; eauto|].
  split; [eapply one_name_keeps; eauto|]. split; [now apply find_own|].
  intros O' E fs v fs' S. unfold setattr in S. rewrite (find_own w I O c n d H) in S. cbn [bind] in S.
  apply bind_ok in S as (v' & A & S). injection S as <-. exists v'. split; [exact A|]. unfold getattr. now rewrite assoc_set_same.
Qed.
(** The fields of a class, as long as no Element object is reused. *)
Lemma order_kept es w c : exec_all empty_world es = Ok w -> one_name_each w ->
  exists ids, StronglySorted lt ids /\ (forall d, In d ids <-> exists n, has_field w c n d) /\
    Forall2 (fun d f => has_field w c (f_name f) d /\ element w d f) ids (class_fields w c).
Proof.
  intros R O. apply reachable_inv in R as I. destruct (nth_error (w_classes w) c) as [k|] eqn:Nk.
  - exists (mt_all (k_meta k)). split; [|split].
    + apply ordered_strict; [now apply (i_ord w I c)|]. apply (Permutation_NoDup (Permutation_sym (i_all w I c k Nk))).
      apply raw_nodup; [apply dir_nodup|]. intros n1 n2 d H1 H2. apply (O c c n1 n2 d); apply has_field_get; unfold lineage; now rewrite Nk.
    + intros d. now apply all_in.
    + rewrite (class_fields_of w c k Nk). apply map_forall2. intros d Hd'. apply (all_in w c k d I Nk) in Hd' as (n & H).
      rewrite (one_name_keeps w I O c n d H). split; [exact H|]. apply element_desc. apply has_field_declared in H as (b & H); eapply i_dict; eauto.
  - exists []. split; [constructor|]. split.
    + intros d. split; [intros []|]. intros (n & H). apply has_field_class in H. apply nth_error_None in Nk. lia.
    + unfold class_fields, meta_of. rewrite Nk. constructor.
Qed.
Lemma reuse_breaks es w dict anc w' a x y d : exec_all empty_world es = Ok w -> one_name_each w -> has_field w a x d ->
  exec w (DefClass dict anc) = Ok w' -> let b := length (w_classes w) in
  has_field w' b y d -> (forall e, ~ has_field w' b x e) ->
  has_field w' a x d /\ find_field (class_fields w' a) x = Err ValueError.
Proof.
  intros R O H X b Hy Nx. apply reachable_inv in R as I. assert (I' : Inv w') by (eapply inv_def; eauto).
  destruct (exec_def _ _ _ _ X) as (k & EC & _). apply has_field_class in H as La.
  split; [now apply (old_field w w' k I EC)|].
  destruct (nth_error (w_classes w') a) as [ka|] eqn:Na; [|apply nth_error_None in Na; rewrite EC, app_length in Na; lia].
  unfold find_field. destruct (find _ _) as [f|] eqn:F; [|reflexivity]. exfalso. apply find_some in F as [F Ef]. apply String.eqb_eq in Ef.
  rewrite (class_fields_of w' a ka Na) in F. apply in_map_iff in F as (d' & <- & Hd'). apply (all_in w' a ka d' I' Na) in Hd' as (n' & H').
  apply (old_field w w' k I EC) in H'; [|exact La].
  destruct (in_dec Nat.eq_dec d' (mt_all (meta_of w' b))) as [J|J].
  - assert (Nb : nth_error (w_classes w') b = Some k) by (unfold b; rewrite EC, nth_error_app2, Nat.sub_diag by auto; reflexivity).
    unfold meta_of in J. rewrite Nb in J. apply (all_in w' b k d' I' Nb) in J as (m & Hm).
    destruct (new_field w w' dict anc I X d' m Hm) as (m' & Hm' & _ & E). rewrite E in Ef. cbn in Ef. subst m'. now apply Nx in Hm'.
  - assert (Nb : nth_error (w_classes w') b = Some k) by (unfold b; rewrite EC, nth_error_app2, Nat.sub_diag by auto; reflexivity).
    rewrite (other_field w w' dict anc X) in Ef.
    + rewrite (one_name_keeps w I O a n' d' H') in Ef. subst n'. assert (d' = d) by (eapply has_field_fun; eauto). subst d'.
      apply J. unfold meta_of. rewrite Nb. apply (all_in w' b k d I' Nb). eauto.
    + intros n Hn. apply J. unfold meta_of. rewrite Nb. apply (all_in w' b k d' I' Nb). eauto.
Qed.
