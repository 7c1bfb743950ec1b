(** Merging documents that import each other by name; what merging collects. *)
From Coq Require Import String Ascii List ZArith NArith Bool Lia.
From Verif Require Import PyBase PyPath SpecPath GenImports SpecImports PfBase PfSimple PfPath PfPath2 PfImports PfImports2 PfImports3 PfWsdl PfWsdl2.
Import ListNotations.
Open Scope nat_scope.
Open Scope string_scope.
Open Scope list_scope.

Lemma dedup_spec {A} (key : A -> string) l : forall seen,
  (forall x, In x (deduplicate_from key seen l) -> In x l /\ ~ In (key x) seen) /\
  (forall x, In x l -> ~ In (key x) seen -> exists y, In y (deduplicate_from key seen l) /\ key y = key x) /\
  NoDup (map key (deduplicate_from key seen l)).
Proof.
  induction l as [|a l IH]; intros seen; cbn [deduplicate_from]; [split; [|split]; [contradiction|contradiction|constructor]|].
  destruct (str_in (key a) seen) eqn:E.
  - apply str_in_spec in E. destruct (IH seen) as (H1 & H2 & H3). split; [|split; [|exact H3]].
    + intros x I. destruct (H1 x I). split; [now right|assumption].
    + intros x [<- | I] N; [contradiction|now apply H2].
  - assert (N : ~ In (key a) seen) by (intros C; apply str_in_spec in C; congruence). destruct (IH (key a :: seen)) as (H1 & H2 & H3). split; [|split].
    + intros x [<- | I]; [split; [now left|exact N]|]. destruct (H1 x I) as [I1 N1]. split; [now right|]. intros C. apply N1. now right.
    + intros x [<- | I] Nx; [exists a; split; [now left|reflexivity]|].
      destruct (string_dec (key a) (key x)) as [Ek|Nk]; [exists a; split; [now left|exact Ek]|].
      destruct (H2 x I) as (y & Iy & Ky); [intros [C | C]; contradiction|]. exists y. split; [now right|exact Ky].
    + cbn [map]. constructor; [|exact H3]. intros C. apply in_map_iff in C as (y & Ey & Iy). destruct (H1 y Iy) as [_ N1]. apply N1. now left.
Qed.

Section Content.
  Variable g : string.
  Variable open : string -> res wdoc.

  (** [m'] has what [m] has and what was read in between. *)
  Record grew (d d' : wdoc) (e : list (option string * string * string)) : Prop := {
    gr_items : forall x, In x (wd_items d') <-> some_document (fun w => In x (wd_items w)) open d e;
    gr_sub : forall s, In s (wd_schemas d') -> some_document (fun w => In s (wd_schemas w)) open d e;
    gr_sup : forall s, some_document (fun w => In s (wd_schemas w)) open d e -> exists s', In s' (wd_schemas d') /\ ws_bytes s' = ws_bytes s;
    gr_nodup : NoDup (wd_items d) -> NoDup (map ws_bytes (wd_schemas d)) -> NoDup (wd_items d') /\ NoDup (map ws_bytes (wd_schemas d')) }.

  Lemma grew_refl d : grew d d [].
  Proof.
    split.
    - intros x. split; [now left|]. intros [H | (? & ? & ? & ? & [] & _)]. exact H.
    - intros s H. now left.
    - intros s [H | (? & ? & ? & ? & [] & _)]. exists s. auto.
    - auto.
  Qed.
  Lemma some_app P d e1 e2 : some_document P open d (e1 ++ e2) <-> some_document P open d e1 \/ exists b l p w, In (b, l, p) e2 /\ open p = Ok w /\ P w.
  Proof.
    unfold some_document. split.
    - intros [H | (b & l & p & w & I & O & H)]; [now left; left|]. apply in_app_iff in I as [I|I]; [left; right|right]; exists b, l, p, w; auto.
    - intros [[H | (b & l & p & w & I & O & H)] | (b & l & p & w & I & O & H)]; [now left| |]; right; exists b, l, p, w; rewrite in_app_iff; auto.
  Qed.
  Lemma grew_trans d1 d2 d3 e1 e2 : grew d1 d2 e1 -> grew d2 d3 e2 -> grew d1 d3 (e1 ++ e2).
  Proof.
    intros G1 G2. split.
    - intros x. rewrite some_app, (gr_items _ _ _ G2). unfold some_document at 1. now rewrite (gr_items _ _ _ G1).
    - intros s H. rewrite some_app. destruct (gr_sub _ _ _ G2 s H) as [K | K]; [left; now apply (gr_sub _ _ _ G1)|now right].
    - intros s H. rewrite some_app in H. destruct H as [H | H].
      + destruct (gr_sup _ _ _ G1 s H) as (s' & I & E). destruct (gr_sup _ _ _ G2 s') as (s2 & I2 & E2); [now left|]. exists s2. split; [exact I2|congruence].
      + apply (gr_sup _ _ _ G2). now right.
    - intros N1 N2. destruct (gr_nodup _ _ _ G1 N1 N2). now apply (gr_nodup _ _ _ G2).
  Qed.
  (** What was read as [path] and grew is added. *)
  Lemma grew_merge d w w' e b l path : open path = Ok w -> grew w w' e -> grew d (merge_into w' d) ((b, l, path) :: e).
  Proof.
    intros Op G.
    assert (S : forall P, some_document P open w e <-> exists b0 l0 p0 w0, In (b0, l0, p0) ((b, l, path) :: e) /\ open p0 = Ok w0 /\ P w0).
    { intros P. split.
      - intros [H | (b0 & l0 & p0 & w0 & I & O & H)]; [exists b, l, path, w; split; [now left|auto]|exists b0, l0, p0, w0; split; [now right|auto]].
      - intros (b0 & l0 & p0 & w0 & Ib & O & Hw). destruct Ib as [Ib | Ib]; [left; injection Ib as <- <- <-; congruence|right; exists b0, l0, p0, w0; auto]. }
    split; unfold merge_into; cbn [wd_items wd_schemas].
    - intros x. unfold deduplicate. destruct (dedup_spec (fun s => s) (wd_items w' ++ wd_items d) []) as (H1 & H2 & _). unfold some_document at 1. rewrite <- S, <- (gr_items _ _ _ G). split.
      + intros H. destruct (H1 x H) as [I _]. apply in_app_iff in I as [I|I]; auto.
      + intros H. destruct (H2 x) as (y & Iy & ->); [apply in_app_iff; tauto|tauto|]. exact Iy.
    - intros s H. unfold some_document. rewrite <- S. destruct (wd_schemas w') as [|s0 t] eqn:Ew; [now left|].
      destruct (dedup_spec ws_bytes ((s0 :: t) ++ wd_schemas d) []) as (H1 & _ & _). destruct (H1 s H) as [I _]. apply in_app_iff in I as [I|I]; [right|now left].
      apply (gr_sub _ _ _ G). now rewrite Ew.
    - intros s H. unfold some_document in H. rewrite <- S in H. destruct (wd_schemas w') as [|s0 t] eqn:Ew.
      + destruct H as [H | H]; [exists s; auto|]. destruct (gr_sup _ _ _ G s H) as (s' & I & _). rewrite Ew in I. destruct I.
      + destruct (dedup_spec ws_bytes ((s0 :: t) ++ wd_schemas d) []) as (_ & H2 & _). destruct H as [H | H].
        * apply H2; [apply in_app_iff; now right|tauto].
        * destruct (gr_sup _ _ _ G s H) as (s' & I & E). rewrite Ew in I. destruct (H2 s') as (s2 & I2 & E2); [apply in_app_iff; now left|tauto|].
          exists s2. split; [exact I2|congruence].
    - intros N1 N2. unfold deduplicate. destruct (dedup_spec (fun s => s) (wd_items w' ++ wd_items d) []) as (_ & _ & H3). rewrite map_id in H3. split; [exact H3|].
      destruct (wd_schemas w') as [|s0 t]; [exact N2|]. now destruct (dedup_spec ws_bytes ((s0 :: t) ++ wd_schemas d) []) as (_ & _ & H).
  Qed.

  Lemma each_grew {A} (f : A -> merging -> merging * res unit) l :
    (forall x st m', In x l -> f x st = (m', Ok tt) -> exists e, mg_events m' = mg_events st ++ e /\ grew (mg_defs st) (mg_defs m') e) ->
    forall st m', each f l st = (m', Ok tt) -> exists e, mg_events m' = mg_events st ++ e /\ grew (mg_defs st) (mg_defs m') e.
  Proof.
    induction l as [|x l IH]; intros H st m' E; cbn [each] in E.
    - injection E as <-. exists []. split; [symmetry; apply app_nil_r|apply grew_refl].
    - destruct (f x st) as [s1 [[]|er]] eqn:Ef; [|discriminate]. destruct (H x st s1 (or_introl eq_refl) Ef) as (e1 & H1 & G1).
      destruct (IH (fun y s m I => H y s m (or_intror I)) s1 m' E) as (e2 & H2 & G2). exists (e1 ++ e2). split; [now rewrite H2, H1, app_assoc|]. eapply grew_trans; eauto.
  Qed.
  Lemma merge_grew n : forall self doc cwd seen ev m, merge_imports g open n self doc cwd seen ev = (m, Ok tt) ->
    exists e, mg_events m = ev ++ e /\ grew doc (mg_defs m) e.
  Proof.
    induction n as [|n IH]; intros self doc cwd seen ev m E; [discriminate|]. cbn [merge_imports] in E.
    match type of E with each ?f _ _ = _ => set (body := f) in E end.
    apply (each_grew body (wd_imports doc)) with (st := mkMerging seen ev doc cwd); [|exact E]. clear E m.
    intros l m m' _ E. unfold body in E.
    destruct (resolve_location g l (mg_cwd m)) as [[[path cwd'] loc]|er]; [|discriminate].
    destruct (str_in path (mg_seen m)); [injection E as <-; exists []; split; [symmetry; apply app_nil_r|apply grew_refl]|].
    destruct (open path) as [w|er] eqn:Op; [|discriminate].
    destruct (match wd_imports w with [] => true | _ => false end).
    - injection E as <-. cbn [mg_events mg_defs]. exists [(self, l, path)]. split; [reflexivity|]. eapply grew_merge; [exact Op|apply grew_refl].
    - destruct (merge_imports g open n _ _ _ _ _) as [m2 [[]|er]] eqn:Em; [|discriminate]. injection E as <-. cbn [mg_events mg_defs].
      destruct (IH _ _ _ _ _ _ Em) as (e & He & G). exists ((self, l, path) :: e). split; [now rewrite He, <- app_assoc|]. eapply grew_merge; eauto.
  Qed.
  Lemma merged n doc cwd m : merge_imports g open n None doc cwd [] [] = (m, Ok tt) -> grew doc (mg_defs m) (mg_events m).
  Proof. intros E. destruct (merge_grew _ _ _ _ _ _ _ E) as (e & He & G). now rewrite He. Qed.
End Content.

Section Plain.
  Variable g : string.
  Variable open : string -> res wdoc.
  Variable B : list string.
  Hypothesis PB : Forall proper B.
  Hypothesis PO : forall p d, open p = Ok d -> plain_imports d.
  Variable names : list string.
  Hypothesis Names : forall f d, open (path_of (B ++ [f])) = Ok d -> In f names.
  Hypothesis NR : forall p, open p <> Err RecursionError.

  Definition left_over (seen : list string) : nat := length (filter (fun f => negb (str_in (tidy (B ++ [f])) seen)) names).
  Lemma left_le K K' : incl K K' -> left_over K' <= left_over K.
  Proof.
    intros H. apply filter_le. intros x. rewrite !negb_true_iff, <- !not_true_iff_false, !str_in_spec. intros N C. now apply N, H.
  Qed.
  Lemma left_lt K f : In f names -> ~ In (tidy (B ++ [f])) K -> left_over (tidy (B ++ [f]) :: K) < left_over K.
  Proof.
    intros I N. apply (filter_lt _ _ _ f).
    - intros x. rewrite !negb_true_iff, <- !not_true_iff_false, !str_in_spec. intros H C. apply H. now right.
    - exact I.
    - rewrite negb_true_iff, <- not_true_iff_false, str_in_spec. exact N.
    - apply negb_false_iff, str_in_spec. now left.
  Qed.

  Record visited (m m' : merging) (e : list (option string * string * string)) : Prop := {
    vs_events : mg_events m' = mg_events m ++ e;
    vs_seen : incl (mg_seen m) (mg_seen m');
    vs_cwd : mg_cwd m' = tidy B;
    vs_nodup : NoDup (map snd e);
    vs_each : forall b l p, In (b, l, p) e -> ~ In p (mg_seen m) /\ In p (mg_seen m') /\ p = tidy (B ++ [l]) }.
  Lemma visited_refl m : mg_cwd m = tidy B -> visited m m [].
  Proof. intros H. split; [symmetry; apply app_nil_r|apply incl_refl|exact H|constructor|contradiction]. Qed.
  Lemma visited_trans m1 m2 m3 e1 e2 : visited m1 m2 e1 -> visited m2 m3 e2 -> visited m1 m3 (e1 ++ e2).
  Proof.
    intros V1 V2. destruct V1, V2. split; auto.
    - now rewrite vs_events1, vs_events0, app_assoc.
    - eapply incl_tran; eauto.
    - rewrite map_app. apply NoDup_app_intro; auto. intros p I1 I2. apply in_map_iff in I1 as ([[b1 l1] p1] & E1 & I1). apply in_map_iff in I2 as ([[b2 l2] p2] & E2 & I2).
      cbn in *. subst. destruct (vs_each0 _ _ _ I1) as (_ & H & _). now destruct (vs_each1 _ _ _ I2) as (H' & _).
    - intros b l p I. apply in_app_iff in I as [I|I].
      + destruct (vs_each0 _ _ _ I) as (H1 & H2 & H3). auto.
      + destruct (vs_each1 _ _ _ I) as (H1 & H2 & H3). auto.
  Qed.
  Lemma each_visited {A} (f : A -> merging -> merging * res unit) k l :
    (forall x m, In x l -> mg_cwd m = tidy B -> exists e, visited m (fst (f x m)) e /\ (left_over (mg_seen m) < k -> snd (f x m) <> Err RecursionError)) ->
    forall m, mg_cwd m = tidy B -> exists e, visited m (fst (each f l m)) e /\ (left_over (mg_seen m) < k -> snd (each f l m) <> Err RecursionError).
  Proof.
    induction l as [|x l IH]; intros H m C; [exists []; split; [now apply visited_refl|discriminate]|]. cbn [each].
    destruct (H x m (or_introl eq_refl) C) as (e1 & V1 & T1). destruct (f x m) as [m1 [[]|er]]; cbn [fst snd] in *; [|eauto].
    destruct (IH (fun y s I => H y s (or_intror I)) m1 (vs_cwd _ _ _ V1)) as (e2 & V2 & T2). exists (e1 ++ e2). split; [eapply visited_trans; eauto|].
    intros L. apply T2. eapply Nat.le_lt_trans; [apply left_le, (vs_seen _ _ _ V1)|exact L].
  Qed.
  Lemma merge_visited n : forall self doc seen ev, plain_imports doc ->
    exists e, visited (mkMerging seen ev doc (tidy B)) (fst (merge_imports g open n self doc (tidy B) seen ev)) e /\
      (left_over seen < n -> snd (merge_imports g open n self doc (tidy B) seen ev) <> Err RecursionError).
  Proof.
    induction n as [|n IH]; intros self doc seen ev PD; [exists []; split; [now apply visited_refl|lia]|]. cbn [merge_imports].
    match goal with |- context [each ?f _ _] => set (body := f) end.
    apply (each_visited body (S n) (wd_imports doc)) with (m := mkMerging seen ev doc (tidy B)); [|reflexivity].
    intros l m Il C. unfold body. rewrite C. unfold plain_imports in PD. rewrite Forall_forall in PD. pose proof (PD l Il) as Pl.
    destruct (resolve_name g B l (proper_piece B PB) Pl) as (loc & E). rewrite E.
    destruct (str_in (tidy (B ++ [l])) (mg_seen m)) eqn:Es.
    { exists []. split; [|discriminate]. split; [symmetry; apply app_nil_r|apply incl_refl|reflexivity|constructor|contradiction]. }
    assert (Ns : ~ In (tidy (B ++ [l])) (mg_seen m)) by (intros C0; apply str_in_spec in C0; congruence).
    destruct (open (tidy (B ++ [l]))) as [w|er] eqn:Op.
    2: { exists [(self, l, tidy (B ++ [l]))]. split; [|intros _; cbn; intros [= ->]; now apply (NR (tidy (B ++ [l])))]. split; cbn [fst mg_events mg_seen mg_cwd map snd].
      - reflexivity.
      - apply incl_tl, incl_refl.
      - reflexivity.
      - repeat constructor. tauto.
      - intros b l0 p [[= <- <- <-] | []]. split; [exact Ns|]. split; [now left|reflexivity]. }
    assert (Il' : In l names) by (apply (Names l w); now rewrite path_tidy).
    destruct (match wd_imports w with [] => true | _ => false end).
    { exists [(self, l, tidy (B ++ [l]))]. split; [|discriminate]. split; cbn [fst mg_events mg_seen mg_cwd map snd].
      - reflexivity.
      - apply incl_tl, incl_refl.
      - reflexivity.
      - repeat constructor. tauto.
      - intros b l0 p [[= <- <- <-] | []]. split; [exact Ns|]. split; [now left|reflexivity]. }
    destruct (IH (Some (tidy (B ++ [l]))) w (tidy (B ++ [l]) :: mg_seen m) (mg_events m ++ [(self, l, tidy (B ++ [l]))]) (PO _ _ Op)) as (e & V & T).
    exists ((self, l, tidy (B ++ [l])) :: e).
    assert (V' : forall d', visited m (mkMerging (mg_seen (fst (merge_imports g open n (Some (tidy (B ++ [l]))) w (tidy B) (tidy (B ++ [l]) :: mg_seen m) (mg_events m ++ [(self, l, tidy (B ++ [l]))]))))
       (mg_events (fst (merge_imports g open n (Some (tidy (B ++ [l]))) w (tidy B) (tidy (B ++ [l]) :: mg_seen m) (mg_events m ++ [(self, l, tidy (B ++ [l]))])))) d' (tidy B)) ((self, l, tidy (B ++ [l])) :: e)).
    { intros d'. destruct V. cbn [mg_events mg_seen mg_cwd] in *. split; cbn [mg_events mg_seen mg_cwd map snd].
      - rewrite vs_events0, <- app_assoc. reflexivity.
      - intros x Ix. apply vs_seen0. now right.
      - reflexivity.
      - constructor; [|exact vs_nodup0]. intros C0. apply in_map_iff in C0 as ([[b2 l2] p2] & E2 & I2). cbn in E2. subst.
        destruct (vs_each0 _ _ _ I2) as (H & _). apply H. now left.
      - intros b l0 p [[= <- <- <-] | I0].
        + split; [exact Ns|]. split; [|reflexivity]. apply vs_seen0. now left.
        + destruct (vs_each0 _ _ _ I0) as (H1 & H2 & H3). split; [|auto]. intros C0. apply H1. now right. }
    assert (T' : left_over (mg_seen m) < S n -> snd (merge_imports g open n (Some (tidy (B ++ [l]))) w (tidy B) (tidy (B ++ [l]) :: mg_seen m) (mg_events m ++ [(self, l, tidy (B ++ [l]))])) <> Err RecursionError).
    { intros L. apply T. pose proof (left_lt (mg_seen m) l Il' Ns). lia. }
    destruct (merge_imports g open n (Some (tidy (B ++ [l]))) w (tidy B) (tidy (B ++ [l]) :: mg_seen m) (mg_events m ++ [(self, l, tidy (B ++ [l]))])) as [m2 [[]|er]]; cbn [fst snd] in *; (split; [apply V'|]).
    - discriminate.
    - intros L. now apply T'.
  Qed.
  Lemma plain_merge n doc : plain_imports doc ->
    let r := merge_imports g open n None doc (path_of B) [] [] in
    (length names < n -> snd r <> Err RecursionError) /\ NoDup (map snd (mg_events (fst r))) /\
    forall b l p, In (b, l, p) (mg_events (fst r)) -> p = path_of (B ++ [l]).
  Proof.
    cbn zeta. rewrite path_tidy. intros PD. destruct (merge_visited n None doc [] [] PD) as (e & V & T). destruct V. cbn [mg_events mg_seen] in *. rewrite vs_events0. cbn [app].
    split; [|split; [exact vs_nodup0|]].
    - intros L. apply T. eapply Nat.le_lt_trans; [|exact L]. unfold left_over. rewrite <- (filter_true names) at 2. now apply filter_le.
    - intros b l p I. rewrite path_tidy. now apply (vs_each0 _ _ _ I).
  Qed.
End Plain.
