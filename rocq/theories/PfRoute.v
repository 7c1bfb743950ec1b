(** Histories of Service.route. *)
From Coq Require Import String List Bool Arith Lia.
From Verif Require Import PyBase PyVal Xml XsdSimple XsdComplex XsdSchema PyHttp Soap Dispatch Client SpecParse SpecSoap SpecDispatch Route SpecRoute PfBase PfDispatch.
Import ListNotations.
Open Scope nat_scope.
Open Scope string_scope.
Open Scope list_scope.

Lemma run_app s h1 h2 : run_routing s (h1 ++ h2) = run_routing (run_routing s h1) h2.
Proof. revert s. induction h1 as [|e h1 IH]; intros s; cbn; auto. Qed.
Lemma decorators_app known h1 h2 : decorators known (h1 ++ h2) = decorators known h1 ++ decorators known h2.
Proof. induction h1 as [|[op|k f] h1 IH]; cbn; auto. destruct (in_dec string_dec op known); cbn; now rewrite IH. Qed.
Lemma sbf_refl m : same_but_function m m.
Proof. repeat split. Qed.
Lemma sbf_set f m m' : same_but_function m m' -> same_but_function m (set_fn f m').
Proof. intros (H1 & H2 & H3 & H4 & H5 & H6). repeat split; assumption. Qed.
Lemma sbf_map ms ms' : Forall2 same_but_function ms ms' -> map m_op ms' = map m_op ms.
Proof. induction 1 as [|a b l l' (H & _) _ IH]; cbn; congruence. Qed.
Lemma place_ext ms ms' op : map m_op ms' = map m_op ms -> place_of ms' op = place_of ms op.
Proof. revert ms'. induction ms as [|m ms IH]; intros [|m' ms'] H; try discriminate H; auto. cbn in *. injection H as H1 H2. rewrite H1, (IH _ H2). reflexivity. Qed.
Lemma place_none ms op : place_of ms op = Err (Exn EStopIteration "") <-> ~ In op (map m_op ms).
Proof.
  induction ms as [|m ms IH]; cbn; [tauto|]. destruct (String.eqb_spec (m_op m) op) as [He|He].
  - split; [discriminate|intros H; exfalso; auto].
  - split.
    + intros H [H0|H0]; [congruence|]. destruct (place_of ms op) as [k|e]; [discriminate H|]. cbn in H. injection H as ->. now apply IH in H0.
    + intros H. destruct IH as (_ & IH). rewrite IH by tauto. reflexivity.
Qed.
Lemma place_some ms op : In op (map m_op ms) -> exists k, place_of ms op = Ok k.
Proof.
  induction ms as [|m ms IH]; cbn; [tauto|]. destruct (String.eqb_spec (m_op m) op) as [He|He]; [now exists 0|].
  intros [H|H]; [congruence|]. destruct (IH H) as (k & ->). now exists (S k).
Qed.
Lemma place_first ms op k : place_of ms op = Ok k -> exists m, nth_error ms k = Some m /\ m_op m = op /\ forall j m', j < k -> nth_error ms j = Some m' -> m_op m' <> op.
Proof.
  revert k. induction ms as [|m ms IH]; intros k; cbn; [discriminate|]. destruct (String.eqb_spec (m_op m) op) as [He|He].
  - intros [= <-]. exists m. repeat split; auto. intros j m' Hj. lia.
  - intros H. apply bind_ok in H as (k' & Hk & H). injection H as <-. destruct (IH _ Hk) as (m0 & H1 & H2 & H3). exists m0. repeat split; auto.
    intros [|j] m' Hj Hm; cbn in Hm; [injection Hm as <-; exact He|]. apply (H3 j); [lia|exact Hm].
Qed.
Lemma first_place ms op m : first_with (fun m => m_op m = op) ms m <-> exists k, place_of ms op = Ok k /\ nth_error ms k = Some m.
Proof.
  split.
  - intros (l1 & l2 & -> & Hm & Hl). exists (length l1). split; [|rewrite nth_error_app2, Nat.sub_diag by lia; reflexivity].
    induction l1 as [|a l1 IH]; cbn; [now rewrite <- Hm, String.eqb_refl|].
    destruct (String.eqb_spec (m_op a) op) as [He|He]; [exfalso; apply (Hl a); cbn; auto|]. rewrite IH; auto. intros b Hb. apply Hl. now right.
  - intros (k & Hk & Hm). destruct (place_first _ _ _ Hk) as (m' & H1 & H2 & H3). assert (m' = m) by congruence. subst m'.
    destruct (nth_error_split _ _ H1) as (l1 & l2 & -> & Hl). exists l1, l2. repeat split; auto.
    intros b Hb He. destruct (In_nth_error _ _ Hb) as (j & Hj). assert (Hlt : j < length l1) by (apply nth_error_Some; congruence).
    apply (H3 j b); [lia|rewrite nth_error_app1 by lia; exact Hj|exact He].
Qed.
Lemma change_nth {A} k g (l : list A) i : nth_error (change k g l) i = if Nat.eqb i k then option_map g (nth_error l i) else nth_error l i.
Proof. revert k i. induction l as [|a l IH]; intros [|k] [|i]; cbn; auto; try (now destruct (Nat.eqb i k)). Qed.
Lemma change_forall2 {A B} (R : A -> B -> Prop) k g l l' : (forall a b, R a b -> R a (g b)) -> Forall2 R l l' -> Forall2 R l (change k g l').
Proof. intros Hg H. revert k. induction H as [|a b l l' Hab Hl IH]; intros [|k]; cbn; constructor; auto. Qed.

(** One more event. *)
Lemma snoc_split {A} (h1 h2 h : list A) (e e' : A) : h ++ [e] = h1 ++ e' :: h2 -> h2 = [] /\ h1 = h /\ e' = e \/ exists h3, h2 = h3 ++ [e] /\ h = h1 ++ e' :: h3.
Proof.
  intros H. destruct h2 as [|x h2 _] using rev_ind.
  - left. apply app_inj_tail in H as (-> & ->). auto.
  - right. exists h2. change (e' :: h2 ++ [x]) with ((e' :: h2) ++ [x]) in H. rewrite app_assoc in H. apply app_inj_tail in H as (-> & ->). auto.
Qed.
Lemma bound_new known h e op f : binds known h e op f -> bound_last known (h ++ [e]) op f.
Proof. intros H. exists h, e, []. repeat split; auto. intros h3 e' h4 g E. destruct h3; discriminate E. Qed.
Lemma bound_keep known h e op f : bound_last known h op f -> (forall g, ~ binds known h e op g) -> bound_last known (h ++ [e]) op f.
Proof.
  intros (h1 & e1 & h2 & -> & H1 & H2) He. exists h1, e1, (h2 ++ [e]). split; [now rewrite <- app_assoc|]. split; [exact H1|].
  intros h3 e' h4 g E. apply snoc_split in E as [(-> & -> & ->) | (h5 & -> & ->)]; [apply He|]. now apply (H2 h3 e' h5).
Qed.
Lemma never_keep known h e op : never_bound known h op -> (forall g, ~ binds known h e op g) -> never_bound known (h ++ [e]) op.
Proof. intros H He h1 e' h2 g E. apply snoc_split in E as [(-> & -> & ->) | (h5 & -> & ->)]; [apply He|]. now apply (H h1 e' h5). Qed.
Lemma binds_fun known h e op f g : binds known h e op f -> binds known h e op g -> f = g.
Proof. intros (k & -> & _) (k' & [= <- <-] & _). reflexivity. Qed.
Lemma binds_dec known h e op : (exists f, binds known h e op f) \/ (forall f, ~ binds known h e op f).
Proof.
  destruct e as [op'|k f]; [right; intros f (k & [=] & _)|]. destruct (nth_error (decorators known h) k) as [op'|] eqn:E.
  - destruct (string_dec op' op) as [->|Hn]; [left; exists f, k; auto|]. right. intros g (k' & [= <- <-] & H). congruence.
  - right. intros g (k' & [= <- <-] & H). congruence.
Qed.
Lemma bound_or_never known h op : (exists f, bound_last known h op f) \/ never_bound known h op.
Proof.
  induction h as [|e h IH] using rev_ind; [right; intros h1 e h2 g E; destruct h1; discriminate E|].
  destruct (binds_dec known h e op) as [(f & Hf) | Hn]; [left; exists f; now apply bound_new|].
  destruct IH as [(f & Hf) | Hf]; [left; exists f; now apply bound_keep|right; now apply never_keep].
Qed.
Lemma bound_one known h op f g : bound_last known h op f -> bound_last known h op g -> f = g.
Proof.
  revert f g. induction h as [|e h IH] using rev_ind; intros f g (h1 & e1 & h2 & E1 & B1 & L1) (h3 & e3 & h4 & E3 & B3 & L3); [destruct h1; discriminate E1|].
  apply snoc_split in E1 as [(-> & -> & ->) | (h5 & -> & ->)]; apply snoc_split in E3 as [(-> & -> & ->) | (h6 & -> & E3)].
  - eapply binds_fun; eauto.
  - subst h. exfalso. apply (L3 h6 e [] f eq_refl). exact B1.
  - exfalso. apply (L1 h5 e [] g eq_refl). exact B3.
  - apply IH; [exists h1, e1, h5|exists h3, e3, h6]; (split; [now rewrite ?E3|]); (split; [assumption|]).
    + intros h7 e' h8 g' ->. apply (L1 h7 e' (h8 ++ [e])). now rewrite <- app_assoc.
    + intros h7 e' h8 g' ->. apply (L3 h7 e' (h8 ++ [e])). now rewrite <- app_assoc.
Qed.
Lemma bound_not_never known h op f : bound_last known h op f -> never_bound known h op -> False.
Proof. intros (h1 & e & h2 & -> & H & _) N. exact (N _ _ _ _ eq_refl H). Qed.

Definition route_inv (ms : list method) (h : list routing) (s : rstate) : Prop :=
  Forall2 same_but_function ms (fst s) /\
  Forall2 (fun op k => place_of ms op = Ok k) (decorators (map m_op ms) h) (snd s) /\
  forall i m m', nth_error ms i = Some m -> nth_error (fst s) i = Some m' ->
    (place_of ms (m_op m) = Ok i ->
       (forall f, bound_last (map m_op ms) h (m_op m) f -> m_fn m' = Some f) /\ (never_bound (map m_op ms) h (m_op m) -> m' = m)) /\
    (place_of ms (m_op m) <> Ok i -> m' = m).
Lemma forall2_nth {A B} (R : A -> B -> Prop) l l' i a : Forall2 R l l' -> nth_error l i = Some a -> exists b, nth_error l' i = Some b /\ R a b.
Proof. intros H. revert i. induction H as [|x y l l' Hxy _ IH]; intros [|i] E; try discriminate E; cbn in *; [injection E as <-; eauto|auto]. Qed.
Lemma forall2_nth' {A B} (R : A -> B -> Prop) l l' i b : Forall2 R l l' -> nth_error l' i = Some b -> exists a, nth_error l i = Some a /\ R a b.
Proof. intros H. revert i. induction H as [|x y l l' Hxy _ IH]; intros [|i] E; try discriminate E; cbn in *; [injection E as <-; eauto|auto]. Qed.
Lemma refl_forall2 {A} (R : A -> A -> Prop) l : (forall a, R a a) -> Forall2 R l l.
Proof. intros H. induction l; constructor; auto. Qed.
Lemma route_ok ms h : route_inv ms h (run_routing (ms, []) h).
Proof.
  induction h as [|e h IH] using rev_ind.
  - split; [apply refl_forall2, sbf_refl|]. split; [constructor|]. intros i m m' H1 H2. cbn in H2. assert (m' = m) by congruence. subst m'. split; [|auto]. intros _. split; auto.
    intros f (h1 & e & h2 & E & _). destruct h1; discriminate E.
  - rewrite run_app. cbn [run_routing]. destruct (run_routing (ms, []) h) as [ms' ds] eqn:E. destruct IH as (I1 & I2 & I3). cbn [fst snd] in I1, I2, I3.
    assert (Hnb : (forall op, e = RRoute op -> forall op' g, ~ binds (map m_op ms) h e op' g)) by (intros op -> op' g (k & [=] & _)).
    destruct e as [op|k f]; cbn [do_routing].
    + assert (Hkeep : forall i m m', nth_error ms i = Some m -> nth_error ms' i = Some m' ->
        (place_of ms (m_op m) = Ok i -> (forall f, bound_last (map m_op ms) (h ++ [RRoute op]) (m_op m) f -> m_fn m' = Some f) /\ (never_bound (map m_op ms) (h ++ [RRoute op]) (m_op m) -> m' = m)) /\
        (place_of ms (m_op m) <> Ok i -> m' = m)).
      { intros i m m' H1 H2. destruct (I3 i m m' H1 H2) as (J1 & J2). split; [|exact J2]. intros Hp. destruct (J1 Hp) as (K1 & K2). split.
        - intros f Hf. destruct (bound_or_never (map m_op ms) h (m_op m)) as [(g & Hg) | Hn].
          + rewrite (K1 g Hg). f_equal. apply (bound_one _ _ _ g f (bound_keep _ _ _ _ _ Hg (Hnb op eq_refl _)) Hf).
          + exfalso. exact (bound_not_never _ _ _ _ Hf (never_keep _ _ _ _ Hn (Hnb op eq_refl _))).
        - intros Hn. apply K2. intros h1 e' h2 g ->. apply (Hn h1 e' (h2 ++ [RRoute op])). now rewrite <- app_assoc. }
      rewrite (place_ext ms ms' op (sbf_map _ _ I1)). destruct (in_dec string_dec op (map m_op ms)) as [Hin|Hout].
      * destruct (place_some ms op Hin) as (k & Hk). rewrite Hk. cbn [fst run_routing]. split; [exact I1|]. split; [|exact Hkeep].
        rewrite decorators_app. cbn [decorators]. destruct (in_dec string_dec op (map m_op ms)); [|contradiction]. cbn [snd]. apply Forall2_app; [exact I2|]. now repeat constructor.
      * rewrite (proj2 (place_none ms op) Hout). cbn [fst run_routing]. split; [exact I1|]. split; [|exact Hkeep].
        rewrite decorators_app. cbn [decorators]. destruct (in_dec string_dec op (map m_op ms)); [contradiction|]. rewrite app_nil_r. exact I2.
    + destruct (nth_error ds k) as [j|] eqn:Ek.
      * destruct (forall2_nth' _ _ _ _ _ I2 Ek) as (op & Hop & Hpl). cbn [fst run_routing].
        assert (Hb : binds (map m_op ms) h (RBind k f) op f) by (exists k; auto).
        split; [apply change_forall2; [intros a b; apply sbf_set|exact I1]|]. split; [rewrite decorators_app; cbn [decorators]; now rewrite app_nil_r|].
        cbn [fst]. intros i m m' H1 H2. rewrite change_nth in H2. destruct (Nat.eqb_spec i j) as [->|Hij].
        -- destruct (place_first _ _ _ Hpl) as (m0 & G1 & G2 & _). assert (m0 = m) by congruence. subst m0 op.
           split; [|intros Hne; congruence]. intros _. destruct (nth_error ms' j) as [m1|]; [|discriminate H2]. injection H2 as <-. split.
           ++ intros g Hg. cbn [m_fn set_fn]. f_equal. eapply bound_one; [apply bound_new; exact Hb|exact Hg].
           ++ intros Hn. exfalso. exact (Hn h (RBind k f) [] f eq_refl Hb).
        -- destruct (I3 i m m' H1 H2) as (J1 & J2). split; [|exact J2]. intros Hp. destruct (J1 Hp) as (K1 & K2).
           assert (Hno : forall g, ~ binds (map m_op ms) h (RBind k f) (m_op m) g).
           { intros g (k' & [= <- <-] & Hd). assert (op = m_op m) by congruence. subst op. congruence. }
           split.
           ++ intros g Hg. destruct (bound_or_never (map m_op ms) h (m_op m)) as [(g' & Hg') | Hn].
              ** rewrite (K1 g' Hg'). f_equal. apply (bound_one _ _ _ g' g (bound_keep _ _ _ _ _ Hg' Hno) Hg).
              ** exfalso. exact (bound_not_never _ _ _ _ Hg (never_keep _ _ _ _ Hn Hno)).
           ++ intros Hn. apply K2. intros h1 e' h2 g' ->. apply (Hn h1 e' (h2 ++ [RBind k f])). now rewrite <- app_assoc.
      * cbn [fst run_routing]. split; [exact I1|]. split; [rewrite decorators_app; cbn [decorators]; now rewrite app_nil_r|].
        intros i m m' H1 H2. destruct (I3 i m m' H1 H2) as (J1 & J2). split; [|exact J2]. intros Hp. destruct (J1 Hp) as (K1 & K2).
        assert (Hno : forall g, ~ binds (map m_op ms) h (RBind k f) (m_op m) g).
        { intros g (k' & [= <- <-] & Hd). destruct (forall2_nth _ _ _ _ _ I2 Hd) as (b & Hb & _). congruence. }
        split.
        -- intros g Hg. destruct (bound_or_never (map m_op ms) h (m_op m)) as [(g' & Hg') | Hn].
           ++ rewrite (K1 g' Hg'). f_equal. apply (bound_one _ _ _ g' g (bound_keep _ _ _ _ _ Hg' Hno) Hg).
           ++ exfalso. exact (bound_not_never _ _ _ _ Hg (never_keep _ _ _ _ Hn Hno)).
        -- intros Hn. apply K2. intros h1 e' h2 g' ->. apply (Hn h1 e' (h2 ++ [RBind k f])). now rewrite <- app_assoc.
Qed.

Lemma route_last ms h op m : first_with (fun m => m_op m = op) ms m ->
  exists m', first_with (fun m => m_op m = op) (routed ms h) m' /\ same_but_function m m' /\
    (forall f, bound_last (map m_op ms) h op f -> m_fn m' = Some f) /\ (never_bound (map m_op ms) h op -> m_fn m' = m_fn m).
Proof.
  intros Hm. apply first_place in Hm as (k & Hk & Hm). destruct (route_ok ms h) as (I1 & _ & I3). destruct (place_first _ _ _ Hk) as (m0 & G1 & G2 & _).
  assert (m0 = m) by congruence. subst m0 op. destruct (forall2_nth _ _ _ _ _ I1 Hm) as (m' & Hm' & Hs). exists m'.
  destruct (I3 k m m' Hm Hm') as (J1 & _). destruct (J1 Hk) as (K1 & K2).
  split; [apply first_place; exists k; split; [now rewrite (place_ext _ _ _ (sbf_map _ _ I1))|exact Hm']|]. split; [exact Hs|]. split; [exact K1|]. intros Hn. now rewrite (K2 Hn).
Qed.
Lemma route_frame ms h : length (routed ms h) = length ms /\
  forall i m, nth_error ms i = Some m -> never_bound (map m_op ms) h (m_op m) \/ (exists j m0, j < i /\ nth_error ms j = Some m0 /\ m_op m0 = m_op m) -> nth_error (routed ms h) i = Some m.
Proof.
  destruct (route_ok ms h) as (I1 & _ & I3). split; [unfold routed; symmetry; clear I3; induction I1; cbn; congruence|].
  intros i m Hm Hor. destruct (forall2_nth _ _ _ _ _ I1 Hm) as (m' & Hm' & _). unfold routed. rewrite Hm'. f_equal. destruct (I3 i m m' Hm Hm') as (J1 & J2).
  destruct (place_some ms (m_op m)) as (k & Hk); [apply in_map; eapply nth_error_In; exact Hm|]. destruct (Nat.eq_dec k i) as [->|Hne]; [|apply J2; congruence].
  destruct Hor as [Hn | (j & m0 & Hj & Hm0 & He)]; [now apply (J1 Hk)|]. destruct (place_first _ _ _ Hk) as (_ & _ & _ & F). exfalso. exact (F j m0 Hj Hm0 He).
Qed.
Lemma route_unknown ms h op : ~ In op (map m_op ms) ->
  do_routing (run_routing (ms, []) h) (RRoute op) = (run_routing (ms, []) h, Err (Exn EStopIteration "")).
Proof.
  intros H. destruct (route_ok ms h) as (I1 & _). destruct (run_routing (ms, []) h) as [ms' ds]. cbn [fst] in I1. cbn [do_routing].
  rewrite (place_ext _ _ _ (sbf_map _ _ I1)). now rewrite (proj2 (place_none ms op) H).
Qed.
Lemma route_returns ms h k f op : nth_error (decorators (map m_op ms) h) k = Some op ->
  snd (do_routing (run_routing (ms, []) h) (RBind k f)) = Ok (Some f).
Proof.
  intros H. destruct (route_ok ms h) as (_ & I2 & _). destruct (run_routing (ms, []) h) as [ms' ds]. cbn [snd] in I2. cbn [do_routing].
  destruct (forall2_nth _ _ _ _ _ I2 H) as (j & -> & _). reflexivity.
Qed.
Lemma route_known ms h op : In op (map m_op ms) -> snd (do_routing (run_routing (ms, []) h) (RRoute op)) = Ok None.
Proof.
  intros H. destruct (route_ok ms h) as (I1 & _). destruct (run_routing (ms, []) h) as [ms' ds]. cbn [fst] in I1. cbn [do_routing].
  rewrite (place_ext _ _ _ (sbf_map _ _ I1)). destruct (place_some ms op H) as (k & ->). reflexivity.
Qed.
(** With different operation names, which function each method has. *)
Lemma route_each ms h m' : NoDup (map m_op ms) -> In m' (routed ms h) ->
  exists m, In m ms /\ same_but_function m m' /\
   forall f, m_fn m' = Some f -> bound_last (map m_op ms) h (m_op m') f \/ never_bound (map m_op ms) h (m_op m') /\ m_fn m = Some f.
Proof.
  intros ND Hin. destruct (In_nth_error _ _ Hin) as (i & Hi). destruct (route_ok ms h) as (I1 & _ & I3). destruct (forall2_nth' _ _ _ _ _ I1 Hi) as (m & Hm & Hs).
  exists m. destruct Hs as (Hop & Hs). split; [eapply nth_error_In; exact Hm|]. split; [split; [exact Hop|exact Hs]|]. intros f Hf. rewrite Hop.
  destruct (place_some ms (m_op m)) as (k & Hk); [apply in_map; eapply nth_error_In; exact Hm|]. assert (k = i).
  { destruct (place_first _ _ _ Hk) as (m0 & G1 & G2 & _). apply (proj1 (NoDup_nth_error (map m_op ms)) ND); [apply nth_error_Some; rewrite (map_nth_error _ _ _ G1); discriminate|].
    rewrite (map_nth_error _ _ _ G1), (map_nth_error _ _ _ Hm). congruence. }
  subst k. destruct (I3 i m m' Hm Hi) as (J1 & _). destruct (J1 Hk) as (K1 & K2). destruct (bound_or_never (map m_op ms) h (m_op m)) as [(g & Hg) | Hn].
  - left. rewrite (K1 g Hg) in Hf. injection Hf as <-. exact Hg.
  - right. split; [exact Hn|]. now rewrite <- (K2 Hn).
Qed.
Lemma route_dispatch {W} P (D : dispatcher W) ms h w rq w' tr r : NoDup (map m_op ms) -> dispatch P (with_methods D (routed ms h)) w rq = (w', tr, r) ->
  forall f body, In (ECalled f body) tr ->
  exists m t, In m ms /\ input_type P D m t /\ (exists x, pf_valid P x = Ok tt /\ read_as P t x = Ok body) /\
    (bound_last (map m_op ms) h (m_op m) f \/ never_bound (map m_op ms) h (m_op m) /\ m_fn m = Some f).
Proof.
  intros ND Hd f body Hin. apply in_split in Hin as (before & after & ->). destruct (dispatch_calls _ _ _ _ _ _ _ _ Hd before f body after eq_refl) as (b' & x & m' & t & _ & Hx & Hm & Hf & Ht & Hr).
  cbn [d_service with_methods sv_methods] in Hm. destruct (route_each ms h m' ND Hm) as (m & Hm0 & Hs & Hor). exists m, t. split; [exact Hm0|].
  destruct Hs as (S1 & S2 & S3 & _). split; [unfold input_type in *; cbn [d_service with_methods sv_schemas] in Ht; now rewrite S3 in Ht|]. split; [now exists x|]. rewrite S1 in Hor. now apply Hor.
Qed.
Lemma route_reaches {W} P (D : dispatcher W) ms h rq rq' f : NoDup (map m_op ms) -> reaches_handler P (with_methods D (routed ms h)) rq rq' f ->
  exists m m', In m ms /\ same_but_function m m' /\ rq_method rq' = Some m' /\
    (bound_last (map m_op ms) h (m_op m) f \/ never_bound (map m_op ms) h (m_op m) /\ m_fn m = Some f).
Proof.
  intros ND (x & hd & m' & t & h' & _ & _ & _ & Hfind & Hf & _ & _ & _ & _ & Hm & _). apply find_in in Hfind. cbn [d_service with_methods sv_methods] in Hfind.
  destruct (route_each ms h m' ND Hfind) as (m & Hm0 & Hs & Hor). exists m, m'. repeat (split; [assumption|]). destruct Hs as (S1 & _). rewrite S1 in Hor. now apply Hor.
Qed.
