(** The matcher of PyRe agrees with the relational meaning. *)
From Coq Require Import String Ascii List ZArith NArith Bool Lia.
From Verif Require Import PyBase PfBase PyRe.
Import ListNotations.

Lemma rm_progress r s s' : rm r s s' ->
  (length (snd s') <= length (snd s))%nat /\ (length (snd s') = length (snd s) -> s' = s).
Proof.
  induction 1; try assumption; simpl; try (split; [lia|]; solve [auto | lia]).
  - destruct IHrm1 as [A1 A2], IHrm2 as [B1 B2]. split; [lia|]. intros E.
    rewrite B2 by lia. apply A2. lia.
  - destruct IHrm1 as [A1 A2], IHrm2 as [B1 B2]. split; [lia|]. intros E.
    rewrite B2 by lia. apply A2. lia.
Qed.

Lemma star_ends_sound a : (forall s s', In s' (ends a s) -> rm a s s') ->
  forall fuel s s', In s' (star_ends (ends a) fuel s) -> rm (RStar a) s s'.
Proof.
  intros IH. induction fuel as [|f IHf]; intros s s'; simpl.
  - intros [<-|[]]. apply rm_star_nil.
  - intros [<-|H]; [apply rm_star_nil|].
    apply in_flat_map in H as (s1 & H1 & H2).
    destruct (Nat.ltb _ _); [|destruct H2].
    eapply rm_star_cons; [apply IH; exact H1 | apply IHf; exact H2].
Qed.

Lemma ends_sound r : forall s s', In s' (ends r s) -> rm r s s'.
Proof.
  induction r; intros [bol l] s'; simpl.
  - intros [<-|[]]. constructor.
  - destruct l as [|c t]; [intros []|]. destruct (p c) eqn:E; [|intros []].
    intros [<-|[]]. now constructor.
  - destruct bol; [|intros []]. intros [<-|[]]. constructor.
  - destruct l as [|c [|c2 t]].
    + intros [<-|[]]. constructor.
    + destruct (Ascii.eqb_spec c nl); [|intros []]. subst. intros [<-|[]]. constructor.
    + intros [].
  - intros H. apply in_flat_map in H as (s1 & H1 & H2). econstructor; eauto.
  - intros H. apply in_app_or in H as [H|H]; [apply rm_alt_l | apply rm_alt_r]; auto.
  - intros H. apply (star_ends_sound r IHr (length l) (bol, l)). exact H.
  - intros H. constructor. auto.
Qed.

Lemma star_ends_complete a : (forall s s', rm a s s' -> In s' (ends a s)) ->
  forall s s', rm (RStar a) s s' ->
  forall fuel, (length (snd s) <= fuel)%nat -> In s' (star_ends (ends a) fuel s).
Proof.
  intros IH s s' H. remember (RStar a) as r eqn:E. induction H; try discriminate.
  - intros fuel _. destruct fuel; simpl; auto.
  - injection E as ->. intros fuel Hf.
    destruct (rm_progress _ _ _ H) as [P1 P2].
    destruct (Nat.eq_dec (length (snd s1)) (length (snd s))) as [Eq|Ne].
    + rewrite (P2 Eq) in *. apply IHrm2; auto.
    + destruct fuel as [|f]; [lia|]. simpl. right. apply in_flat_map.
      exists s1. split; [apply IH; assumption|].
      replace (Nat.ltb (length (snd s1)) (length (snd s))) with true
        by (symmetry; apply Nat.ltb_lt; lia).
      apply IHrm2; auto. lia.
Qed.

Lemma ends_complete r : forall s s', rm r s s' -> In s' (ends r s).
Proof.
  induction r; intros s s' H.
  - inversion H; subst. simpl; auto.
  - inversion H; subst. simpl.
    match goal with H : p _ = true |- _ => rewrite H end. simpl; auto.
  - inversion H; subst. simpl; auto.
  - inversion H; subst; simpl; auto.
  - inversion H; subst. simpl. apply in_flat_map. eauto.
  - inversion H; subst; simpl; apply in_or_app; auto.
  - simpl. eapply star_ends_complete; eauto.
  - inversion H; subst. simpl; auto.
Qed.

Lemma re_match_iff r s : re_match r s = true <-> exists s', rm r (true, to_l s) s'.
Proof.
  unfold re_match. destruct (ends r (true, to_l s)) as [|x xs] eqn:E; split.
  - discriminate.
  - intros (s' & H). apply ends_complete in H. rewrite E in H. destruct H.
  - intros _. exists x. apply ends_sound. rewrite E. now left.
  - reflexivity.
Qed.

Lemma dollar_inv s s' : rm REol s s' -> s' = s /\ (snd s = [] \/ snd s = [nl]).
Proof. inversion 1; subst; auto. Qed.

Lemma match_dollar_no_alt r s : no_top_alt r = true ->
  re_match (append_dollar r) s = true <-> full_match r (to_l s) \/ full_match_nl r (to_l s).
Proof.
  intros Hr. rewrite re_match_iff.
  assert (E : append_dollar r = RSeq r REol) by (destruct r; auto; discriminate).
  rewrite E. split.
  - intros (s' & H). inversion H as [| | | | |? ? ? s1 ? Ha Hb| | | | |]; subst.
    apply dollar_inv in Hb as [-> [L|L]]; destruct s1 as [b l1]; simpl in L; subst.
    + left. now exists b.
    + right. now exists b.
  - intros [(b & H)|(b & H)].
    + exists (b, []). econstructor; [exact H | constructor].
    + exists (b, [nl]). econstructor; [exact H | constructor].
Qed.

Lemma alts_nonnil r : alts r <> [].
Proof. destruct r; discriminate. Qed.

(** With top-level alternatives only the last one is anchored. *)
Lemma match_dollar_alts r s :
  re_match (append_dollar r) s = true <->
  (exists a s', In a (removelast (alts r)) /\ rm a (true, to_l s) s')
  \/ full_match (last (alts r) REps) (to_l s) \/ full_match_nl (last (alts r) REps) (to_l s).
Proof.
  assert (G : forall r, (forall a b, r <> RAlt a b) ->
    re_match (append_dollar r) s = true <->
    (exists a s', In a (removelast [r]) /\ rm a (true, to_l s) s')
    \/ full_match (last [r] REps) (to_l s) \/ full_match_nl (last [r] REps) (to_l s)).
  { intros r0 Hr. rewrite match_dollar_no_alt.
    - simpl. split; [auto|]. intros [(a & s' & [] & _)|H]; auto.
    - destruct r0; auto. exfalso. eapply Hr; reflexivity. }
  induction r; try (apply G; congruence).
  cbn [append_dollar alts].
  assert (Hn := alts_nonnil r2).
  destruct (alts r2) as [|x xs] eqn:E; [congruence|].
  change (removelast (r1 :: x :: xs)) with (r1 :: removelast (x :: xs)).
  change (last (r1 :: x :: xs) REps) with (last (x :: xs) REps).
  rewrite re_match_iff. rewrite re_match_iff in IHr2.
  split.
  - intros (s' & H). inversion H; subst.
    + left. exists r1, s'. split; [now left|assumption].
    + destruct IHr2 as [IH _]. destruct IH as [(a & s2 & Ha & Hm)|H']; eauto.
      left. exists a, s2. split; [now right|assumption].
  - intros [(a & s' & [<-|Ha] & Hm)|H].
    + exists s'. now apply rm_alt_l.
    + destruct IHr2 as [_ IH]. destruct IH as (s2 & H2); [left; eauto|].
      exists s2. now apply rm_alt_r.
    + destruct IHr2 as [_ IH]. destruct IH as (s2 & H2); [right; eauto|].
      exists s2. now apply rm_alt_r.
Qed.
