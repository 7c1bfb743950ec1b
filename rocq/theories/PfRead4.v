(** A document says one thing only; and classes read what is written for them. *)
From Coq Require Import String Ascii List ZArith NArith Bool Lia.
From Verif Require Import PyBase PyRe Xml PyVal XsdSimple XsdComplex LibClasses Py2Xsd SpecXsd SpecSimple SpecDate SpecRound SpecTotal SpecValid SpecGiven SpecRead PfBase PfValid PfValid2 PfRead PfRead2 PfRead3.
From Verif Require PfXsd2 PfValid4.
Import ListNotations.
Open Scope nat_scope.
Open Scope string_scope.
Open Scope list_scope.

(** ** Texts *)
Lemma zone_one l a b : zone_is l a -> zone_is l b -> a = b.
Proof.
  intros [(-> & ->) | [(-> & ->) | (m & Hm & ->)]] [(E & ->) | [(E & ->) | (m' & Hm' & ->)]]; try reflexivity; try discriminate E.
  - destruct Hm' as (sg & h1 & h2 & m1 & m2 & E & _). discriminate E.
  - destruct Hm' as (sg & h1 & h2 & m1 & m2 & E & _). discriminate E.
  - destruct Hm as (sg & h1 & h2 & m1 & m2 & -> & _). discriminate E.
  - destruct Hm as (sg & h1 & h2 & m1 & m2 & -> & _). discriminate E.
  - destruct Hm as (sg & h1 & h2 & m1 & m2 & -> & _ & _ & _ & H1). destruct Hm' as (sg' & h1' & h2' & m1' & m2' & E & _ & _ & _ & H2).
    injection E as <- <- <- <- <-. do 2 f_equal. destruct H1 as [(-> & ->) | (-> & ->)], H2 as [(C & ->) | (C & ->)]; try reflexivity; discriminate C.
Qed.
Lemma app_eq_len {A} (a b c d : list A) : a ++ c = b ++ d -> length a = length b -> a = b /\ c = d.
Proof.
  revert b. induction a as [|x a IH]; intros [|y b] E L; try discriminate L; [auto|]. cbn in E. injection E as <- E. destruct (IH b E ltac:(now injection L)) as (-> & ->). auto.
Qed.
Lemma day_split day zone day' zone' y m d y' m' d' : day ++ zone = day' ++ zone' -> day_is day y m d -> day_is day' y' m' d' -> zone = zone' /\ y = y' /\ m = m' /\ d = d'.
Proof.
  intros E (ys & m1 & m2 & d1 & d2 & -> & L & -> & -> & ->) (ys' & m1' & m2' & d1' & d2' & -> & L' & -> & -> & ->).
  rewrite <- !app_assoc in E. destruct (app_eq_len ys ys' _ _ E ltac:(lia)) as (-> & E2). injection E2 as <- <- <- <- <-. auto.
Qed.
Lemma zone_front l tz c r : zone_is l tz -> l = c :: r -> c = "Z"%char \/ c = "+"%char \/ c = "-"%char.
Proof.
  intros [(-> & _) | [(-> & _) | (m & (sg & h1 & h2 & m1 & m2 & -> & _ & _ & _ & H) & _)]] E; [discriminate E|injection E as <- _; auto|].
  injection E as <- _. destruct H as [(-> & _) | (-> & _)]; auto.
Qed.
Lemma digits_split ds ds' l l' tz tz' : digits ds -> digits ds' -> zone_is l tz -> zone_is l' tz' -> ds ++ l = ds' ++ l' -> ds = ds' /\ l = l'.
Proof.
  revert ds'. induction ds as [|c ds IH]; intros [|c' ds'] H H' Hz Hz' E; cbn [app] in E.
  - auto.
  - exfalso. destruct (zone_front _ _ _ _ Hz E) as [-> | [-> | ->]]; discriminate H'.
  - exfalso. symmetry in E. destruct (zone_front _ _ _ _ Hz' E) as [-> | [-> | ->]]; discriminate H.
  - injection E as <- E. unfold digits in *. cbn [forallb] in H, H'. apply andb_true_iff in H as (_ & H). apply andb_true_iff in H' as (_ & H').
    destruct (IH ds' H H' Hz Hz' E) as (-> & ->). auto.
Qed.
Lemma clock_split k z k' z' tz tz' h m sc us h' m' sc' us' : k ++ z = k' ++ z' -> clock_is k h m sc us -> clock_is k' h' m' sc' us' -> zone_is z tz -> zone_is z' tz' ->
  z = z' /\ h = h' /\ m = m' /\ sc = sc' /\ us = us'.
Proof.
  intros E (h1 & h2 & m1 & m2 & s1 & s2 & fr & -> & -> & -> & -> & F) (h1' & h2' & m1' & m2' & s1' & s2' & fr' & -> & -> & -> & -> & F') Hz Hz'.
  cbn [app] in E. injection E as <- <- <- <- <- <- E.
  destruct F as [(-> & ->) | (ds & -> & Hd & _ & ->)], F' as [(-> & ->) | (ds' & -> & Hd' & _ & ->)]; cbn [app] in E.
  - auto.
  - exfalso. destruct (zone_front _ _ _ _ Hz E) as [C | [C | C]]; discriminate C.
  - exfalso. symmetry in E. destruct (zone_front _ _ _ _ Hz' E) as [C | [C | C]]; discriminate C.
  - injection E as E. destruct (digits_split ds ds' z z' tz tz' Hd Hd' Hz Hz' E) as (-> & ->). auto.
Qed.
Lemma stands_one O u s v v' : stands_for O u s v -> stands_for O u s v' -> v = v'.
Proof.
  destruct 1 as [c f s| | |c f s x Hx|c f s z Hz|s day zone y m d tz E Hd Hz|s k zone h m sc us tz E Hk Hz|s day k zone y mo d h m sc us tz E Hd Hk Hz];
    intros H'; inversion H' as [c' f' s'| | |c' f' s' x' Hx'|c' f' s' z' Hz'|s' day' zone' y' m' d' tz' E' Hd' Hz'|s' k' zone' h' m' sc' us' tz' E' Hk' Hz'|s' day' k' zone' y' mo' d' h' m' sc' us' tz' E' Hd' Hk' Hz']; subst; try reflexivity.
  - rewrite Hx in Hx'. now injection Hx' as <-.
  - f_equal. exact (PfValid4.whole_unique _ _ _ Hz Hz').
  - rewrite E in E'. destruct (day_split _ _ _ _ _ _ _ _ _ _ E' Hd Hd') as (<- & <- & <- & <-). now rewrite (zone_one _ _ _ Hz Hz').
  - rewrite E in E'. destruct (clock_split _ _ _ _ _ _ _ _ _ _ _ _ _ _ E' Hk Hk' Hz Hz') as (<- & <- & <- & <- & <-). now rewrite (zone_one _ _ _ Hz Hz').
  - rewrite E in E'. destruct (day_split _ _ _ _ _ _ _ _ _ _ E' Hd Hd') as (E2 & <- & <- & <-). injection E2 as E2.
    destruct (clock_split _ _ _ _ _ _ _ _ _ _ _ _ _ _ E2 Hk Hk' Hz Hz') as (<- & <- & <- & <- & <-). now rewrite (zone_one _ _ _ Hz Hz').
Qed.

(** ** Elements *)
Lemma assoc_same {A} (fs gs : list (string * A)) : NoDup (map fst fs) -> map fst fs = map fst gs ->
  (forall k, In k (map fst fs) -> assoc k fs = assoc k gs) -> fs = gs.
Proof.
  revert gs. induction fs as [|[k v] fs IH]; intros [|[k' v'] gs] Hn E H; try discriminate E; [reflexivity|].
  cbn [map fst] in E, Hn. injection E as <- E. inversion Hn as [|? ? Hk Hn']; subst. pose proof (H k (or_introl eq_refl)) as Hv. cbn [assoc] in Hv. rewrite String.eqb_refl in Hv. injection Hv as <-.
  f_equal. apply IH; [exact Hn'|exact E|]. intros j Hj. specialize (H j (or_intror Hj)). cbn [assoc] in H.
  assert (X : String.eqb j k = false) by (apply String.eqb_neq; intros ->; contradiction). now rewrite X in H.
Qed.
Lemma says_one O E s : (forall c d, e_cls E c = Some d -> NoDup (map f_name (cd_fields d))) ->
  forall t x v v', says O E s t x v -> says O E s t x v' -> v = v'.
Proof.
  intros HN.
  assert (X : forall n t x v v', height x < n -> says O E s t x v -> says O E s t x v' -> v = v').
  { induction n as [|n IH]; intros t x v v' Hh H H'; [lia|].
    destruct H as [u x Hk|u x w v Hk Hw|c d x fs Ed Hf Hall]; inversion H' as [u' x' Hk'|u' x' w' v0 Hk' Hw'|c' d' x' fs' Ed' Hf' Hall']; subst.
    - reflexivity.
    - congruence.
    - congruence.
    - rewrite Hk in Hk'. injection Hk' as <-. exact (stands_one O u w v v' Hw Hw').
    - rewrite Ed in Ed'. injection Ed' as <-. f_equal. apply assoc_same; [rewrite Hf; exact (HN c d Ed)|congruence|].
      intros k Hk. rewrite Hf in Hk. apply in_map_iff in Hk as (f & <- & Hin).
      destruct (Hall f Hin) as (a & Ha & Ho). destruct (Hall' f Hin) as (b & Hb & Ho'). rewrite Ha, Hb. f_equal.
      assert (Hl : forall y, In y (called s (tag_or_name f) (el_children x)) -> height y < n).
      { intros y Hy. apply called_in in Hy as (Hy & _). apply height_child in Hy. lia. }
      revert Ho Ho' Hl. generalize (called s (tag_or_name f) (el_children x)). clear - IH. intros xs Ho Ho' Hl.
      destruct Ho as [f Hk|f x Hk Hn|f x v Hk Hn Hv|f xs vs Hk Hvs]; inversion Ho' as [f' Hk'|f' x' Hk' Hn'|f' x' v' Hk' Hn' Hv'|f' xs' vs' Hk' Hvs']; subst; try congruence; try contradiction.
      + apply (IH (f_type f) x); [apply Hl; now left|exact Hv|exact Hv'].
      + f_equal. clear - IH Hvs Hvs' Hl. revert vs' Hvs'. induction Hvs as [|x v xs vs Hx _ IHv]; intros vs' Hvs'; inversion Hvs' as [|x' v' xs' vs0 Hx' Hrest]; subst; [reflexivity|].
        f_equal.
        * destruct Hx as [(Hn & ->) | (Hn & Hx)], Hx' as [(Hn' & ->) | (Hn' & Hx')]; try contradiction; [reflexivity|].
          apply (IH (f_type f) x); [apply Hl; now left|exact Hx|exact Hx'].
        * apply IHv; [intros y Hy; apply Hl; now right|exact Hrest]. }
  intros t x v v'. exact (X (S (height x)) t x v v' (Nat.lt_succ_diag_r _)).
Qed.

Lemma valid_reads_doc O lim E G j s mean name el c x n : reads_numbers O -> schema_describable O E G s -> schema_ok mean E G s -> schema_readable O E G s ->
  In (name, el) (gs_elements s) -> ge_type el = TComplex c -> el_tag x = clark (gs_tns s) name -> spelled E s (TComplex c) x -> height x < n ->
  exists doc, generate_xsd (8 + j) O (lib_env lim) E G s = Ok doc /\
    (valid mean doc x -> exists v, parse_obj n O E c x = Ok v /\ says O E s (TComplex c) x v).
Proof.
  intros HO HD HS HR Hin Ht Hx Hs Hn. eexists. split; [exact (PfXsd2.generate_ok O lim E G j s HD)|]. intros Hv.
  exact (valid_reads O E G s mean HO HS HR name el c x n Hin Ht Hx Hv Hs Hn).
Qed.
