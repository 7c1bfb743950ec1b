(** Proofs about Date, DateTime, Time. *)
From Coq Require Import String Ascii List ZArith NArith Bool Lia.
From Coq Require Import ZifyBool ZifyN ZifyNat.
From Verif Require Import PyBase PfBase PyRe Xml PyVal XsdDate XsdSimple SpecDate.
Import ListNotations.
Ltac Zify.zify_post_hook ::= Z.div_mod_to_equations.
Open Scope Z_scope.

(** ** Calendar *)
Lemma is_leap_spec y : is_leap y = true <-> leap_year y.
Proof.
  unfold is_leap, leap_year. rewrite andb_true_iff, orb_true_iff, negb_true_iff, !Z.eqb_eq, Z.eqb_neq.
  lia.
Qed.
Lemma date_ok_spec y m d : date_ok y m d = true <-> calendar_date y m d.
Proof.
  unfold date_ok, calendar_date. rewrite !andb_true_iff, !Z.leb_le.
  assert (L : is_leap y = false <-> ~ leap_year y) by (rewrite <- is_leap_spec; destruct (is_leap y); split; congruence).
  pose proof (is_leap_spec y) as L'.
  split.
  - intros (((((H1 & H2) & H3) & H4) & H5) & H6).
    assert (C : m = 1 \/ m = 2 \/ m = 3 \/ m = 4 \/ m = 5 \/ m = 6 \/ m = 7 \/ m = 8 \/ m = 9
              \/ m = 10 \/ m = 11 \/ m = 12) by lia.
    repeat (split; [lia|]).
    destruct C as [-> |[-> |[-> |[-> |[-> |[-> |[-> |[-> |[-> |[-> |[-> | -> ]]]]]]]]]]];
      cbn [days_in_month] in H6; try (left; split; [simpl; tauto | exact H6]);
      try (right; left; split; [simpl; tauto | exact H6]).
    destruct (is_leap y); right; right; [left|right]; (split; [reflexivity|]); (split; [tauto|lia]).
  - intros (H1 & H2 & H).
    assert (days_in_month y m >= d /\ 1 <= m <= 12).
    { destruct H as [[H3 H4]|[[H3 H4]|[(-> & H3 & H4)|(-> & H3 & H4)]]].
      - simpl in H3. destruct H3 as [<-|[<-|[<-|[<-|[<-|[<-|[<-|[]]]]]]]]; simpl; lia.
      - simpl in H3. destruct H3 as [<-|[<-|[<-|[<-|[]]]]]; simpl; lia.
      - apply L' in H3. simpl. rewrite H3. lia.
      - apply L in H3. simpl. rewrite H3. lia. }
    lia.
Qed.
Lemma calendar_bounds y m d : calendar_date y m d -> 1 <= y <= 9999 /\ 1 <= m <= 12 /\ 1 <= d <= 31.
Proof.
  intros H. apply date_ok_spec in H. unfold date_ok in H.
  rewrite !andb_true_iff, !Z.leb_le in H.
  assert (days_in_month y m <= 31).
  { unfold days_in_month. clear.
    repeat match goal with |- context [match ?x with _ => _ end] => destruct x end; lia. }
  lia.
Qed.
Lemma time_ok_spec h mi s us : time_ok h mi s us = true <-> clock_time h mi s us.
Proof.
  unfold time_ok, clock_time. rewrite !andb_true_iff, !Z.leb_le, !Z.ltb_lt. lia.
Qed.

(** ** Two-digit fields *)
Lemma fixed2 n : fixed_l 2 n = [digit_char (n / 10 mod 10); digit_char (n mod 10)].
Proof. reflexivity. Qed.
Lemma fixed2_digits n a b : fixed_l 2 n = [a; b] -> is_digit a = true /\ is_digit b = true.
Proof.
  intros H. pose proof (fixed_digits 2 n) as D. rewrite H in D. simpl in D.
  apply andb_true_iff in D as [D1 D2]. rewrite andb_true_r in D2. auto.
Qed.
Lemma fixed2_value n a b : (n < 100)%N -> fixed_l 2 n = [a; b] -> digits_value [a; b] = n.
Proof. intros Hn H. rewrite <- H. apply fixed_value. exact Hn. Qed.
Lemma fixed2_ex n : exists a b, fixed_l 2 n = [a; b].
Proof. rewrite fixed2. eauto. Qed.

Lemma fmt2_ex z : 0 <= z < 100 -> exists a b, fmt2 z = [a; b] /\ is_digit a = true /\ is_digit b = true
  /\ Z.of_N (digits_value [a; b]) = z.
Proof.
  intros H. unfold fmt2. destruct (fixed2_ex (Z.to_N z)) as (a & b & E). exists a, b.
  destruct (fixed2_digits _ _ _ E). repeat split; auto.
  rewrite (fixed2_value (Z.to_N z)); [lia | lia | exact E].
Qed.

Lemma fmt_year_ok O y : 1 <= y <= 9999 -> (1000 <= y \/ o_year_pad O = true) ->
  fmt_year O y = fixed_l 4 (Z.to_N y).
Proof.
  intros H H'. unfold fmt_year. destruct (Z.leb_spec 1000 y).
  - apply dec_l_eq_fixed; [lia | | right]; change (10 ^ N.of_nat 4)%N with 10000%N;
      change (10 ^ N.of_nat (4 - 1))%N with 1000%N; lia.
  - destruct H' as [C| ->]; [lia|reflexivity].
Qed.
Lemma fmt_year_short O y : 1 <= y < 1000 -> o_year_pad O = false -> (length (fmt_year O y) < 4)%nat.
Proof.
  intros H Hp. unfold fmt_year. destruct (Z.leb_spec 1000 y); [lia|]. rewrite Hp.
  destruct (dec_l_fixed (Z.to_N y)) as (k & Hk & Hn & -> & Hlo). rewrite fixed_length.
  destruct Hlo as [->|Hlo]; [lia|].
  destruct (Nat.le_gt_cases 4 k) as [C|C]; [|lia]. exfalso.
  assert (10 ^ N.of_nat 3 <= 10 ^ N.of_nat (k - 1))%N by (apply N.pow_le_mono_r; lia).
  change (10 ^ N.of_nat 3)%N with 1000%N in *. lia.
Qed.
Lemma fmt_year_digits O y : forallb is_digit (fmt_year O y) = true.
Proof.
  unfold fmt_year. destruct (1000 <=? y); [apply dec_l_digits|].
  destruct (o_year_pad O); [apply fixed_digits | apply dec_l_digits].
Qed.

(** ** Offsets *)
Lemma tz_string_form off : offset_ok off -> exists h1 h2 m1 m2,
  tz_string off = (if 0 <=? off then "+"%char else "-"%char) :: [h1; h2; ":"%char; m1; m2] /\
  forallb is_digit [h1; h2; m1; m2] = true /\
  Z.of_N (digits_value [h1; h2]) = tz_seconds off / 3600 /\
  Z.of_N (digits_value [m1; m2]) = tz_seconds off mod 3600 / 60 /\
  0 <= tz_seconds off <= 86400.
Proof.
  intros H. unfold offset_ok, day_us in H. unfold tz_string.
  assert (B : 0 <= tz_seconds off <= 86400).
  { unfold tz_seconds. pose proof (Z.div_lt_upper_bound off 1000000 86400).
    pose proof (Z.div_le_lower_bound off 1000000 (-86400)). lia. }
  set (s := tz_seconds off) in *. clearbody s.
  rewrite !pad2_fixed by lia.
  destruct (fixed2_ex (Z.to_N (s / 3600))) as (h1 & h2 & E1).
  destruct (fixed2_ex (Z.to_N (s mod 3600 / 60))) as (m1 & m2 & E2).
  rewrite E1, E2. exists h1, h2, m1, m2. split; [reflexivity|].
  destruct (fixed2_digits _ _ _ E1) as [D1 D2], (fixed2_digits _ _ _ E2) as [D3 D4].
  split; [simpl; now rewrite D1, D2, D3, D4|].
  rewrite (fixed2_value (Z.to_N (s / 3600)) h1 h2), (fixed2_value (Z.to_N (s mod 3600 / 60)) m1 m2)
    by (assumption || lia).
  repeat split; lia.
Qed.

Lemma tz_seconds_whole m : tz_seconds (m * minute_us) = Z.abs m * 60.
Proof.
  unfold tz_seconds, minute_us. replace (m * 60000000) with (m * 60 * 1000000) by lia.
  rewrite Z.div_mul by lia. lia.
Qed.

Lemma tz_string_suffix off : offset_ok off -> - 86399000000 <= off ->
  exists m, tz_suffix (tz_string off) m /\ (whole_minutes off -> m * minute_us = off) /\
    Z.abs (off - m * minute_us) < minute_us.
Proof.
  intros H Hlo. destruct (tz_string_form off H) as (h1 & h2 & m1 & m2 & E & D & Hh & Hm & B).
  set (s := tz_seconds off) in *.
  assert (Hs : s < 86400 /\ (0 <= off -> s * 1000000 <= off < (s + 1) * 1000000)
     /\ (off < 0 -> - s * 1000000 <= off < (1 - s) * 1000000)).
  { unfold s, tz_seconds, offset_ok, day_us in *. lia. }
  exists ((if 0 <=? off then 1 else -1) * (s / 60)).
  assert (Hv : s / 3600 * 60 + s mod 3600 / 60 = s / 60) by lia.
  split; [|split].
  - exists (if 0 <=? off then "+"%char else "-"%char), h1, h2, m1, m2.
    split; [exact E|]. split; [exact D|]. cbv zeta. rewrite Hh, Hm.
    split; [lia|]. split; [lia|]. rewrite Hv.
    destruct (Z.leb_spec 0 off); [left|right]; (split; [reflexivity|lia]).
  - intros (m & ->). unfold s. rewrite tz_seconds_whole. rewrite Z.div_mul by lia.
    unfold minute_us in *. destruct (Z.leb_spec 0 (m * 60000000)); lia.
  - unfold minute_us. destruct (Z.leb_spec 0 off); lia.
Qed.

Lemma tz_string_24 off : offset_ok off -> off < - 86399000000 ->
  of_l (tz_string off) = "-24:00"%string.
Proof.
  intros H Hlo. unfold tz_string. replace (0 <=? off) with false by lia.
  assert (E : tz_seconds off = 86400).
  { unfold tz_seconds, offset_ok, day_us in *. lia. }
  rewrite E. reflexivity.
Qed.

(** ** Reading back *)
Lemma at_eol_iff l : at_eol l = true <-> l = [] \/ l = [nl].
Proof.
  destruct l as [|c [|d t]]; simpl.
  - tauto.
  - rewrite Ascii.eqb_eq. split; [intros ->; auto|]. intros [C|C]; [discriminate|congruence].
  - split; [discriminate|]. intros [C|C]; discriminate.
Qed.
Lemma span_digits_app ds r : forallb is_digit ds = true ->
  match r with c :: _ => is_digit c = false | [] => True end ->
  span_digits (ds ++ r) = (ds, r).
Proof.
  intros H Hr. induction ds as [|c ds IH]; simpl.
  - destruct r as [|c r]; [reflexivity|]. simpl. now rewrite Hr.
  - simpl in H. apply andb_true_iff in H as [-> H]. now rewrite IH.
Qed.
Lemma span_digits_inv l ds r : span_digits l = (ds, r) ->
  l = ds ++ r /\ forallb is_digit ds = true /\ match r with c :: _ => is_digit c = false | [] => True end.
Proof.
  revert ds r. induction l as [|c l IH]; intros ds r; simpl.
  - intros [= <- <-]. auto.
  - destruct (is_digit c) eqn:E.
    + destruct (span_digits l) as [d' r'] eqn:S. intros [= <- <-].
      destruct (IH d' r' eq_refl) as (-> & H2 & H3). simpl. rewrite E. auto.
    + intros [= <- <-]. simpl. auto.
Qed.

Lemma digit_cases c : is_digit c = true -> c <> ":"%char /\ c <> nl /\ c <> "-"%char /\ c <> "+"%char /\ c <> "Z"%char.
Proof. intros H. repeat split; intros ->; discriminate. Qed.

Definition strip_colon (l : list ascii) : list ascii := match l with ":"%char :: x => x | _ => l end.
Lemma strip_colon_spec l : (exists x, l = ":"%char :: x /\ strip_colon l = x) \/
  ((forall x, l <> ":"%char :: x) /\ strip_colon l = l).
Proof.
  destruct l as [|c x]; [right; split; [discriminate|reflexivity]|].
  destruct (Ascii.eqb_spec c ":") as [->|N]; [left; eauto|].
  right. split; [congruence|].
  destruct c as [[] [] [] [] [] [] [] []]; try reflexivity. congruence.
Qed.

Lemma match_tz_Z c r : c <> "Z"%char ->
  match_tz (c :: r) = if at_eol (c :: r) then Some TzNone else
    match r with
    | h1 :: h2 :: r =>
      if (Ascii.eqb c "+" || Ascii.eqb c "-") && is_digit h1 && is_digit h2 then
        let hh := digits_value [h1; h2] in
        let neg := Ascii.eqb c "-" in
        let r' := strip_colon r in
        if at_eol r' then Some (TzOff neg hh None)
        else match r' with
             | m1 :: m2 :: r'' =>
                 if is_digit m1 && is_digit m2 && at_eol r''
                 then Some (TzOff neg hh (Some (digits_value [m1; m2])))
                 else None
             | _ => None
             end
      else None
    | _ => None
    end.
Proof.
  intros H. unfold match_tz. destruct (at_eol (c :: r)); [reflexivity|].
  destruct c as [[] [] [] [] [] [] [] []]; try reflexivity; try congruence; destruct r as [|? [|? ?]]; reflexivity.
Qed.

(** The zone text of each match result. *)
Inductive tz_of : tzmatch -> list ascii -> Prop :=
| tzo_none : tz_of TzNone []
| tzo_z : tz_of TzZ ["Z"%char]
| tzo_h sg h1 h2 colon : (sg = "+"%char \/ sg = "-"%char) -> (colon = [] \/ colon = [":"%char]) ->
    forallb is_digit [h1; h2] = true ->
    tz_of (TzOff (Ascii.eqb sg "-") (digits_value [h1; h2]) None) (sg :: h1 :: h2 :: colon)
| tzo_hm sg h1 h2 colon m1 m2 : (sg = "+"%char \/ sg = "-"%char) -> (colon = [] \/ colon = [":"%char]) ->
    forallb is_digit [h1; h2; m1; m2] = true ->
    tz_of (TzOff (Ascii.eqb sg "-") (digits_value [h1; h2]) (Some (digits_value [m1; m2])))
      (sg :: h1 :: h2 :: colon ++ [m1; m2]).

Lemma match_tz_sound l t : match_tz l = Some t ->
  exists zone eol, l = zone ++ eol /\ (eol = [] \/ eol = [nl]) /\ tz_of t zone.
Proof.
  destruct l as [|c r].
  { intros [= <-]. exists [], []. repeat split; auto. constructor. }
  destruct (Ascii.eqb_spec c "Z") as [->|NZ].
  { unfold match_tz. replace (at_eol ("Z"%char :: r)) with false by (destruct r; reflexivity).
    destruct (at_eol r) eqn:E; [|discriminate]. intros [= <-]. apply at_eol_iff in E.
    exists ["Z"%char], r. repeat split; auto. constructor. }
  rewrite match_tz_Z by assumption. destruct (at_eol (c :: r)) eqn:E.
  { intros [= <-]. apply at_eol_iff in E. exists [], (c :: r). repeat split; auto. constructor. }
  destruct r as [|h1 [|h2 r]]; try discriminate.
  destruct ((Ascii.eqb c "+" || Ascii.eqb c "-") && is_digit h1 && is_digit h2) eqn:C; [|discriminate].
  apply andb_true_iff in C as [C D2]. apply andb_true_iff in C as [C D1].
  assert (Hc : c = "+"%char \/ c = "-"%char).
  { apply orb_true_iff in C as [C|C]; apply Ascii.eqb_eq in C; auto. }
  cbv zeta. assert (Hr : exists colon, r = colon ++ strip_colon r /\ (colon = [] \/ colon = [":"%char])).
  { destruct (strip_colon_spec r) as [(x & -> & Ex)|[_ ->]]; [exists [":"%char]; rewrite Ex; auto | exists []; auto]. }
  destruct Hr as (colon & Er & Hcol). set (r' := strip_colon r) in *. clearbody r'. subst r.
  destruct (at_eol r') eqn:E1.
  { intros [= <-]. apply at_eol_iff in E1. exists (c :: h1 :: h2 :: colon), r'.
    split; [reflexivity|]. split; [assumption|]. constructor; auto. simpl. now rewrite D1, D2. }
  destruct r' as [|m1 [|m2 r'']]; try discriminate.
  destruct (is_digit m1 && is_digit m2 && at_eol r'') eqn:C2; [|discriminate].
  apply andb_true_iff in C2 as [C2 E2]. apply andb_true_iff in C2 as [D3 D4]. intros [= <-].
  apply at_eol_iff in E2. exists (c :: h1 :: h2 :: colon ++ [m1; m2]), r''.
  split; [simpl; now rewrite <- app_assoc|]. split; [assumption|]. constructor; auto.
  simpl. now rewrite D1, D2, D3, D4.
Qed.

Lemma match_tz_complete t zone eol : (eol = [] \/ eol = [nl]) -> tz_of t zone ->
  match_tz (zone ++ eol) = Some t.
Proof.
  intros He H. assert (Hb : at_eol eol = true) by now apply at_eol_iff. destruct H.
  - simpl. unfold match_tz. rewrite Hb. reflexivity.
  - simpl. destruct He as [->| ->]; reflexivity.
  - assert (NZ : sg <> "Z"%char) by (destruct H as [->| ->]; discriminate).
    simpl in H1. apply andb_true_iff in H1 as [D1 D2]. rewrite andb_true_r in D2.
    cbn [app]. rewrite match_tz_Z by assumption.
    replace (at_eol (sg :: h1 :: h2 :: colon ++ eol)) with false by reflexivity.
    replace (Ascii.eqb sg "+" || Ascii.eqb sg "-") with true by (destruct H as [->| ->]; reflexivity).
    rewrite D1, D2. cbn [andb]. cbv zeta.
    replace (strip_colon (colon ++ eol)) with eol.
    + now rewrite Hb.
    + destruct H0 as [->| ->]; [|reflexivity]. destruct He as [->| ->]; reflexivity.
  - assert (NZ : sg <> "Z"%char) by (destruct H as [->| ->]; discriminate).
    simpl in H1. apply andb_true_iff in H1 as [D1 H1]. apply andb_true_iff in H1 as [D2 H1].
    apply andb_true_iff in H1 as [D3 D4]. rewrite andb_true_r in D4.
    cbn [app]. rewrite <- app_assoc. rewrite match_tz_Z by assumption.
    replace (at_eol (sg :: h1 :: h2 :: colon ++ [m1; m2] ++ eol)) with false by reflexivity.
    replace (Ascii.eqb sg "+" || Ascii.eqb sg "-") with true by (destruct H as [->| ->]; reflexivity).
    rewrite D1, D2. cbn [andb]. cbv zeta.
    destruct (digit_cases m1 D3) as (N1 & _).
    replace (strip_colon (colon ++ [m1; m2] ++ eol)) with (m1 :: m2 :: eol).
    + replace (at_eol (m1 :: m2 :: eol)) with false by reflexivity.
      rewrite D3, D4, Hb. reflexivity.
    + destruct H0 as [->| ->]; [|reflexivity]. cbn [app].
      destruct (strip_colon_spec (m1 :: m2 :: eol)) as [(x & C & _)|[_ ->]]; [congruence|reflexivity].
Qed.

Definition strip_minus (l : list ascii) : list ascii := match l with "-"%char :: t => t | _ => l end.
Lemma strip_minus_spec l : exists sign, (sign = [] \/ sign = ["-"%char]) /\ l = sign ++ strip_minus l.
Proof.
  destruct l as [|c x]; [exists []; auto|].
  destruct (Ascii.eqb_spec c "-") as [->|N]; [exists ["-"%char]; auto|].
  exists []. split; [auto|]. destruct c as [[] [] [] [] [] [] [] []]; try reflexivity. congruence.
Qed.
Lemma strip_minus_digit c l : is_digit c = true -> strip_minus (c :: l) = c :: l.
Proof. intros H. destruct c as [[] [] [] [] [] [] [] []]; try reflexivity. discriminate. Qed.

Lemma match_date_eq l : match_date l =
  let '(y, r) := span_digits (strip_minus l) in
  if Nat.ltb (length y) 4 then None
  else match r with
       | a :: m1 :: m2 :: b :: d1 :: d2 :: rest =>
           if Ascii.eqb a "-" && Ascii.eqb b "-" && is_digit m1 && is_digit m2 && is_digit d1 && is_digit d2 then
             match match_tz rest with
             | Some tz => Some (digits_value y, digits_value [m1; m2], digits_value [d1; d2], tz)
             | None => None
             end
           else None
       | _ => None
       end.
Proof.
  unfold match_date. fold (strip_minus l). destruct (span_digits (strip_minus l)) as [y r].
  destruct (Nat.ltb (length y) 4); [reflexivity|].
  destruct r as [|a r]; [reflexivity|].
  destruct (Ascii.eqb_spec a "-") as [->|Na].
  - destruct r as [|m1 [|m2 [|b r]]]; try reflexivity.
    destruct (Ascii.eqb_spec b "-") as [->|Nb].
    + destruct r as [|d1 [|d2 r]]; reflexivity.
    + transitivity (@None (N * N * N * tzmatch)).
      * destruct b as [[] [] [] [] [] [] [] []]; try reflexivity. congruence.
      * destruct r as [|d1 [|d2 r]]; reflexivity.
  - transitivity (@None (N * N * N * tzmatch)).
    + destruct a as [[] [] [] [] [] [] [] []]; try reflexivity. congruence.
    + destruct r as [|m1 [|m2 [|b [|d1 [|d2 r]]]]]; reflexivity.
Qed.

Lemma match_date_sound l y m d t : match_date l = Some (y, m, d, t) ->
  exists zone, date_shape l zone (Z.of_N y) (Z.of_N m) (Z.of_N d) /\ tz_of t zone.
Proof.
  rewrite match_date_eq. destruct (strip_minus_spec l) as (sign & Hs & El).
  destruct (span_digits (strip_minus l)) as [ys r] eqn:S.
  apply span_digits_inv in S as (E & Dy & _).
  destruct (Nat.ltb_spec (length ys) 4) as [|L]; [discriminate|].
  destruct r as [|a [|m1 [|m2 [|b [|d1 [|d2 rest]]]]]]; try discriminate.
  destruct (Ascii.eqb a "-" && Ascii.eqb b "-" && is_digit m1 && is_digit m2 && is_digit d1 && is_digit d2) eqn:C;
    [|discriminate].
  rewrite !andb_true_iff, !Ascii.eqb_eq in C. destruct C as (((((-> & ->) & D1) & D2) & D3) & D4).
  destruct (match_tz rest) as [tz|] eqn:T; [|discriminate]. intros [= <- <- <- <-].
  apply match_tz_sound in T as (zone & eol & -> & He & Ht).
  exists zone. split; [|assumption].
  exists sign, ys, m1, m2, d1, d2, eol. split; [rewrite El, E; reflexivity|].
  repeat split; auto. simpl. now rewrite D1, D2, D3, D4.
Qed.

Lemma match_date_complete l zone y m d t : date_shape l zone y m d -> tz_of t zone ->
  exists y' m' d', match_date l = Some (y', m', d', t) /\ y = Z.of_N y' /\ m = Z.of_N m' /\ d = Z.of_N d'.
Proof.
  intros (sign & ys & m1 & m2 & d1 & d2 & eol & -> & Hs & He & L & Dy & D & -> & -> & ->) Ht.
  exists (digits_value ys), (digits_value [m1; m2]), (digits_value [d1; d2]).
  split; [|auto]. rewrite match_date_eq.
  assert (E : strip_minus (sign ++ ys ++ "-"%char :: m1 :: m2 :: "-"%char :: d1 :: d2 :: zone ++ eol)
     = ys ++ "-"%char :: m1 :: m2 :: "-"%char :: d1 :: d2 :: zone ++ eol).
  { destruct Hs as [->| ->]; [|reflexivity]. destruct ys as [|c ys]; [simpl in L; lia|].
    simpl in Dy. apply andb_true_iff in Dy as [Dc _]. cbn [app]. now apply strip_minus_digit. }
  rewrite E. rewrite span_digits_app by (auto; reflexivity).
  replace (Nat.ltb (length ys) 4) with false by (symmetry; apply Nat.ltb_ge; lia).
  simpl in D. rewrite andb_true_r in D. rewrite !andb_true_iff in D. destruct D as (D1 & D2 & D3 & D4).
  rewrite D1, D2, D3, D4. cbn [Ascii.eqb Bool.eqb andb].
  rewrite (match_tz_complete t zone eol He Ht). reflexivity.
Qed.

(** ** Date.pythonvalue *)

Lemma py_timezone_cases off :
  (offset_ok off /\ py_timezone off = Ok off) \/ (~ offset_ok off /\ py_timezone off = Err ValueError).
Proof.
  unfold py_timezone, offset_ok. change us_per_day with day_us.
  destruct ((- day_us <? off) && (off <? day_us))%bool eqn:E; [left|right]; (split; [lia|reflexivity]).
Qed.

Lemma parse_tz_spec t zone : tz_of t zone ->
  (date_tz_hours_only zone /\ parse_tz t = Err TypeError) \/
  (exists tz, date_tz_text zone tz /\
     ((tz_in_range tz /\ parse_tz t = Ok tz) \/ (~ tz_in_range tz /\ parse_tz t = Err ValueError))).
Proof.
  intros H. destruct H.
  - right. exists None. split; [left; auto|]. left. split; [discriminate|reflexivity].
  - right. exists (Some 0). split; [right; left; auto|]. left. split; [|reflexivity].
    intros off [= <-]. unfold offset_ok, day_us. lia.
  - left. split; [|reflexivity]. exists sg, h1, h2, colon. auto.
  - right.
    set (o := Z.of_N (digits_value [h1; h2]) * 60 + Z.of_N (digits_value [m1; m2])).
    exists (Some ((if Ascii.eqb sg "-" then - o else o) * minute_us)). split.
    + right; right. exists sg, h1, h2, colon, m1, m2. split; [reflexivity|]. split; [assumption|].
      split; [assumption|]. cbv zeta. fold o.
      destruct H as [->| ->]; [left|right]; (split; [reflexivity|]); reflexivity.
    + cbn [parse_tz]. fold o. change us_per_min with minute_us.
      replace (if Ascii.eqb sg "-" then - (o * minute_us) else o * minute_us)
        with ((if Ascii.eqb sg "-" then - o else o) * minute_us)
        by (destruct (Ascii.eqb sg "-"); lia).
      set (x := (if Ascii.eqb sg "-" then - o else o) * minute_us).
      destruct (py_timezone_cases x) as [[Hx ->]|[Hx ->]]; [left|right]; (split; [|reflexivity]).
      * intros off [= <-]. exact Hx.
      * intros C. apply Hx, C. reflexivity.
Qed.

Lemma tz_text_of zone tz : date_tz_text zone tz -> exists t, tz_of t zone /\
  (tz_in_range tz -> parse_tz t = Ok tz).
Proof.
  intros [(-> & ->)|[(-> & ->)|(sg & h1 & h2 & colon & m1 & m2 & -> & Hc & D & Ht)]].
  - exists TzNone. split; [constructor|]. reflexivity.
  - exists TzZ. split; [constructor|]. reflexivity.
  - assert (Hs : sg = "+"%char \/ sg = "-"%char) by (destruct Ht as [[-> _]|[-> _]]; auto).
    exists (TzOff (Ascii.eqb sg "-") (digits_value [h1; h2]) (Some (digits_value [m1; m2]))).
    split; [constructor; auto|]. intros Hr. cbn [parse_tz]. change us_per_min with minute_us.
    cbv zeta in Ht.
    set (o := Z.of_N (digits_value [h1; h2]) * 60 + Z.of_N (digits_value [m1; m2])) in *.
    destruct Ht as [[-> ->]|[-> ->]]; cbn [Ascii.eqb Bool.eqb].
    + destruct (py_timezone_cases (o * minute_us)) as [[_ ->]|[C _]]; [reflexivity|].
      exfalso. apply C, Hr. reflexivity.
    + replace (- (o * minute_us)) with (- o * minute_us) by lia.
      destruct (py_timezone_cases (- o * minute_us)) as [[_ ->]|[C _]]; [reflexivity|].
      exfalso. apply C, Hr. reflexivity.
Qed.

Lemma mk_xsddate_cases y m d tz :
  (calendar_date y m d /\ mk_xsddate y m d tz = Ok (VXSDDate y m d tz)) \/
  (~ calendar_date y m d /\ y <= 2147483647 /\ mk_xsddate y m d tz = Err ValueError) \/
  (2147483647 < y /\ mk_xsddate y m d tz = Err (Exn EOverflowError "")).
Proof.
  unfold mk_xsddate, py_date. destruct (Z.ltb_spec 2147483647 y).
  { right; right. split; [assumption|reflexivity]. }
  destruct (date_ok y m d) eqn:E.
  - left. split; [now apply date_ok_spec | reflexivity].
  - right; left. split; [rewrite <- date_ok_spec; congruence|]. split; [lia|reflexivity].
Qed.

Lemma nil_not_shape zone y m d : ~ date_shape (to_l "nil") zone y m d.
Proof.
  intros (sign & ys & m1 & m2 & d1 & d2 & eol & E & _ & _ & L & _).
  apply (f_equal (@length _)) in E. rewrite !app_length in E. simpl in E. lia.
Qed.

Lemma date_python_ok s v : date_pythonvalue (VStr s) = Ok v <->
  (s = "nil"%string /\ v = VNone) \/
  (exists y m d tz, date_text (to_l s) y m d tz /\ calendar_date y m d /\ tz_in_range tz
     /\ v = VXSDDate y m d tz).
Proof.
  cbn [date_pythonvalue]. destruct (String.eqb_spec s "nil") as [->|N].
  - split.
    + intros [= <-]. auto.
    + intros [[_ ->]|(y & m & d & tz & (zone & Hs & _) & _)]; [reflexivity|].
      now apply nil_not_shape in Hs.
  - split.
    + destruct (match_date (to_l s)) as [[[[y m] d] t]|] eqn:M; [|discriminate].
      apply match_date_sound in M as (zone & Hs & Ht). intros H. right.
      destruct (parse_tz_spec t zone Ht) as [[_ E]|(tz & Hz & [[Hr E]|[_ E]])]; rewrite E in H; try discriminate.
      cbn [bind] in H.
      destruct (mk_xsddate_cases (Z.of_N y) (Z.of_N m) (Z.of_N d) tz) as [[Hc E']|[(_ & _ & E')|[_ E']]];
        rewrite E' in H; try discriminate. injection H as <-.
      exists (Z.of_N y), (Z.of_N m), (Z.of_N d), tz. split; [exists zone; auto|]. auto.
    + intros [[C _]|(y & m & d & tz & (zone & Hs & Hz) & Hc & Hr & ->)]; [congruence|].
      destruct (tz_text_of zone tz Hz) as (t & Ht & Hp).
      destruct (match_date_complete _ _ _ _ _ _ Hs Ht) as (y' & m' & d' & -> & -> & -> & ->).
      rewrite (Hp Hr). cbn [bind].
      destruct (mk_xsddate_cases (Z.of_N y') (Z.of_N m') (Z.of_N d') tz) as [[_ E']|[(C & _)|[C _]]]; auto.
      * contradiction.
      * exfalso. apply calendar_bounds in Hc. lia.
Qed.

Lemma date_python_err s e : date_pythonvalue (VStr s) = Err e ->
  e = ValueError \/
  (e = TypeError /\ exists zone y m d, date_shape (to_l s) zone y m d /\ date_tz_hours_only zone) \/
  (e = Exn EOverflowError "" /\ exists zone y m d, date_shape (to_l s) zone y m d /\ 2147483647 < y).
Proof.
  cbn [date_pythonvalue]. destruct (String.eqb_spec s "nil") as [->|N]; [discriminate|].
  destruct (match_date (to_l s)) as [[[[y m] d] t]|] eqn:M; [|intros [= <-]; auto].
  apply match_date_sound in M as (zone & Hs & Ht). intros H.
  destruct (parse_tz_spec t zone Ht) as [[Hh E]|(tz & Hz & [[Hr E]|[_ E]])]; rewrite E in H; cbn [bind] in H.
  - injection H as <-. right; left. split; [reflexivity|]. eauto 6.
  - destruct (mk_xsddate_cases (Z.of_N y) (Z.of_N m) (Z.of_N d) tz) as [[Hc E']|[(_ & _ & E')|[Hy E']]];
      rewrite E' in H; try discriminate; injection H as <-; auto.
    right; right. split; [reflexivity|]. eauto 6.
  - injection H as <-. auto.
Qed.

Lemma date_python_hours_only s zone y m d : date_shape (to_l s) zone y m d -> date_tz_hours_only zone ->
  date_pythonvalue (VStr s) = Err TypeError.
Proof.
  intros Hs (sg & h1 & h2 & colon & -> & Hc & Hsg & D). cbn [date_pythonvalue].
  destruct (String.eqb_spec s "nil") as [->|N]; [now apply nil_not_shape in Hs|].
  destruct (match_date_complete _ _ _ _ _ _ Hs (tzo_h sg h1 h2 colon Hsg Hc D)) as (y' & m' & d' & -> & _).
  reflexivity.
Qed.
Lemma date_python_overflow s zone y m d tz : date_shape (to_l s) zone y m d ->
  date_tz_text zone tz -> tz_in_range tz -> 2147483647 < y ->
  date_pythonvalue (VStr s) = Err (Exn EOverflowError "").
Proof.
  intros Hs Hz Hr Hy. cbn [date_pythonvalue].
  destruct (String.eqb_spec s "nil") as [->|N]; [now apply nil_not_shape in Hs|].
  destruct (tz_text_of zone tz Hz) as (t & Ht & Hp).
  destruct (match_date_complete _ _ _ _ _ _ Hs Ht) as (y' & m' & d' & -> & -> & -> & ->).
  rewrite (Hp Hr). cbn [bind].
  destruct (mk_xsddate_cases (Z.of_N y') (Z.of_N m') (Z.of_N d') tz) as [[C _]|[(_ & C & _)|[_ E]]]; auto.
  - apply calendar_bounds in C. lia.
  - lia.
Qed.

(** ** Date round trip *)
Lemma tz_string_text off : offset_ok off -> whole_minutes off ->
  date_tz_text (tz_string off) (Some off).
Proof.
  intros H (m & ->). destruct (tz_string_form _ H) as (h1 & h2 & m1 & m2 & E & D & Hh & Hm & B).
  right; right. exists (if 0 <=? m * minute_us then "+"%char else "-"%char), h1, h2, [":"%char], m1, m2.
  split; [exact E|]. split; [auto|]. split; [exact D|]. cbv zeta. rewrite Hh, Hm.
  rewrite tz_seconds_whole in *. unfold minute_us in *.
  destruct (Z.leb_spec 0 (m * 60000000)); [left|right]; (split; [reflexivity|]); f_equal; lia.
Qed.

Lemma fmt_date_shape O y m d zone : calendar_date y m d -> (1000 <= y \/ o_year_pad O = true) ->
  date_shape (fmt_date O y m d ++ zone) zone y m d.
Proof.
  intros Hc Hy. destruct (calendar_bounds y m d Hc) as (By & Bm & Bd).
  unfold fmt_date. rewrite fmt_year_ok by assumption.
  destruct (fmt2_ex m ltac:(lia)) as (m1 & m2 & Em & D1 & D2 & Vm).
  destruct (fmt2_ex d ltac:(lia)) as (d1 & d2 & Ed & D3 & D4 & Vd).
  rewrite Em, Ed. exists [], (fixed_l 4 (Z.to_N y)), m1, m2, d1, d2, [].
  split; [rewrite app_nil_r, <- app_assoc; reflexivity|].
  split; [auto|]. split; [auto|]. rewrite fixed_length. split; [lia|].
  split; [apply fixed_digits|]. split; [simpl; now rewrite D1, D2, D3, D4|].
  split; [|auto]. rewrite fixed_value; [lia|]. change (10 ^ N.of_nat 4)%N with 10000%N. lia.
Qed.

Lemma date_roundtrip O y m d tz : calendar_date y m d -> tz_ok tz ->
  (1000 <= y \/ o_year_pad O = true) ->
  exists text, date_xmlvalue O (VXSDDate y m d tz) = Ok text /\
    date_pythonvalue (VStr text) = Ok (VXSDDate y m d tz).
Proof.
  intros Hc Ht Hy. eexists. split; [reflexivity|]. apply date_python_ok. right.
  exists y, m, d, tz. rewrite to_of. split.
  - eexists. split; [apply fmt_date_shape; assumption|].
    destruct tz as [off|]; [|left; auto]. destruct (Ht off eq_refl). now apply tz_string_text.
  - split; [assumption|]. split; [|reflexivity]. intros off E. now apply Ht.
Qed.

Lemma date_early O y m d tz : o_year_pad O = false -> 1 <= y < 1000 ->
  exists text, date_xmlvalue O (VXSDDate y m d tz) = Ok text /\
    date_pythonvalue (VStr text) = Err ValueError.
Proof.
  intros Hp Hy. eexists. split; [reflexivity|]. cbn [date_pythonvalue].
  set (t := match tz with None => [] | Some off => tz_string off end).
  assert (Hd := fmt_year_digits O y). assert (Hl := fmt_year_short O y Hy Hp).
  assert (Hne : fmt_year O y <> []).
  { unfold fmt_year. rewrite Hp. destruct (1000 <=? y); apply dec_l_nonnil. }
  unfold fmt_date. destruct (fmt_year O y) as [|c ys] eqn:Ey; [congruence|].
  destruct (String.eqb_spec (of_l (((c :: ys) ++ "-"%char :: fmt2 m ++ "-"%char :: fmt2 d) ++ t)) "nil") as [E|_].
  { exfalso. simpl in E. injection E as -> _. discriminate. }
  rewrite to_of, match_date_eq, <- !app_assoc. cbn [app].
  rewrite strip_minus_digit by (simpl in Hd; now apply andb_true_iff in Hd as [Hd _]).
  change (c :: ys ++ "-"%char :: ?x) with ((c :: ys) ++ "-"%char :: x).
  match goal with |- context [span_digits ?l] =>
    change l with ((c :: ys) ++ "-"%char :: ((fmt2 m ++ "-"%char :: fmt2 d) ++ t)) end.
  rewrite span_digits_app by (auto; reflexivity).
  replace (Nat.ltb (length (c :: ys)) 4) with true by (symmetry; apply Nat.ltb_lt; lia).
  reflexivity.
Qed.

(** ** DateTime and Time *)
Lemma take2_fmt2 z r : 0 <= z < 100 -> take2 (fmt2 z ++ r) = Some (Z.to_N z, r).
Proof.
  intros H. destruct (fmt2_ex z H) as (a & b & E & D1 & D2 & V). rewrite E. cbn [app take2].
  rewrite D1, D2. cbn [andb]. f_equal. f_equal. lia.
Qed.
Lemma expect_same c l : expect c (c :: l) = Some l.
Proof. unfold expect. now rewrite Ascii.eqb_refl. Qed.

Lemma iso_tz_string off : offset_ok off -> whole_minutes off -> iso_tz (tz_string off) = Some off.
Proof.
  intros H (m & ->). destruct (tz_string_form _ H) as (h1 & h2 & m1 & m2 & E & D & Hh & Hm & B).
  rewrite E. simpl in D. rewrite andb_true_r in D. rewrite !andb_true_iff in D.
  destruct D as (D1 & D2 & D3 & D4).
  rewrite tz_seconds_whole in *.
  assert (T1 : take2 [h1; h2; ":"%char; m1; m2] = Some (digits_value [h1; h2], [":"%char; m1; m2]))
    by (cbn [take2]; now rewrite D1, D2).
  assert (T2 : take2 [m1; m2] = Some (digits_value [m1; m2], [])) by (cbn [take2]; now rewrite D3, D4).
  unfold iso_tz, us_per_min, minute_us in *.
  destruct (Z.leb_spec 0 (m * 60000000)); rewrite T1; cbn [Ascii.eqb Bool.eqb orb]; rewrite T2;
    rewrite Hh, Hm; f_equal; lia.
Qed.
Lemma iso_frac_tz tz : (forall off, tz = Some off -> offset_ok off) -> iso_frac (fmt_tz tz) = (0%N, fmt_tz tz).
Proof.
  intros H. destruct tz as [off|]; [|reflexivity]. cbn [fmt_tz].
  destruct (tz_string_form off (H off eq_refl)) as (h1 & h2 & m1 & m2 & E & _). rewrite E.
  destruct (0 <=? off); reflexivity.
Qed.

Lemma iso_fmt O y mo d h mi s us tz : calendar_date y mo d -> clock_time h mi s us ->
  (1000 <= y \/ o_year_pad O = true) -> tz_ok tz ->
  iso_canonical (fmt_date O y mo d ++ "T"%char :: fmt_time h mi s ++ fmt_tz tz) =
  Some {| dt_year := y; dt_month := mo; dt_day := d; dt_hour := h; dt_min := mi; dt_sec := s;
          dt_us := 0; dt_tz := Some (match tz with Some off => off | None => 0 end) |}.
Proof.
  intros Hc Hk Hy Hz. destruct (calendar_bounds y mo d Hc) as (By & Bm & Bd).
  destruct Hk as (Bh & Bmi & Bs & _).
  unfold fmt_date, fmt_time. rewrite fmt_year_ok by assumption.
  pose proof (fixed_length 4 (Z.to_N y)) as L. pose proof (fixed_digits 4 (Z.to_N y)) as D.
  pose proof (fixed_value 4 (Z.to_N y)) as V.
  destruct (fixed_l 4 (Z.to_N y)) as [|y1 [|y2 [|y3 [|y4 [|]]]]]; try discriminate.
  simpl in D. rewrite andb_true_r in D. rewrite !andb_true_iff in D. destruct D as (D1 & D2 & D3 & D4).
  rewrite <- !app_assoc. cbn [app].
  unfold iso_canonical. rewrite D1, D2, D3, D4. cbn [andb].
  rewrite <- !app_assoc. cbn [app].
  rewrite expect_same, take2_fmt2 by lia.
  rewrite expect_same, take2_fmt2 by lia.
  rewrite expect_same, take2_fmt2 by lia.
  rewrite <- ?app_assoc. cbn [app].
  rewrite expect_same, take2_fmt2 by lia.
  rewrite expect_same, take2_fmt2 by lia.
  rewrite iso_frac_tz by (intros off E; now apply Hz).
  rewrite V by (change (10 ^ N.of_nat 4)%N with 10000%N; lia).
  assert (T : iso_tz (fmt_tz tz) = Some (match tz with Some off => off | None => 0 end)).
  { destruct tz as [off|]; [|reflexivity]. destruct (Hz off eq_refl). now apply iso_tz_string. }
  rewrite T. rewrite !Z2N.id by lia. reflexivity.
Qed.

Lemma datetime_roundtrip O t :
  calendar_date (dt_year t) (dt_month t) (dt_day t) ->
  clock_time (dt_hour t) (dt_min t) (dt_sec t) (dt_us t) ->
  (1000 <= dt_year t \/ o_year_pad O = true) -> tz_ok (dt_tz t) ->
  exists text, datetime_xmlvalue O (VDateTime t) = Ok text /\
    datetime_pythonvalue O (VStr text) = Ok (VDateTime
      {| dt_year := dt_year t; dt_month := dt_month t; dt_day := dt_day t;
         dt_hour := dt_hour t; dt_min := dt_min t; dt_sec := dt_sec t; dt_us := 0;
         dt_tz := Some (match dt_tz t with Some off => off | None => 0 end) |}).
Proof.
  intros Hc Hk Hy Hz. eexists. split; [reflexivity|]. cbn [datetime_pythonvalue].
  set (l := fmt_date O (dt_year t) (dt_month t) (dt_day t) ++ _).
  destruct (String.eqb_spec (of_l l) "nil") as [E|_].
  { exfalso. apply (f_equal to_l) in E. rewrite to_of in E. unfold l, fmt_date in E.
    destruct (calendar_bounds _ _ _ Hc) as (By & _).
    rewrite fmt_year_ok in E by assumption. apply (f_equal (@length _)) in E.
    rewrite !app_length, fixed_length in E. simpl in E. lia. }
  unfold iso_parse. rewrite to_of. unfold l. rewrite (iso_fmt O _ _ _ _ _ _ (dt_us t)) by assumption.
  assert (K : datetime_ok {| dt_year := dt_year t; dt_month := dt_month t; dt_day := dt_day t;
         dt_hour := dt_hour t; dt_min := dt_min t; dt_sec := dt_sec t; dt_us := 0;
         dt_tz := Some (match dt_tz t with Some off => off | None => 0 end) |} = true).
  { unfold datetime_ok. cbn [dt_year dt_month dt_day dt_hour dt_min dt_sec dt_us dt_tz].
    rewrite (proj2 (date_ok_spec _ _ _) Hc).
    assert (time_ok (dt_hour t) (dt_min t) (dt_sec t) 0 = true) as ->.
    { apply time_ok_spec. unfold clock_time in *. lia. }
    cbn [andb]. destruct (dt_tz t) as [off|]; [|reflexivity].
    destruct (Hz off eq_refl) as [Ho _]. unfold offset_ok, day_us, us_per_day in *. lia. }
  rewrite K. reflexivity.
Qed.

Lemma fmt1900 : fmt_date {| o_float := fun _ => Err ValueError; o_year_pad := true;
   o_iso := fun _ => Err ValueError; o_str := fun _ => ""%string |} 1900 1 1 = to_l "1900-01-01".
Proof. reflexivity. Qed.

Lemma time_roundtrip O t :
  clock_time (tm_hour t) (tm_min t) (tm_sec t) (tm_us t) -> tz_ok (tm_tz t) ->
  exists text, time_xmlvalue O (VTime t) = Ok text /\
    time_pythonvalue O (VStr text) = Ok (VTime
      {| tm_hour := tm_hour t; tm_min := tm_min t; tm_sec := tm_sec t; tm_us := 0;
         tm_tz := Some (match tm_tz t with Some off => off | None => 0 end) |}).
Proof.
  intros Hk Hz. eexists. split; [reflexivity|]. cbn [time_pythonvalue].
  set (l := fmt_time (tm_hour t) (tm_min t) (tm_sec t) ++ fmt_tz (tm_tz t)).
  destruct (String.eqb_spec (of_l l) "nil") as [E|_].
  { exfalso. apply (f_equal to_l) in E. rewrite to_of in E. unfold l, fmt_time in E.
    destruct Hk as (Bh & _). destruct (fmt2_ex (tm_hour t) ltac:(lia)) as (a & b & Ea & D1 & _).
    rewrite Ea in E. simpl in E. injection E as -> _. discriminate. }
  unfold time_parse, iso_parse.
  rewrite to_l_app, to_of. change (to_l "1900-01-01T") with (to_l "1900-01-01" ++ ["T"%char]).
  rewrite <- app_assoc. cbn [app]. rewrite <- fmt1900.
  assert (C : calendar_date 1900 1 1) by (apply date_ok_spec; reflexivity).
  unfold l. rewrite (iso_fmt _ 1900 1 1 _ _ _ (tm_us t)); [| assumption | assumption | lia | assumption].
  assert (K : datetime_ok {| dt_year := 1900; dt_month := 1; dt_day := 1;
         dt_hour := tm_hour t; dt_min := tm_min t; dt_sec := tm_sec t; dt_us := 0;
         dt_tz := Some (match tm_tz t with Some off => off | None => 0 end) |} = true).
  { unfold datetime_ok. cbn [dt_year dt_month dt_day dt_hour dt_min dt_sec dt_us dt_tz].
    change (date_ok 1900 1 1) with true.
    assert (time_ok (tm_hour t) (tm_min t) (tm_sec t) 0 = true) as ->.
    { apply time_ok_spec. unfold clock_time in *. lia. }
    cbn [andb]. destruct (tm_tz t) as [off|]; [|reflexivity].
    destruct (Hz off eq_refl) as [Ho _]. unfold offset_ok, day_us, us_per_day in *. lia. }
  rewrite K. reflexivity.
Qed.

Lemma time_python_err O s e : time_pythonvalue O (VStr s) = Err e -> e = ValueError.
Proof.
  cbn [time_pythonvalue]. destruct (String.eqb s "nil"); [discriminate|].
  unfold time_parse. destruct (iso_parse O ("1900-01-01T" ++ s)); congruence.
Qed.

Lemma date_accept_date O y m d : calendar_date y m d ->
  st_accept O SDate (VDate y m d) = Ok (VXSDDate y m d None).
Proof.
  intros H. cbn. destruct (mk_xsddate_cases y m d None) as [[_ E]|[(C & _)|[C _]]]; auto.
  - contradiction.
  - apply calendar_bounds in H. lia.
Qed.
Lemma date_roundtrip_st O y m d tz : calendar_date y m d -> tz_ok tz ->
  (1000 <= y \/ o_year_pad O = true) ->
  exists text, st_xmlvalue O SDate (VXSDDate y m d tz) = Ok (VStr text) /\
    st_pythonvalue O SDate (VStr text) = Ok (VXSDDate y m d tz).
Proof.
  intros Hc Ht Hy. destruct (date_roundtrip O y m d tz Hc Ht Hy) as (text & E1 & E2).
  exists text. cbn [st_xmlvalue]. rewrite E1. auto.
Qed.
Lemma date_early_st O y m d tz : o_year_pad O = false -> 1 <= y < 1000 ->
  exists text, st_xmlvalue O SDate (VXSDDate y m d tz) = Ok (VStr text) /\
    st_pythonvalue O SDate (VStr text) = Err ValueError.
Proof.
  intros Hc Ht. destruct (date_early O y m d tz Hc Ht) as (text & E1 & E2).
  exists text. cbn [st_xmlvalue]. rewrite E1. auto.
Qed.
Lemma datetime_roundtrip_st O t :
  calendar_date (dt_year t) (dt_month t) (dt_day t) ->
  clock_time (dt_hour t) (dt_min t) (dt_sec t) (dt_us t) ->
  (1000 <= dt_year t \/ o_year_pad O = true) -> tz_ok (dt_tz t) ->
  exists text, st_xmlvalue O SDateTime (VDateTime t) = Ok (VStr text) /\
    st_pythonvalue O SDateTime (VStr text) = Ok (VDateTime
      {| dt_year := dt_year t; dt_month := dt_month t; dt_day := dt_day t;
         dt_hour := dt_hour t; dt_min := dt_min t; dt_sec := dt_sec t; dt_us := 0;
         dt_tz := Some (match dt_tz t with Some off => off | None => 0 end) |}).
Proof.
  intros A B C D. destruct (datetime_roundtrip O t A B C D) as (text & E1 & E2).
  exists text. cbn [st_xmlvalue]. rewrite E1. auto.
Qed.
Lemma time_roundtrip_st O t :
  clock_time (tm_hour t) (tm_min t) (tm_sec t) (tm_us t) -> tz_ok (tm_tz t) ->
  exists text, st_xmlvalue O STime (VTime t) = Ok (VStr text) /\
    st_pythonvalue O STime (VStr text) = Ok (VTime
      {| tm_hour := tm_hour t; tm_min := tm_min t; tm_sec := tm_sec t; tm_us := 0;
         tm_tz := Some (match tm_tz t with Some off => off | None => 0 end) |}).
Proof.
  intros A B. destruct (time_roundtrip O t A B) as (text & E1 & E2).
  exists text. cbn [st_xmlvalue]. rewrite E1. auto.
Qed.
