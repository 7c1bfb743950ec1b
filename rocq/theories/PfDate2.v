(** Proofs about date and time texts, continued. *)
From Coq Require Import String Ascii List ZArith NArith Bool Lia.
From Verif Require Import PyBase Xml PyVal XsdDate XsdSimple SpecDate SpecDate2 PfBase PfDate.
Import ListNotations.
Open Scope Z_scope.

Lemma dv_bound l : forallb is_digit l = true -> Z.of_N (digits_value l) < 10 ^ Z.of_nat (length l).
Proof.
  induction l as [|c l IH] using rev_ind; intros H; [cbn; lia|]. rewrite forallb_app in H. apply andb_true_iff in H as [H Hc]. cbn in Hc. rewrite andb_true_r in Hc.
  rewrite digits_value_app. specialize (IH H). cbn [length]. rewrite app_length. cbn [length]. replace (Z.of_nat (length l + 1)) with (Z.of_nat (length l) + 1) by lia.
  rewrite Z.pow_add_r by lia. change (10 ^ 1) with 10.
  assert (D : (digits_value [c] < 10)%N).
  { clear -Hc. destruct c as [[] [] [] [] [] [] [] []]; try discriminate Hc; vm_compute; reflexivity. }
  rewrite N2Z.inj_add, N2Z.inj_mul. cbn [length N.of_nat]. change (Z.of_N (10 ^ N.of_nat (length [c]))) with 10. lia.
Qed.
Lemma dv_app l m : Z.of_N (digits_value (l ++ m)) = Z.of_N (digits_value l) * 10 ^ Z.of_nat (length m) + Z.of_N (digits_value m).
Proof. rewrite digits_value_app, N2Z.inj_add, N2Z.inj_mul, N2Z.inj_pow. now rewrite nat_N_Z. Qed.
Lemma dv_zeros n : digits_value (repeat "0"%char n) = 0%N.
Proof. induction n as [|n IH]; [reflexivity|]. cbn [repeat]. change ("0"%char :: repeat "0"%char n) with (["0"%char] ++ repeat "0"%char n). rewrite digits_value_app, IH. change (digits_value ["0"%char]) with 0%N. lia. Qed.
Lemma frac_floor ds us : forallb is_digit ds = true ->
  us * 10 ^ Z.of_nat (length ds) <= Z.of_N (digits_value ds) * 1000000 < (us + 1) * 10 ^ Z.of_nat (length ds) -> Z.of_N (frac_us ds) = us.
Proof.
  intros H B. assert (P : 0 < 10 ^ Z.of_nat (length ds)) by (apply Z.pow_pos_nonneg; lia).
  assert (F : Z.of_N (frac_us ds) * 10 ^ Z.of_nat (length ds) <= Z.of_N (digits_value ds) * 1000000 < (Z.of_N (frac_us ds) + 1) * 10 ^ Z.of_nat (length ds)).
  { unfold frac_us. destruct (Nat.le_gt_cases (length ds) 6) as [L|L].
    - rewrite firstn_app, firstn_all2 by lia. rewrite dv_app.
      assert (Z0 : firstn (6 - length ds) (repeat "0"%char 6) = repeat "0"%char (6 - length ds)).
      { destruct (length ds) as [|[|[|[|[|[|[|]]]]]]]; try lia; reflexivity. }
      rewrite Z0, dv_zeros, repeat_length. rewrite Z.add_0_r, <- Z.mul_assoc, <- Z.pow_add_r by lia.
      replace (Z.of_nat (6 - length ds) + Z.of_nat (length ds)) with 6 by lia. change (10 ^ 6) with 1000000.
      rewrite Z.mul_add_distr_r, <- Z.mul_assoc, <- Z.pow_add_r by lia. replace (Z.of_nat (6 - length ds) + Z.of_nat (length ds)) with 6 by lia. change (10 ^ 6) with 1000000. lia.
    - rewrite firstn_app. replace (6 - length ds)%nat with 0%nat by lia. rewrite firstn_O, app_nil_r.
      rewrite <- (firstn_skipn 6 ds) in H. rewrite forallb_app in H. apply andb_true_iff in H as [_ H].
      pose proof (dv_bound _ H) as Bd. rewrite skipn_length in Bd.
      assert (E : Z.of_N (digits_value ds) = Z.of_N (digits_value (firstn 6 ds)) * 10 ^ Z.of_nat (length ds - 6) + Z.of_N (digits_value (skipn 6 ds))).
      { rewrite <- (firstn_skipn 6 ds) at 1. rewrite dv_app, skipn_length. reflexivity. }
      rewrite E. replace (Z.of_nat (length ds)) with (Z.of_nat (length ds - 6) + 6) by lia. rewrite Z.pow_add_r by lia. change (10 ^ 6) with 1000000.
      pose proof (N2Z.is_nonneg (digits_value (skipn 6 ds))) as Nn. revert Bd Nn. generalize (10 ^ Z.of_nat (length ds - 6)) (Z.of_N (digits_value (skipn 6 ds))) (Z.of_N (digits_value (firstn 6 ds))).
      clear. intros k r a B N. replace (a * (k * 1000000)) with (a * k * 1000000) by ring. replace ((a + 1) * (k * 1000000)) with (a * k * 1000000 + k * 1000000) by ring.
      lia. }
  revert F B P. generalize (10 ^ Z.of_nat (length ds)) (Z.of_N (digits_value ds)) (Z.of_N (frac_us ds)). clear. intros k v a F B P. nia.
Qed.

Lemma take2_two a b z r : two a b z -> take2 (a :: b :: r) = Some (digits_value [a; b], r).
Proof. intros (A & B & _). unfold take2. now rewrite A, B. Qed.
Lemma zone_head z off : zone z off -> match z with c :: _ => is_digit c = false /\ c <> "."%char /\ c <> ","%char | [] => True end.
Proof.
  intros [[[-> | ->] _] | (sg & h1 & h2 & hh & colon & mins & mm & -> & _ & _ & _ & [[-> _] | [-> _]])]; try exact I; repeat split; discriminate.
Qed.
Lemma frac_read f z us off : fraction f us -> zone z off -> exists n, iso_frac (f ++ z) = (n, z) /\ Z.of_N n = us.
Proof.
  intros [[-> ->] | (sep & ds & -> & Hs & Nd & Dg & B)] Hz; pose proof (zone_head _ _ Hz) as Hh.
  - exists 0%N. split; [|reflexivity]. cbn [app]. destruct z as [|c z]; [reflexivity|]. cbn [iso_frac]. destruct Hh as (_ & N1 & N2).
    apply Ascii.eqb_neq in N1, N2. now rewrite N1, N2.
  - exists (frac_us ds). split; [|now apply frac_floor]. cbn [app iso_frac]. rewrite span_digits_app; [|exact Dg|destruct z; [exact I|apply Hh]].
    replace (Ascii.eqb sep "." || Ascii.eqb sep ",") with true by (destruct Hs as [-> | ->]; reflexivity). destruct ds; [contradiction|reflexivity].
Qed.
Lemma zone_read z off : zone z off -> iso_tz z = Some off.
Proof.
  intros [[[-> | ->] ->] | (sg & h1 & h2 & hh & colon & mins & mm & -> & H2 & Hc & Hm & Hs)]; try reflexivity.
  assert (Dh : h1 <> ":"%char) by (destruct H2 as (D & _); intros ->; discriminate).
  assert (R : forall r, iso_tz (sg :: h1 :: h2 :: r) =
    let r' := match r with ":"%char :: x => x | _ => r end in
    let fin mm := let off := ((Z.of_N (digits_value [h1; h2]) * 60 + Z.of_N mm) * us_per_min)%Z in Some (if Ascii.eqb sg "-" then (- off)%Z else off) in
    match r' with [] => fin 0%N | _ => match take2 r' with Some (mm, []) => fin mm | _ => None end end).
  { intros r. unfold iso_tz. rewrite (take2_two _ _ hh r H2). destruct Hs as [[-> _] | [-> _]]; reflexivity. }
  rewrite R. cbv zeta. destruct H2 as (D1 & D2 & Eh). change us_per_min with minute_us.
  destruct Hm as [[-> ->] | (m1 & m2 & -> & H3)].
  - assert (X : match colon ++ [] with ":"%char :: x => x | _ => colon ++ [] end = []) by (destruct Hc as [-> | ->]; reflexivity).
    rewrite X. subst hh. destruct Hs as [[-> ->] | [-> ->]]; reflexivity.
  - assert (X : match colon ++ [m1; m2] with ":"%char :: x => x | _ => colon ++ [m1; m2] end = [m1; m2]).
    { destruct Hc as [-> | ->]; [|reflexivity]. cbn [app]. destruct H3 as (D & _). destruct (digit_cases _ D) as (N & _).
      clear -N. destruct m1 as [[] [] [] [] [] [] [] []]; try reflexivity. now destruct N. }
    rewrite X, (take2_two _ _ mm [] H3). destruct H3 as (_ & _ & ->). subst hh. destruct Hs as [[-> ->] | [-> ->]]; reflexivity.
Qed.
Definition read_dt (y mo d h mi s us off : Z) : datetime :=
  {| dt_year := y; dt_month := mo; dt_day := d; dt_hour := h; dt_min := mi; dt_sec := s; dt_us := us; dt_tz := Some off |}.
Lemma canonical l y mo d h mi s us off : datetime_text l y mo d h mi s us off -> iso_canonical l = Some (read_dt y mo d h mi s us off).
Proof.
  intros (y1 & y2 & y3 & y4 & n1 & n2 & d1 & d2 & t & -> & Dy & -> & Hn & Hd & h1 & h2 & m1 & m2 & s1 & s2 & f & z & -> & Hh & Hm & Hs & Hf & Hz).
  cbn [forallb] in Dy. rewrite andb_true_r, !andb_true_iff in Dy. destruct Dy as (D1 & D2 & D3 & D4).
  unfold iso_canonical. rewrite D1, D2, D3, D4. cbn [andb].
  rewrite expect_same, (take2_two _ _ _ _ Hn), expect_same, (take2_two _ _ _ _ Hd), expect_same, (take2_two _ _ _ _ Hh), expect_same, (take2_two _ _ _ _ Hm), expect_same, (take2_two _ _ _ _ Hs).
  destruct (frac_read f z us off Hf Hz) as (n & -> & <-). rewrite (zone_read _ _ Hz). unfold read_dt.
  destruct Hn as (_ & _ & ->), Hd as (_ & _ & ->), Hh as (_ & _ & ->), Hm as (_ & _ & ->), Hs as (_ & _ & ->). reflexivity.
Qed.
Lemma read_ok y mo d h mi s us off : datetime_ok (read_dt y mo d h mi s us off) = true <-> calendar_date y mo d /\ clock_time h mi s us /\ offset_ok off.
Proof.
  unfold datetime_ok, read_dt. cbn [dt_year dt_month dt_day dt_hour dt_min dt_sec dt_us dt_tz]. rewrite !andb_true_iff, date_ok_spec, time_ok_spec.
  unfold offset_ok, day_us, us_per_day. rewrite !Z.ltb_lt. tauto.
Qed.
Lemma iso_read O s y mo d h mi sc us off : datetime_text (to_l s) y mo d h mi sc us off ->
  (calendar_date y mo d /\ clock_time h mi sc us /\ offset_ok off -> iso_parse O s = Ok (read_dt y mo d h mi sc us off)) /\
  (~ (calendar_date y mo d /\ clock_time h mi sc us /\ offset_ok off) -> iso_parse O s = Err ParseError).
Proof.
  intros H. unfold iso_parse. rewrite (canonical _ _ _ _ _ _ _ _ _ H). rewrite <- read_ok. destruct (datetime_ok _); split; intros N; try reflexivity; try discriminate. now destruct N.
Qed.
Lemma datetime_reads O s y mo d h mi sc us off : datetime_text (to_l s) y mo d h mi sc us off ->
  (calendar_date y mo d /\ clock_time h mi sc us /\ offset_ok off -> st_pythonvalue O SDateTime (VStr s) = Ok (VDateTime (read_dt y mo d h mi sc us off))) /\
  (~ (calendar_date y mo d /\ clock_time h mi sc us /\ offset_ok off) -> st_pythonvalue O SDateTime (VStr s) = Err ParseError).
Proof.
  intros H. cbn [st_pythonvalue datetime_pythonvalue]. destruct (String.eqb_spec s "nil") as [-> | _].
  - destruct H as (y1 & y2 & y3 & y4 & n1 & n2 & d1 & d2 & t & H & _). discriminate.
  - destruct (iso_read O s _ _ _ _ _ _ _ _ H) as [A B]. split; intros N; [rewrite (A N)|rewrite (B N)]; reflexivity.
Qed.
Lemma to_l_app a b : to_l (a ++ b)%string = to_l a ++ to_l b.
Proof. induction a as [|c a IH]; [reflexivity|]. cbn. now f_equal. Qed.
Lemma time_reads O s h mi sc us off : clock_text (to_l s) h mi sc us off ->
  (clock_time h mi sc us /\ offset_ok off -> st_pythonvalue O STime (VStr s) =
     Ok (VTime {| tm_hour := h; tm_min := mi; tm_sec := sc; tm_us := us; tm_tz := Some off |})) /\
  (~ (clock_time h mi sc us /\ offset_ok off) -> st_pythonvalue O STime (VStr s) = Err ValueError).
Proof.
  intros H. cbn [st_pythonvalue time_pythonvalue]. destruct (String.eqb_spec s "nil") as [-> | _].
  { destruct H as (h1 & h2 & m1 & m2 & s1 & s2 & f & z & H & _). discriminate. }
  assert (T : datetime_text (to_l ("1900-01-01T" ++ s)%string) 1900 1 1 h mi sc us off).
  { rewrite to_l_app. do 9 eexists. split; [reflexivity|]. repeat split. exact H. }
  assert (Cd : calendar_date 1900 1 1) by (apply date_ok_spec; reflexivity).
  destruct (iso_read O _ _ _ _ _ _ _ _ _ T) as [A B]. unfold time_parse. split; intros N; [rewrite A by tauto|rewrite B by tauto]; reflexivity.
Qed.
Lemma datetime_assign O : 
  (forall t, st_accept O SDateTime (VDateTime t) = Ok (VDateTime t)) /\ st_accept O SDateTime VNone = Ok VNone /\
  (forall s, s <> "nil"%string -> st_accept O SDateTime (VStr s) = st_pythonvalue O SDateTime (VStr s)) /\
  (forall v, v <> VNone -> (forall t, v <> VDateTime t) -> (forall s, v <> VStr s) -> st_accept O SDateTime v = Err ValueError).
Proof.
  repeat split; try reflexivity.
  - intros s N. cbn. apply String.eqb_neq in N. now rewrite N.
  - intros v N1 N2 N3. destruct v; try reflexivity; exfalso; [now apply N1 | now eapply N3 | now eapply N2].
Qed.
Lemma time_assign O : 
  (forall t, st_accept O STime (VTime t) = Ok (VTime t)) /\ st_accept O STime VNone = Ok VNone /\
  (forall s, s <> "nil"%string -> st_accept O STime (VStr s) = st_pythonvalue O STime (VStr s)) /\
  (forall v, v <> VNone -> (forall t, v <> VTime t) -> (forall s, v <> VStr s) -> st_accept O STime v = Err ValueError).
Proof.
  repeat split; try reflexivity.
  - intros s N. cbn. apply String.eqb_neq in N. now rewrite N.
  - intros v N1 N2 N3. destruct v; try reflexivity; exfalso; [now apply N1 | now eapply N3 | now eapply N2].
Qed.
Lemma none_texts O t : t = SDateTime \/ t = STime -> st_xmlvalue O t VNone = Ok (VStr "nil") /\ st_pythonvalue O t (VStr "nil") = Ok VNone /\ st_pythonvalue O t VNone = Ok VNone.
Proof. intros [-> | ->]; repeat split. Qed.
