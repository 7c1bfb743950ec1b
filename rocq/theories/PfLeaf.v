(** Everyday simple values read back from their text. *)
From Coq Require Import String Ascii List ZArith NArith Bool Lia.
From Verif Require Import PyBase Xml PyVal XsdDate XsdSimple XsdComplex SpecSimple SpecDate SpecParse SpecRound
  PfBase PfSimple PfDate.
Import ListNotations.
Open Scope Z_scope.

Definition plain_char (c : ascii) : bool := (32 <=? code c)%N.
Lemma plain_ok l : forallb plain_char l = true -> xml_text_ok (of_l l) = true.
Proof.
  unfold xml_text_ok. rewrite to_of, !forallb_forall. intros H c Hc. specialize (H c Hc).
  unfold xml_char_ok, plain_char in *. now rewrite H.
Qed.
Lemma digits_plain l : forallb is_digit l = true -> forallb plain_char l = true.
Proof.
  rewrite !forallb_forall. intros H c Hc. specialize (H c Hc). apply is_digit_iff in H.
  unfold plain_char. apply N.leb_le. lia.
Qed.
Lemma dec_Z_ok z : xml_text_ok (dec_Z z) = true.
Proof.
  rewrite <- (of_to (dec_Z z)). apply plain_ok. apply forallb_forall. intros c Hc.
  apply dec_Z_chars in Hc as [H| ->]; [|reflexivity]. apply is_digit_iff in H.
  unfold plain_char. apply N.leb_le. lia.
Qed.
Lemma pad2_plain n : forallb plain_char (pad2_l n) = true.
Proof.
  unfold pad2_l. destruct (n <? 10)%N; cbn [forallb]; try apply andb_true_intro; try split; auto;
    apply digits_plain, dec_l_digits.
Qed.
Lemma tz_plain tz : forallb plain_char (fmt_tz tz) = true.
Proof.
  destruct tz as [off|]; auto. unfold fmt_tz, tz_string. cbn [forallb]. rewrite forallb_app. cbn [forallb].
  rewrite !pad2_plain. destruct (0 <=? off); reflexivity.
Qed.
Lemma fmt2_plain z : forallb plain_char (fmt2 z) = true.
Proof. apply digits_plain, fixed_digits. Qed.
Lemma date_plain O y m d : forallb plain_char (fmt_date O y m d) = true.
Proof.
  unfold fmt_date. rewrite !forallb_app. cbn [forallb]. rewrite forallb_app. cbn [forallb].
  rewrite !fmt2_plain, (digits_plain _ (fmt_year_digits O y)). reflexivity.
Qed.
Lemma time_plain h m s : forallb plain_char (fmt_time h m s) = true.
Proof.
  unfold fmt_time. rewrite !forallb_app. cbn [forallb]. rewrite forallb_app. cbn [forallb].
  now rewrite !fmt2_plain.
Qed.

Lemma everyday_leaf O s v : everyday O s v -> leaf_ok O s v.
Proof.
  destruct 1 as [cls f s FP FS WS Ne TX | b | c z R | y m d tz C T Y | t off C K U Y TZ T | t off K U TZ T];
    (split; [discriminate|split; [discriminate|]]).
  - exists s. repeat split; auto. apply string_accept_iff; auto.
  - exists (if b then "true" else "false")%string. destruct b; repeat split; discriminate.
  - exists (dec_Z z). destruct (integer_roundtrip O c z R) as (text & X & PV).
    cbn in X. injection X as <-. repeat split; auto.
    + destruct (dec_Z_head z) as (x & t & -> & _). discriminate.
    + apply dec_Z_ok.
    + now apply integer_ranges.
  - destruct (date_roundtrip_st O y m d tz C T Y) as (text & X & PV). exists text.
    assert (X' := X). cbn [st_xmlvalue date_xmlvalue datetime_xmlvalue time_xmlvalue res_map] in X'. match type of X' with Ok (VStr ?a) = Ok (VStr ?b) => assert (XE : b = a) by congruence end. clear X'; subst text. repeat split; auto.
    + intros Z. rewrite Z in PV. cbn in PV. discriminate.
    + apply plain_ok. rewrite forallb_app, date_plain. destruct tz; auto. apply (tz_plain (Some z)).
  - assert (K' : clock_time (dt_hour t) (dt_min t) (dt_sec t) (dt_us t)) by now rewrite U.
    destruct (datetime_roundtrip_st O t C K' Y T) as (text & X & PV). exists text.
    assert (X' := X). cbn [st_xmlvalue date_xmlvalue datetime_xmlvalue time_xmlvalue res_map] in X'. match type of X' with Ok (VStr ?a) = Ok (VStr ?b) => assert (XE : b = a) by congruence end. clear X'; subst text. repeat split; auto.
    + intros Z. apply (f_equal to_l) in Z. rewrite to_of in Z. symmetry in Z.
      destruct (fmt_date O (dt_year t) (dt_month t) (dt_day t)); discriminate.
    + apply plain_ok. rewrite forallb_app. cbn [forallb]. rewrite date_plain, forallb_app, time_plain, tz_plain. reflexivity.
    + rewrite PV. do 2 f_equal. rewrite TZ. destruct t; cbn in *. now subst.
  - assert (K' : clock_time (tm_hour t) (tm_min t) (tm_sec t) (tm_us t)) by now rewrite U.
    destruct (time_roundtrip_st O t K' T) as (text & X & PV). exists text.
    assert (X' := X). cbn [st_xmlvalue date_xmlvalue datetime_xmlvalue time_xmlvalue res_map] in X'. match type of X' with Ok (VStr ?a) = Ok (VStr ?b) => assert (XE : b = a) by congruence end. clear X'; subst text. repeat split; auto.
    + intros Z. apply (f_equal to_l) in Z. rewrite to_of in Z. symmetry in Z. unfold fmt_time in Z.
      destruct (fmt2 (tm_hour t)); discriminate.
    + apply plain_ok. now rewrite forallb_app, time_plain, tz_plain.
    + rewrite PV. do 2 f_equal. rewrite TZ. destruct t; cbn in *. now subst.
Qed.
