(** Properties C11-C15: dates and times. *)
From Coq Require Import String Ascii List ZArith NArith Bool.
From Verif Require Import PyBase Xml PyVal XsdDate XsdSimple SpecDate PfDate.
Import ListNotations.
Open Scope Z_scope.

(** ** C11 *)
(** Missing: years below 1000 on platforms whose [strftime('%Y')] does not pad
    to four digits (glibc); refuted below. *)
Theorem C11_date_roundtrip_partial :
  forall O y m d tz, calendar_date y m d -> tz_ok tz ->
  (1000 <= y \/ o_year_pad O = true) ->
  exists text, st_xmlvalue O SDate (VXSDDate y m d tz) = Ok (VStr text) /\
    st_pythonvalue O SDate (VStr text) = Ok (VXSDDate y m d tz).
Proof. exact date_roundtrip_st. Qed.
Print Assumptions C11_date_roundtrip_partial.
Theorem C11_plain_dates_accepted :
  forall O y m d, calendar_date y m d ->
  st_accept O SDate (VDate y m d) = Ok (VXSDDate y m d None).
Proof. exact date_accept_date. Qed.
Print Assumptions C11_plain_dates_accepted.
Theorem C11_early_years_refuted :
  forall O y m d tz, o_year_pad O = false -> 1 <= y < 1000 ->
  exists text, st_xmlvalue O SDate (VXSDDate y m d tz) = Ok (VStr text) /\
    st_pythonvalue O SDate (VStr text) = Err ValueError.
Proof. exact date_early_st. Qed.
Print Assumptions C11_early_years_refuted.
Example C11_nonvacuous : forall O,
  calendar_date 2024 2 29 /\ tz_ok (Some (- 150 * minute_us)) /\
  st_xmlvalue O SDate (VXSDDate 2024 2 29 (Some (- 150 * minute_us))) = Ok (VStr "2024-02-29-02:30").
Proof.
  intros O. split; [apply date_ok_spec; reflexivity|]. split; [|reflexivity].
  intros off [= <-]. split; [split; reflexivity | exists (-150); reflexivity].
Qed.

(** ** C12 *)
(** A text is read as a date exactly when it has the shape [date_text] and names
    an existing day with an offset within 24 hours. *)
Theorem C12_date_texts_partial :
  forall O s v, st_pythonvalue O SDate (VStr s) = Ok v <->
  (s = "nil"%string /\ v = VNone) \/
  (exists y m d tz, date_text (to_l s) y m d tz /\ calendar_date y m d /\ tz_in_range tz
     /\ v = VXSDDate y m d tz).
Proof. exact (fun O => date_python_ok). Qed.
Print Assumptions C12_date_texts_partial.
(** The other texts raise ValueError, except for two kinds: *)
Theorem C12_date_errors_partial :
  forall O s e, st_pythonvalue O SDate (VStr s) = Err e ->
  e = ValueError \/
  (e = TypeError /\ exists zone y m d, date_shape (to_l s) zone y m d /\ date_tz_hours_only zone) \/
  (e = Exn EOverflowError "" /\ exists zone y m d, date_shape (to_l s) zone y m d /\ 2147483647 < y).
Proof. exact (fun O => date_python_err). Qed.
Print Assumptions C12_date_errors_partial.
Theorem C12_hours_only_zone_refuted :
  forall O s zone y m d, date_shape (to_l s) zone y m d -> date_tz_hours_only zone ->
  st_pythonvalue O SDate (VStr s) = Err TypeError.
Proof. exact (fun O => date_python_hours_only). Qed.
Print Assumptions C12_hours_only_zone_refuted.
Theorem C12_huge_year_refuted :
  forall O s zone y m d tz, date_shape (to_l s) zone y m d ->
  date_tz_text zone tz -> tz_in_range tz -> 2147483647 < y ->
  st_pythonvalue O SDate (VStr s) = Err (Exn EOverflowError "").
Proof. exact (fun O => date_python_overflow). Qed.
Print Assumptions C12_huge_year_refuted.
Example C12_nonvacuous : forall O,
  st_pythonvalue O SDate (VStr "2001-10-26+0230") = Ok (VXSDDate 2001 10 26 (Some (150 * minute_us))) /\
  st_pythonvalue O SDate (VStr "-2001-10-26") = Ok (VXSDDate 2001 10 26 None) /\
  st_pythonvalue O SDate (VStr "2001-02-29") = Err ValueError /\
  st_pythonvalue O SDate (VStr "2001-10-26+02") = Err TypeError /\
  st_pythonvalue O SDate (VStr "99999999999-10-26") = Err (Exn EOverflowError "").
Proof. intros O. repeat split. Qed.
Example C12_shape_nonvacuous :
  date_shape (to_l "2001-10-26+02") (to_l "+02") 2001 10 26 /\ date_tz_hours_only (to_l "+02").
Proof.
  split.
  - exists [], (to_l "2001"), "1"%char, "0"%char, "2"%char, "6"%char, []. repeat split; auto.
  - exists "+"%char, "0"%char, "2"%char, []. repeat split; auto.
Qed.

(** ** C13 *)
(** Missing: offsets within the last second above -24h (refuted below). *)
Theorem C13_offset_suffix_partial :
  forall off, offset_ok off -> - 86399000000 <= off ->
  exists m, tz_suffix (tz_string off) m /\ (whole_minutes off -> m * minute_us = off) /\
    Z.abs (off - m * minute_us) < minute_us.
Proof. exact tz_string_suffix. Qed.
Print Assumptions C13_offset_suffix_partial.
Theorem C13_offset_minus_24_refuted :
  forall off, offset_ok off -> off < - 86399000000 -> of_l (tz_string off) = "-24:00"%string.
Proof. exact tz_string_24. Qed.
Print Assumptions C13_offset_minus_24_refuted.
Example C13_nonvacuous : offset_ok (- 86399500000) /\
  of_l (tz_string (90 * minute_us)) = "+01:30"%string /\
  of_l (tz_string (- 90 * minute_us - 1)) = "-01:30"%string.
Proof. repeat split. Qed.

(** ** C14 *)
Theorem C14_datetime_roundtrip :
  forall O t,
  calendar_date (dt_year t) (dt_month t) (dt_day t) ->
  clock_time (dt_hour t) (dt_min t) (dt_sec t) (dt_us t) ->
  (1000 <= dt_year t \/ o_year_pad O = true) -> tz_ok (dt_tz t) ->
  exists text, st_xmlvalue O SDateTime (VDateTime t) = Ok (VStr text) /\
    st_pythonvalue O SDateTime (VStr text) = Ok (VDateTime
      {| dt_year := dt_year t; dt_month := dt_month t; dt_day := dt_day t;
         dt_hour := dt_hour t; dt_min := dt_min t; dt_sec := dt_sec t; dt_us := 0;
         dt_tz := Some (match dt_tz t with Some off => off | None => 0 end) |}).
Proof. exact datetime_roundtrip_st. Qed.
Print Assumptions C14_datetime_roundtrip.
Definition ex_dt : datetime :=
  {| dt_year := 2001; dt_month := 10; dt_day := 26; dt_hour := 21; dt_min := 32; dt_sec := 52;
     dt_us := 999999; dt_tz := Some (- 150 * minute_us) |}.
Example C14_nonvacuous : forall O,
  calendar_date 2001 10 26 /\ clock_time 21 32 52 999999 /\ tz_ok (dt_tz ex_dt) /\
  st_xmlvalue O SDateTime (VDateTime ex_dt) = Ok (VStr "2001-10-26T21:32:52-02:30").
Proof.
  intros O. split; [apply date_ok_spec; reflexivity|]. split; [apply time_ok_spec; reflexivity|].
  split; [|reflexivity].
  intros off [= <-]. split; [split; reflexivity | exists (-150); reflexivity].
Qed.

(** ** C15 *)
Theorem C15_time_roundtrip :
  forall O t,
  clock_time (tm_hour t) (tm_min t) (tm_sec t) (tm_us t) -> tz_ok (tm_tz t) ->
  exists text, st_xmlvalue O STime (VTime t) = Ok (VStr text) /\
    st_pythonvalue O STime (VStr text) = Ok (VTime
      {| tm_hour := tm_hour t; tm_min := tm_min t; tm_sec := tm_sec t; tm_us := 0;
         tm_tz := Some (match tm_tz t with Some off => off | None => 0 end) |}).
Proof. exact time_roundtrip_st. Qed.
Print Assumptions C15_time_roundtrip.
Theorem C15_time_errors :
  forall O s e, st_pythonvalue O STime (VStr s) = Err e -> e = ValueError.
Proof. exact time_python_err. Qed.
Print Assumptions C15_time_errors.
Example C15_nonvacuous : forall O,
  st_xmlvalue O STime (VTime {| tm_hour := 21; tm_min := 32; tm_sec := 52; tm_us := 5; tm_tz := None |})
    = Ok (VStr "21:32:52") /\
  st_pythonvalue O STime (VStr "24:00:00") = Err ValueError.
Proof. intros O. split; reflexivity. Qed.
