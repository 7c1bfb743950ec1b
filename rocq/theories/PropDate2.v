(** C14, C15, continued: texts of other programs, and assignments. *)
From Coq Require Import String Ascii List ZArith NArith Bool.
From Verif Require Import PyBase Xml PyVal XsdDate XsdSimple SpecDate SpecDate2 PfDate PfDate2.
Import ListNotations.
Open Scope Z_scope.

(** A date and time with any fraction and zone is read as what it says, to the
    microsecond; if there is no such date, time or zone it is refused. *)
Theorem C14_reads : forall O s y mo d h mi sc us off, datetime_text (to_l s) y mo d h mi sc us off ->
  (calendar_date y mo d /\ clock_time h mi sc us /\ offset_ok off ->
   st_pythonvalue O SDateTime (VStr s) = Ok (VDateTime
     {| dt_year := y; dt_month := mo; dt_day := d; dt_hour := h; dt_min := mi; dt_sec := sc; dt_us := us; dt_tz := Some off |})) /\
  (~ (calendar_date y mo d /\ clock_time h mi sc us /\ offset_ok off) ->
   st_pythonvalue O SDateTime (VStr s) = Err (Exn EParseError "")).
Proof. exact datetime_reads. Qed.
Print Assumptions C14_reads.
(** What may be assigned: a datetime, which is kept as it is, None, or a text, as
    it is read. *)
Theorem C14_assign : forall O,
  (forall t, st_accept O SDateTime (VDateTime t) = Ok (VDateTime t)) /\ st_accept O SDateTime VNone = Ok VNone /\
  (forall s, s <> "nil"%string -> st_accept O SDateTime (VStr s) = st_pythonvalue O SDateTime (VStr s)) /\
  (forall v, v <> VNone -> (forall t, v <> VDateTime t) -> (forall s, v <> VStr s) -> st_accept O SDateTime v = Err ValueError).
Proof. exact datetime_assign. Qed.
Print Assumptions C14_assign.

(** The same for times. *)
Theorem C15_reads : forall O s h mi sc us off, clock_text (to_l s) h mi sc us off ->
  (clock_time h mi sc us /\ offset_ok off ->
   st_pythonvalue O STime (VStr s) = Ok (VTime {| tm_hour := h; tm_min := mi; tm_sec := sc; tm_us := us; tm_tz := Some off |})) /\
  (~ (clock_time h mi sc us /\ offset_ok off) -> st_pythonvalue O STime (VStr s) = Err ValueError).
Proof. exact time_reads. Qed.
Print Assumptions C15_reads.
Theorem C15_assign : forall O,
  (forall t, st_accept O STime (VTime t) = Ok (VTime t)) /\ st_accept O STime VNone = Ok VNone /\
  (forall s, s <> "nil"%string -> st_accept O STime (VStr s) = st_pythonvalue O STime (VStr s)) /\
  (forall v, v <> VNone -> (forall t, v <> VTime t) -> (forall s, v <> VStr s) -> st_accept O STime v = Err ValueError).
Proof. exact time_assign. Qed.
Print Assumptions C15_assign.
(** None is written nil, and read back. *)
Theorem C15_none : forall O t, t = SDateTime \/ t = STime ->
  st_xmlvalue O t VNone = Ok (VStr "nil") /\ st_pythonvalue O t (VStr "nil") = Ok VNone /\ st_pythonvalue O t VNone = Ok VNone.
Proof. exact none_texts. Qed.
Print Assumptions C15_none.

Example C14_reads_nonvacuous :
  datetime_text (to_l "2024-02-29T21:32:52.1234567-0230") 2024 2 29 21 32 52 123456 (- (150 * minute_us)) /\
  (calendar_date 2024 2 29 /\ clock_time 21 32 52 123456 /\ offset_ok (- (150 * minute_us))) /\
  datetime_text (to_l "2023-02-29T24:00:00Z") 2023 2 29 24 0 0 0 0 /\ ~ (calendar_date 2023 2 29 /\ clock_time 24 0 0 0 /\ offset_ok 0) /\
  clock_text (to_l "21:32:52,5+01:") 21 32 52 500000 (60 * minute_us) /\ (clock_time 21 32 52 500000 /\ offset_ok (60 * minute_us)).
Proof.
  assert (T : forall a b, is_digit a = true -> is_digit b = true -> two a b (Z.of_N (digits_value [a; b]))) by (intros; repeat split; assumption).
  split; [|split; [|split; [|split; [|split]]]].
  - do 9 eexists. split; [reflexivity|]. split; [reflexivity|]. split; [reflexivity|]. split; [repeat split|]. split; [repeat split|].
    exists "2"%char, "1"%char, "3"%char, "2"%char, "5"%char, "2"%char, (to_l ".1234567"), (to_l "-0230"). split; [reflexivity|]. do 3 (split; [repeat split|]). split.
    + right. exists "."%char, (to_l "1234567"). split; [reflexivity|]. split; [now left|]. split; [discriminate|]. split; [reflexivity|]. vm_compute. split; [discriminate|reflexivity].
    + right. exists "-"%char, "0"%char, "2"%char, 2, [], (to_l "30"), 30. split; [reflexivity|]. split; [repeat split|]. split; [now left|].
      split; [right; exists "3"%char, "0"%char; repeat split|right; repeat split].
  - split; [apply date_ok_spec; reflexivity|]. split; [apply time_ok_spec; reflexivity|]. split; reflexivity.
  - do 9 eexists. split; [reflexivity|]. split; [reflexivity|]. split; [reflexivity|]. split; [repeat split|]. split; [repeat split|].
    exists "2"%char, "4"%char, "0"%char, "0"%char, "0"%char, "0"%char, [], ["Z"%char]. split; [reflexivity|]. do 3 (split; [repeat split|]). split; left; repeat split. now right.
  - intros (H & _). apply date_ok_spec in H. discriminate.
  - exists "2"%char, "1"%char, "3"%char, "2"%char, "5"%char, "2"%char, (to_l ",5"), (to_l "+01:"). split; [reflexivity|]. do 3 (split; [repeat split|]). split.
    + right. exists ","%char, ["5"%char]. split; [reflexivity|]. split; [now right|]. split; [discriminate|]. split; [reflexivity|]. vm_compute. split; [discriminate|reflexivity].
    + right. exists "+"%char, "0"%char, "1"%char, 1, [":"%char], [], 0. split; [reflexivity|]. split; [repeat split|]. split; [now right|]. split; left; repeat split.
  - split; [apply time_ok_spec; reflexivity|]. split; reflexivity.
Qed.
