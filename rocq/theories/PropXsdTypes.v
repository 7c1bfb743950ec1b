(** C103: XSDDate objects; C11, continued: what may be assigned to a date. *)
From Coq Require Import String Ascii List ZArith Bool.
From Verif Require Import PyBase Xml PyVal XsdDate XsdSimple XsdTypes SpecDate PfXsdTypes.
Import ListNotations.
Open Scope Z_scope.

(** Two XSDDates are equal iff they name the same day in the same zone. *)
Theorem C103_equal : forall y m d tz y' m' d' tz',
  xsddate_eq (VXSDDate y m d tz) (VXSDDate y' m' d' tz') = true <-> y' = y /\ m' = m /\ d' = d /\ tz' = tz.
Proof. exact eq_xsddates. Qed.
Print Assumptions C103_equal.
(** Equal XSDDates are written the same. *)
Theorem C103_written : forall O a b y m d tz, a = VXSDDate y m d tz -> (exists y' m' d' tz', b = VXSDDate y' m' d' tz') ->
  xsddate_eq a b = true -> st_xmlvalue O SDate b = st_xmlvalue O SDate a.
Proof. exact eq_congr. Qed.
Print Assumptions C103_written.
(** An XSDDate equals no plain date, number, text or None: only XSDDates,
    datetimes, and instances of classes with such fields. *)
Theorem C103_kinds : forall y m d tz v, xsddate_eq (VXSDDate y m d tz) v = true ->
  (exists y' m' d' tz', v = VXSDDate y' m' d' tz') \/ (exists t, v = VDateTime t) \/ (exists c xe fs, v = VObj c xe fs).
Proof. exact eq_kinds. Qed.
Print Assumptions C103_kinds.
(** It equals every datetime of its day and zone. *)
Theorem C103_datetimes : forall y m d tz t,
  xsddate_eq (VXSDDate y m d tz) (VDateTime t) = true <-> dt_year t = y /\ dt_month t = m /\ dt_day t = d /\ dt_tz t = tz.
Proof. exact eq_datetime. Qed.
Print Assumptions C103_datetimes.
(** So equality is not transitive: every XSDDate equals two datetimes at different hours. *)
Theorem C103_transitive_refuted : forall y m d tz, exists t1 t2,
  xsddate_eq (VXSDDate y m d tz) (VDateTime t1) = true /\ xsddate_eq (VXSDDate y m d tz) (VDateTime t2) = true /\
  dt_hour t1 <> dt_hour t2 /\ clock_time (dt_hour t1) (dt_min t1) (dt_sec t1) (dt_us t1) /\ clock_time (dt_hour t2) (dt_min t2) (dt_sec t2) (dt_us t2).
Proof. exact datetime_not_transitive. Qed.
Print Assumptions C103_transitive_refuted.
(** A plain date survives the way to an XSDDate and back. *)
Theorem C103_from_date : forall y m d, calendar_date y m d ->
  exists x, from_datetime_date (VDate y m d) = Ok x /\ x = VXSDDate y m d None /\ as_datetime_date x = Ok (VDate y m d).
Proof. exact date_there. Qed.
Print Assumptions C103_from_date.
(** An XSDDate survives the way to a plain date and back iff it has no zone. *)
Theorem C103_to_date_partial : forall y m d tz, calendar_date y m d ->
  exists v x, as_datetime_date (VXSDDate y m d tz) = Ok v /\ from_datetime_date v = Ok x /\
    (xsddate_eq (VXSDDate y m d tz) x = true <-> tz = None).
Proof. exact xsddate_there. Qed.
Print Assumptions C103_to_date_partial.

Example C103_nonvacuous :
  calendar_date 2024 2 29 /\
  xsddate_eq (VXSDDate 2024 2 29 (Some 0)) (VXSDDate 2024 2 29 (Some 0)) = true /\
  xsddate_eq (VXSDDate 2024 2 29 (Some 0)) (VXSDDate 2024 2 29 None) = false /\
  xsddate_eq (VXSDDate 2024 2 29 None) (VDate 2024 2 29) = false /\
  xsddate_eq (VXSDDate 2024 2 29 None) (VObj "Day" None [("year", VInt 2024); ("month", VInt 2); ("day", VInt 29); ("tzinfo", VNone)]%string) = true.
Proof. split; [|repeat split]. split; [split; discriminate|]. split; [discriminate|]. right. right. left. split; [reflexivity|]. split; [left; split; [reflexivity|discriminate]|discriminate]. Qed.

(** C11: None, XSDDates and plain dates may be assigned; datetimes, times, texts
    and numbers may not. *)
Theorem C11_assigned : forall O, st_accept O SDate VNone = Ok VNone /\
  (forall y m d tz, st_accept O SDate (VXSDDate y m d tz) = Ok (VXSDDate y m d tz)) /\
  (forall y m d, calendar_date y m d -> st_accept O SDate (VDate y m d) = Ok (VXSDDate y m d None)) /\
  (forall v, match v with VDateTime _ | VTime _ | VStr _ | VInt _ | VBool _ | VFloat _ | VDec _ | VNil | VList _ _ => True | _ => False end ->
     st_accept O SDate v = Err ValueError).
Proof. exact date_assign. Qed.
Print Assumptions C11_assigned.
Example C11_assigned_nonvacuous : forall O,
  st_accept O SDate (VDate 2024 2 29) = Ok (VXSDDate 2024 2 29 None) /\ st_accept O SDate (VStr "2024-02-29") = Err ValueError.
Proof. repeat split. Qed.
