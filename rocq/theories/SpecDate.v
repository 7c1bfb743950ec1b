(** Specification of dates, times and UTC offsets. *)
From Coq Require Import String Ascii List ZArith NArith Bool.
From Verif Require Import PyBase Xml PyVal.
Import ListNotations.
Open Scope Z_scope.

(** ** The Gregorian calendar, years 1 to 9999 *)
Definition leap_year (y : Z) : Prop := (y mod 4 = 0 /\ y mod 100 <> 0) \/ y mod 400 = 0.

Definition calendar_date (y m d : Z) : Prop :=
  1 <= y <= 9999 /\ 1 <= d /\
  ((In m [1; 3; 5; 7; 8; 10; 12] /\ d <= 31) \/
   (In m [4; 6; 9; 11] /\ d <= 30) \/
   (m = 2 /\ leap_year y /\ d <= 29) \/
   (m = 2 /\ ~ leap_year y /\ d <= 28)).

Definition clock_time (h mi s us : Z) : Prop :=
  0 <= h < 24 /\ 0 <= mi < 60 /\ 0 <= s < 60 /\ 0 <= us < 1000000.

(** ** UTC offsets, in microseconds *)
Definition minute_us : Z := 60000000.
Definition day_us : Z := 86400000000.
Definition offset_ok (off : Z) : Prop := - day_us < off < day_us.
Definition whole_minutes (off : Z) : Prop := exists m, off = m * minute_us.
Definition tz_ok (tz : option Z) : Prop :=
  forall off, tz = Some off -> offset_ok off /\ whole_minutes off.

Definition tz_in_range (tz : option Z) : Prop := forall off, tz = Some off -> offset_ok off.

(** [(+|-)hh:mm] with hh < 24 and mm < 60 (an XML Schema time-zone suffix),
    denoting an offset of [m] minutes. *)
Definition tz_suffix (l : list ascii) (m : Z) : Prop :=
  exists sg h1 h2 m1 m2,
    l = [sg; h1; h2; ":"%char; m1; m2] /\
    forallb is_digit [h1; h2; m1; m2] = true /\
    let hh := Z.of_N (digits_value [h1; h2]) in
    let mm := Z.of_N (digits_value [m1; m2]) in
    hh < 24 /\ mm < 60 /\
    (sg = "+"%char /\ m = hh * 60 + mm \/ sg = "-"%char /\ m = - (hh * 60 + mm)).

(** ** Date texts as the reader understands them *)

(** Time-zone part of a date text. *)
Definition date_tz_text (l : list ascii) (tz : option Z) : Prop :=
  (l = [] /\ tz = None) \/
  (l = ["Z"%char] /\ tz = Some 0) \/
  (exists sg h1 h2 colon m1 m2,
     l = sg :: h1 :: h2 :: colon ++ [m1; m2] /\ (colon = [] \/ colon = [":"%char]) /\
     forallb is_digit [h1; h2; m1; m2] = true /\
     let off := Z.of_N (digits_value [h1; h2]) * 60 + Z.of_N (digits_value [m1; m2]) in
     (sg = "+"%char /\ tz = Some (off * minute_us) \/
      sg = "-"%char /\ tz = Some (- off * minute_us))).
(** Hours without minutes: matched by the reader but not understood. *)
Definition date_tz_hours_only (l : list ascii) : Prop :=
  exists sg h1 h2 colon, l = sg :: h1 :: h2 :: colon /\ (colon = [] \/ colon = [":"%char]) /\
    (sg = "+"%char \/ sg = "-"%char) /\ forallb is_digit [h1; h2] = true.

(** [[-]Y…Y-MM-DD<zone>] with at least four year digits, up to one final
    newline; the leading minus is part of the text but not of the value. *)
Definition date_shape (l zone : list ascii) (y m d : Z) : Prop :=
  exists sign ys m1 m2 d1 d2 eol,
    l = sign ++ ys ++ "-"%char :: m1 :: m2 :: "-"%char :: d1 :: d2 :: zone ++ eol /\
    (sign = [] \/ sign = ["-"%char]) /\ (eol = [] \/ eol = [nl]) /\
    (4 <= length ys)%nat /\ forallb is_digit ys = true /\
    forallb is_digit [m1; m2; d1; d2] = true /\
    y = Z.of_N (digits_value ys) /\ m = Z.of_N (digits_value [m1; m2]) /\
    d = Z.of_N (digits_value [d1; d2]).

Definition date_text (l : list ascii) (y m d : Z) (tz : option Z) : Prop :=
  exists zone, date_shape l zone y m d /\ date_tz_text zone tz.
