(** Date and time texts, as other programs write them. *)
From Coq Require Import String Ascii List ZArith NArith Bool.
From Verif Require Import PyBase SpecDate.
Import ListNotations.
Open Scope Z_scope.

Definition two (a b : ascii) (z : Z) : Prop := is_digit a = true /\ is_digit b = true /\ z = Z.of_N (digits_value [a; b]).
(** Nothing, or a point or comma and digits: [us] is the whole number of microseconds in it. *)
Definition fraction (l : list ascii) (us : Z) : Prop :=
  (l = [] /\ us = 0) \/
  exists sep ds, l = sep :: ds /\ (sep = "."%char \/ sep = ","%char) /\ ds <> [] /\ forallb is_digit ds = true /\
    let n := 10 ^ Z.of_nat (length ds) in
    us * n <= Z.of_N (digits_value ds) * 1000000 < (us + 1) * n.
(** Nothing or Z for UTC, or a sign with hours and, unless there are none, minutes. *)
Definition zone (l : list ascii) (off : Z) : Prop :=
  ((l = [] \/ l = ["Z"%char]) /\ off = 0) \/
  exists sg h1 h2 hh colon mins mm, l = sg :: h1 :: h2 :: colon ++ mins /\ two h1 h2 hh /\ (colon = [] \/ colon = [":"%char]) /\
    (mins = [] /\ mm = 0 \/ exists m1 m2, mins = [m1; m2] /\ two m1 m2 mm) /\
    (sg = "+"%char /\ off = (hh * 60 + mm) * minute_us \/ sg = "-"%char /\ off = - ((hh * 60 + mm) * minute_us)).
(** [hh:mm:ss] with a fraction and a zone. *)
Definition clock_text (l : list ascii) (h mi s us off : Z) : Prop :=
  exists h1 h2 m1 m2 s1 s2 f z,
    l = h1 :: h2 :: ":"%char :: m1 :: m2 :: ":"%char :: s1 :: s2 :: f ++ z /\
    two h1 h2 h /\ two m1 m2 mi /\ two s1 s2 s /\ fraction f us /\ zone z off.
(** [YYYY-MM-DDThh:mm:ss] with a fraction and a zone. *)
Definition datetime_text (l : list ascii) (y mo d h mi s us off : Z) : Prop :=
  exists y1 y2 y3 y4 n1 n2 d1 d2 t,
    l = y1 :: y2 :: y3 :: y4 :: "-"%char :: n1 :: n2 :: "-"%char :: d1 :: d2 :: "T"%char :: t /\
    forallb is_digit [y1; y2; y3; y4] = true /\ y = Z.of_N (digits_value [y1; y2; y3; y4]) /\
    two n1 n2 mo /\ two d1 d2 d /\ clock_text t h mi s us off.
