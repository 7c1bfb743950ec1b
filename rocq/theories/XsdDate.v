(** xsd.Date, xsd.DateTime, xsd.Time and the UTC-offset suffix. *)
From Coq Require Import String Ascii List ZArith NArith Bool.
From Verif Require Import PyBase Xml PyVal.
Import ListNotations.
Open Scope string_scope.
Open Scope list_scope.

(** ** CPython [datetime] facts *)

Definition is_leap (y : Z) : bool :=
  ((y mod 4 =? 0) && (negb (y mod 100 =? 0) || (y mod 400 =? 0)))%Z.

Definition days_in_month (y m : Z) : Z :=
  (match m with
   | 1 | 3 | 5 | 7 | 8 | 10 | 12 => 31
   | 4 | 6 | 9 | 11 => 30
   | 2 => if is_leap y then 29 else 28
   | _ => 0
   end)%Z.

Definition date_ok (y m d : Z) : bool :=
  ((1 <=? y) && (y <=? 9999) && (1 <=? m) && (m <=? 12)
   && (1 <=? d) && (d <=? days_in_month y m))%Z.

Definition time_ok (h mi s us : Z) : bool :=
  ((0 <=? h) && (h <? 24) && (0 <=? mi) && (mi <? 60) && (0 <=? s) && (s <? 60)
   && (0 <=? us) && (us <? 1000000))%Z.

(** [datetime.date(y, m, d)]: C-int overflow, else range check. *)
Definition py_date (y m d : Z) : res unit :=
  if (2147483647 <? y)%Z then Err (Exn EOverflowError "")
  else if date_ok y m d then Ok tt else Err ValueError.

Definition us_per_min : Z := 60000000.
Definition us_per_day : Z := 86400000000.

(** [datetime.timezone(timedelta(...))]: the offset must be strictly between
    -24h and 24h.  Offsets are in microseconds. *)
Definition py_timezone (off : Z) : res Z :=
  if ((- us_per_day <? off) && (off <? us_per_day))%Z then Ok off else Err ValueError.

(** ['%Y'] of [strftime]: platform dependent below year 1000 (glibc does not
    pad). *)
Definition fmt_year (O : oracle) (y : Z) : list ascii :=
  if (1000 <=? y)%Z then dec_l (Z.to_N y)
  else if o_year_pad O then fixed_l 4 (Z.to_N y) else dec_l (Z.to_N y).
Definition fmt2 (z : Z) : list ascii := fixed_l 2 (Z.to_N z).

(** [strftime('%Y-%m-%d')] *)
Definition fmt_date (O : oracle) (y m d : Z) : list ascii :=
  fmt_year O y ++ "-"%char :: fmt2 m ++ "-"%char :: fmt2 d.
(** [strftime('%H:%M:%S')] *)
Definition fmt_time (h mi s : Z) : list ascii :=
  fmt2 h ++ ":"%char :: fmt2 mi ++ ":"%char :: fmt2 s.

(** ** utils.timezone_offset_to_string (/repo/soapfish/utils.py:194-213).
    [offset.days * 86400 + offset.seconds] is the offset rounded down to whole
    seconds. *)
Definition tz_seconds (off : Z) : Z := Z.abs (off / 1000000).
Definition tz_string (off : Z) : list ascii :=
  (if (0 <=? off)%Z then "+"%char else "-"%char)
  :: pad2_l (Z.to_N (tz_seconds off / 3600))
  ++ ":"%char :: pad2_l (Z.to_N ((tz_seconds off mod 3600) / 60)).

(** ** XSDDate (/repo/soapfish/xsd_types.py:12-59) *)
Definition mk_xsddate (y m d : Z) (tz : option Z) : res pyval :=
  py_date y m d ;;; Ok (VXSDDate y m d tz).

(** ** xsd.Date (/repo/soapfish/xsd.py:225-280) *)

(** Date.accept, lines 236-246.  Simplification: an instance of a ComplexType with
    fields year, month and day is refused here; the code takes it for a date. *)
Definition date_accept (v : pyval) : res pyval :=
  match v with
  | VNone => Ok VNone
  | VXSDDate y m d tz => Ok v
  | VDate y m d => mk_xsddate y m d None
  | _ => Err ValueError
  end.

(** Date.xmlvalue, lines 248-253.  A [datetime] also has strftime/tzinfo. *)
Definition date_xmlvalue (O : oracle) (v : pyval) : res string :=
  let out y m d tz :=
    Ok (of_l (fmt_date O y m d ++ match tz with None => [] | Some off => tz_string off end)) in
  match v with
  | VDate y m d => out y m d None
  | VXSDDate y m d tz => out y m d tz
  | VDateTime t => out (dt_year t) (dt_month t) (dt_day t) (dt_tz t)
  | _ => Err AttributeError
  end.

Fixpoint span_digits (l : list ascii) : list ascii * list ascii :=
  match l with
  | c :: t => if is_digit c then let '(d, r) := span_digits t in (c :: d, r) else ([], l)
  | [] => ([], [])
  end.

(** [$]: at the end or before a final newline. *)
Definition at_eol (l : list ascii) : bool :=
  match l with
  | [] => true
  | [c] => Ascii.eqb c nl
  | _ => false
  end.

Inductive tzmatch := TzNone | TzZ | TzOff (neg : bool) (hh : N) (mm : option N).

(** The [(?P<timezone>...)?$] part of the regular expression, line 234. *)
Definition match_tz (l : list ascii) : option tzmatch :=
  if at_eol l then Some TzNone
  else match l with
       | "Z"%char :: r => if at_eol r then Some TzZ else None
       | sg :: h1 :: h2 :: r =>
           if (Ascii.eqb sg "+" || Ascii.eqb sg "-") && is_digit h1 && is_digit h2 then
             let hh := digits_value [h1; h2] in
             let neg := Ascii.eqb sg "-" in
             let r' := match r with ":"%char :: x => x | _ => r end in
             if at_eol r' then Some (TzOff neg hh None)
             else match r' with
                  | m1 :: m2 :: r'' =>
                      if is_digit m1 && is_digit m2 && at_eol r''
                      then Some (TzOff neg hh (Some (digits_value [m1; m2])))
                      else None
                  | _ => None
                  end
           else None
       | _ => None
       end.

(** YEAR_MONTH_DAY_REGEX.match, lines 231-234: year, month, day, time zone. *)
Definition match_date (l : list ascii) : option (N * N * N * tzmatch) :=
  let l := match l with "-"%char :: t => t | _ => l end in
  let '(y, r) := span_digits l in
  if Nat.ltb (length y) 4 then None
  else match r with
       | "-"%char :: m1 :: m2 :: "-"%char :: d1 :: d2 :: rest =>
           if is_digit m1 && is_digit m2 && is_digit d1 && is_digit d2 then
             match match_tz rest with
             | Some tz => Some (digits_value y, digits_value [m1; m2], digits_value [d1; d2], tz)
             | None => None
             end
           else None
       | _ => None
       end.

(** Date._parse_tz, lines 270-280; [int(None)] is a TypeError. *)
Definition parse_tz (m : tzmatch) : res (option Z) :=
  match m with
  | TzNone => Ok None
  | TzZ => Ok (Some 0%Z)
  | TzOff neg hh None => Err TypeError
  | TzOff neg hh (Some mm) =>
      let off := ((Z.of_N hh * 60 + Z.of_N mm) * us_per_min)%Z in
      o <- py_timezone (if neg then (- off)%Z else off) ;; Ok (Some o)
  end.

(** Date.pythonvalue, lines 255-268. *)
Definition date_pythonvalue (v : pyval) : res pyval :=
  match v with
  | VNone => Ok VNone
  | VStr s =>
      if String.eqb s "nil" then Ok VNone
      else match match_date (to_l s) with
           | None => Err ValueError
           | Some (y, m, d, t) =>
               tz <- parse_tz t ;;
               mk_xsddate (Z.of_N y) (Z.of_N m) (Z.of_N d) tz
           end
  | _ => Err ValueError
  end.

(** ** iso8601.parse_date

    External library.  Texts of the shape [YYYY-MM-DDThh:mm:ss[.f][tz]] are
    interpreted here; every other text is left to the oracle.  A missing time
    zone means UTC (the library's default). *)

Definition take2 (l : list ascii) : option (N * list ascii) :=
  match l with
  | a :: b :: t => if is_digit a && is_digit b then Some (digits_value [a; b], t) else None
  | _ => None
  end.
Definition expect (c : ascii) (l : list ascii) : option (list ascii) :=
  match l with
  | x :: t => if Ascii.eqb x c then Some t else None
  | [] => None
  end.

(** Microseconds of a fraction: the first six digits. *)
Definition frac_us (f : list ascii) : N :=
  digits_value (firstn 6 (f ++ repeat "0"%char 6)).

Definition iso_frac (l : list ascii) : N * list ascii :=
  match l with
  | c :: t =>
      if Ascii.eqb c "." || Ascii.eqb c "," then
        match span_digits t with
        | ([], _) => (0%N, l)
        | (f, r) => (frac_us f, r)
        end
      else (0%N, l)
  | [] => (0%N, [])
  end.

(** The zone: none/[Z] is UTC, else [+hh], [+hhmm], [+hh:mm], [+hh:] . *)
Definition iso_tz (l : list ascii) : option Z :=
  match l with
  | [] => Some 0%Z
  | ["Z"%char] => Some 0%Z
  | sg :: t =>
      if Ascii.eqb sg "+" || Ascii.eqb sg "-" then
        match take2 t with
        | Some (hh, r) =>
            let r' := match r with ":"%char :: x => x | _ => r end in
            let fin mm := let off := ((Z.of_N hh * 60 + Z.of_N mm) * us_per_min)%Z in
                          Some (if Ascii.eqb sg "-" then (- off)%Z else off) in
            match r' with
            | [] => fin 0%N
            | _ => match take2 r' with Some (mm, []) => fin mm | _ => None end
            end
        | None => None
        end
      else None
  end.

Definition iso_canonical (l : list ascii) : option datetime :=
  match l with
  | y1 :: y2 :: y3 :: y4 :: l =>
      if is_digit y1 && is_digit y2 && is_digit y3 && is_digit y4 then
        match expect "-" l with None => None | Some l =>
        match take2 l with None => None | Some (mo, l) =>
        match expect "-" l with None => None | Some l =>
        match take2 l with None => None | Some (d, l) =>
        match expect "T" l with None => None | Some l =>
        match take2 l with None => None | Some (h, l) =>
        match expect ":" l with None => None | Some l =>
        match take2 l with None => None | Some (mi, l) =>
        match expect ":" l with None => None | Some l =>
        match take2 l with None => None | Some (s, l) =>
        let '(us, l) := iso_frac l in
        match iso_tz l with None => None | Some off =>
          Some {| dt_year := Z.of_N (digits_value [y1; y2; y3; y4]);
                  dt_month := Z.of_N mo; dt_day := Z.of_N d; dt_hour := Z.of_N h;
                  dt_min := Z.of_N mi; dt_sec := Z.of_N s; dt_us := Z.of_N us;
                  dt_tz := Some off |}
        end end end end end end end end end end end
      else None
  | _ => None
  end.

Definition datetime_ok (t : datetime) : bool :=
  date_ok (dt_year t) (dt_month t) (dt_day t)
  && time_ok (dt_hour t) (dt_min t) (dt_sec t) (dt_us t)
  && match dt_tz t with
     | None => true
     | Some off => ((- us_per_day <? off) && (off <? us_per_day))%Z
     end.

Definition ParseError := Exn EParseError "".

Definition iso_parse (O : oracle) (s : string) : res datetime :=
  match iso_canonical (to_l s) with
  | Some t => if datetime_ok t then Ok t else Err ParseError
  | None => o_iso O s
  end.

(** ** xsd.DateTime (/repo/soapfish/xsd.py:283-305) *)

(** DateTime.accept, lines 286-293. *)
Definition datetime_accept (O : oracle) (v : pyval) : res pyval :=
  match v with
  | VNone => Ok VNone
  | VDateTime _ => Ok v
  | VStr s => res_map VDateTime (iso_parse O s)
  | _ => Err ValueError
  end.

Definition fmt_tz (tz : option Z) : list ascii :=
  match tz with None => [] | Some off => tz_string off end.

(** DateTime.xmlvalue, lines 295-302. *)
Definition datetime_xmlvalue (O : oracle) (v : pyval) : res string :=
  match v with
  | VNone => Ok "nil"
  | VDateTime t =>
      Ok (of_l (fmt_date O (dt_year t) (dt_month t) (dt_day t) ++ "T"%char ::
                fmt_time (dt_hour t) (dt_min t) (dt_sec t) ++ fmt_tz (dt_tz t)))
  | _ => Err AttributeError   (* no strftime / no tzinfo *)
  end.

(** DateTime.pythonvalue, lines 304-305; parse_date of a non-string is a
    ParseError. *)
Definition datetime_pythonvalue (O : oracle) (v : pyval) : res pyval :=
  match v with
  | VNone => Ok VNone
  | VStr s => if String.eqb s "nil" then Ok VNone else res_map VDateTime (iso_parse O s)
  | _ => Err ParseError
  end.

(** ** xsd.Time (/repo/soapfish/xsd.py:308-340) *)

(** Time._parse, lines 332-340: any exception becomes a ValueError. *)
Definition time_parse (O : oracle) (s : string) : res pyval :=
  match iso_parse O ("1900-01-01T" ++ s) with
  | Ok t => Ok (VTime {| tm_hour := dt_hour t; tm_min := dt_min t; tm_sec := dt_sec t;
                         tm_us := dt_us t; tm_tz := dt_tz t |})
  | Err _ => Err ValueError
  end.

(** Time.accept, lines 311-318. *)
Definition time_accept (O : oracle) (v : pyval) : res pyval :=
  match v with
  | VNone => Ok VNone
  | VTime _ => Ok v
  | VStr s => time_parse O s
  | _ => Err ValueError
  end.

(** Time.xmlvalue, lines 320-327. *)
Definition time_xmlvalue (O : oracle) (v : pyval) : res string :=
  match v with
  | VNone => Ok "nil"
  | VTime t => Ok (of_l (fmt_time (tm_hour t) (tm_min t) (tm_sec t) ++ fmt_tz (tm_tz t)))
  | VDateTime t => Ok (of_l (fmt_time (dt_hour t) (dt_min t) (dt_sec t) ++ fmt_tz (dt_tz t)))
  | _ => Err AttributeError
  end.

(** Time.pythonvalue, lines 329-330; a non-string makes ['1900…' + value] a
    TypeError (raised outside the try only for non-strings: it is inside, so it
    becomes a ValueError). *)
Definition time_pythonvalue (O : oracle) (v : pyval) : res pyval :=
  match v with
  | VNone => Ok VNone
  | VStr s => if String.eqb s "nil" then Ok VNone else time_parse O s
  | _ => Err ValueError
  end.
