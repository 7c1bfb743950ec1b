(** /repo/soapfish/xsd_types.py: comparing and converting XSDDate objects. *)
From Coq Require Import String Ascii List ZArith Bool.
From Verif Require Import PyBase Xml PyVal XsdDate.
Import ListNotations.
Open Scope Z_scope.

(** What [getattr(other, key)] gives for the keys of XSDDate.__eq__: a number, a
    time zone, or the value of a field of a ComplexType instance. *)
Inductive attrval := AInt (z : Z) | ATz (tz : option Z) | AField (v : pyval).

(** [getattr(v, key)]; None if there is no such attribute.  datetime.date has no
    tzinfo, datetime.time no year.  Simplification: other Python objects
    ([VOther]) have none of these attributes. *)
Definition attribute (v : pyval) (key : string) : option attrval :=
  match v with
  | VXSDDate y m d tz =>
      if String.eqb key "year" then Some (AInt y) else if String.eqb key "month" then Some (AInt m)
      else if String.eqb key "day" then Some (AInt d) else if String.eqb key "tzinfo" then Some (ATz tz) else None
  | VDateTime t =>
      if String.eqb key "year" then Some (AInt (dt_year t)) else if String.eqb key "month" then Some (AInt (dt_month t))
      else if String.eqb key "day" then Some (AInt (dt_day t)) else if String.eqb key "tzinfo" then Some (ATz (dt_tz t)) else None
  | VDate y m d =>
      if String.eqb key "year" then Some (AInt y) else if String.eqb key "month" then Some (AInt m)
      else if String.eqb key "day" then Some (AInt d) else None
  | VTime t => if String.eqb key "tzinfo" then Some (ATz (tm_tz t)) else None
  | VObj _ _ fs => option_map AField (assoc key fs)
  | _ => None
  end.

(** [==] between two such values; a time zone equals no value of a field. *)
Definition attr_eqb (a b : attrval) : bool :=
  match a, b with
  | AInt x, AInt y => (x =? y)%Z
  | AInt x, AField v | AField v, AInt x => py_eqb (VInt x) v
  | ATz x, ATz y => match x, y with Some x, Some y => (x =? y)%Z | None, None => true | _, _ => false end
  | ATz None, AField VNone | AField VNone, ATz None => true
  | AField v, AField w => py_eqb v w
  | _, _ => false
  end.

(** XSDDate.__eq__, lines 52-56; [self] is an XSDDate, which has all four. *)
Definition xsddate_eq (self other : pyval) : bool :=
  forallb (fun key => match attribute other key, attribute self key with
                      | Some b, Some a => attr_eqb a b
                      | _, _ => false
                      end) ["year"; "month"; "day"; "tzinfo"]%string.

(** XSDDate.from_datetime_date, lines 31-33; a datetime is a date, too. *)
Definition from_datetime_date (v : pyval) : res pyval :=
  match attribute v "year", attribute v "month", attribute v "day" with
  | Some (AInt y), Some (AInt m), Some (AInt d) => mk_xsddate y m d None
  | _, _, _ => Err AttributeError
  end.

(** XSDDate.as_datetime_date, lines 43-50. *)
Definition as_datetime_date (v : pyval) : res pyval :=
  match v with
  | VXSDDate y m d _ => py_date y m d ;;; Ok (VDate y m d)
  | _ => Err AttributeError
  end.
