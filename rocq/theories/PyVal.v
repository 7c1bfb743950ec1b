(** Python values handled by the type layer, Python comparison on them, and the
    oracle record for behaviour outside the model. *)
From Coq Require Import String Ascii List ZArith NArith Bool QArith.
From Verif Require Import PyBase Xml.
Import ListNotations.
Open Scope string_scope.
Open Scope list_scope.

(** ** Numbers *)

(** Mathematical value of a Python number. *)
Inductive num := NFin (q : Q) | NPInf | NNInf | NNaN.

(** A float: its [repr] and its exact value. *)
Record pyfloat := { fl_repr : string; fl_val : num }.

(** A [decimal.Decimal]: (-1)^neg * coef * 10^exp, or an infinity.
    Simplification: NaNs are not modelled. *)
Inductive pydec :=
| DecFin (neg : bool) (coef : N) (exp : Z)
| DecInf (neg : bool).

Definition pow10 (z : Z) : Q := Qpower (10 # 1) z.

Definition dec_val (d : pydec) : num :=
  match d with
  | DecFin neg c e =>
      NFin ((if neg then -1 else 1) * inject_Z (Z.of_N c) * pow10 e)
  | DecInf false => NPInf
  | DecInf true => NNInf
  end.

Definition num_eqb (a b : num) : bool :=
  match a, b with
  | NFin p, NFin q => Qeq_bool p q
  | NPInf, NPInf => true
  | NNInf, NNInf => true
  | _, _ => false
  end.
Definition num_leb (a b : num) : bool :=
  match a, b with
  | NNaN, _ | _, NNaN => false
  | NNInf, _ => true
  | _, NPInf => true
  | NFin p, NFin q => Qle_bool p q
  | _, _ => false
  end.
Definition num_ltb (a b : num) : bool :=
  match a, b with
  | NNaN, _ | _, NNaN => false
  | _, _ => num_leb a b && negb (num_eqb a b)
  end.

(** [str(d)] for a decimal (CPython's [Decimal.__str__], not engineering). *)
Definition dec_str (d : pydec) : string :=
  match d with
  | DecInf neg => (if neg then "-Infinity" else "Infinity")
  | DecFin neg c e =>
      let digits := dec_l c in
      let n := Z.of_nat (length digits) in
      let leftdigits := (e + n)%Z in
      let dotplace :=
        if ((e <=? 0)%Z && (-6 <? leftdigits)%Z)%bool then leftdigits else 1%Z in
      let zeros k := repeat "0"%char (Z.to_nat k) in
      let '(ip, fp) :=
        if (dotplace <=? 0)%Z then (["0"%char], "."%char :: zeros (- dotplace)%Z ++ digits)
        else if (n <=? dotplace)%Z then (digits ++ zeros (dotplace - n)%Z, [])
        else (firstn (Z.to_nat dotplace) digits, "."%char :: skipn (Z.to_nat dotplace) digits) in
      let ex := (leftdigits - dotplace)%Z in
      let exps := if (ex =? 0)%Z then []
                  else "E"%char :: (if (0 <? ex)%Z then ["+"%char] else ["-"%char])
                         ++ dec_l (Z.abs_N ex) in
      of_l ((if neg then ["-"%char] else []) ++ ip ++ fp ++ exps)
  end.

(** ** Values *)

(** A [datetime.datetime]; [dt_tz] is the UTC offset in microseconds of its
    tzinfo.  Simplification: tzinfo objects are fixed offsets
    ([datetime.timezone]); two of them are equal iff their offsets are. *)
Record datetime := {
  dt_year : Z; dt_month : Z; dt_day : Z;
  dt_hour : Z; dt_min : Z; dt_sec : Z; dt_us : Z; dt_tz : option Z }.
Record timeofday := {
  tm_hour : Z; tm_min : Z; tm_sec : Z; tm_us : Z; tm_tz : option Z }.

Inductive pyval :=
| VNone
| VNil                                   (* xsd.NIL, /repo/soapfish/xsd.py:49 *)
| VBool (b : bool)
| VInt (z : Z)
| VFloat (f : pyfloat)
| VDec (d : pydec)
| VStr (s : string)
| VDate (y m d : Z)                      (* datetime.date *)
| VXSDDate (y m d : Z) (tz : option Z)   (* xsd_types.XSDDate *)
| VDateTime (d : datetime)
| VTime (t : timeofday)
(** An instance of a ComplexType subclass: class name, [_xmlelement] if the
    instance was parsed, and the instance attributes. *)
| VObj (cls : string) (xe : option node) (fs : list (string * pyval))
(** A list; [typed] iff it is the [TypedList] of the field that holds it. *)
| VList (typed : bool) (l : list pyval)
(** Any other Python object. *)
| VOther (what : string).

(** xsd.UNBOUNDED = decimal.Decimal('infinity'), /repo/soapfish/xsd.py:50 *)
Definition UNBOUNDED : pyval := VDec (DecInf false).

(** Behaviour left open; theorems quantify over all oracles. *)
Record oracle := {
  o_float : string -> res pyfloat;      (* float(s) *)
  o_year_pad : bool;                    (* does strftime('%Y') pad to 4 digits? *)
  o_iso : string -> res datetime;       (* iso8601.parse_date on a text that is
                                           not YYYY-MM-DDThh:mm:ss[.f][tz] *)
  o_str : pyval -> string }.            (* str(x) for non-scalar x *)

Definition num_of (v : pyval) : option num :=
  match v with
  | VBool b => Some (NFin (if b then 1 else 0))
  | VInt z => Some (NFin (inject_Z z))
  | VFloat f => Some (fl_val f)
  | VDec d => Some (dec_val d)
  | _ => None
  end.

(** [v == w] for scalars.  Simplification: dates and objects compare unequal
    here (no modelled [==] reaches them). *)
Definition py_eqb (v w : pyval) : bool :=
  match num_of v, num_of w with
  | Some a, Some b => num_eqb a b
  | None, None =>
      match v, w with
      | VStr a, VStr b => String.eqb a b
      | VNone, VNone => true
      | VNil, VNil => true
      | _, _ => false
      end
  | _, _ => false
  end.

(** [v < w], [v <= w]; unorderable types raise TypeError. *)
Definition py_ltb (v w : pyval) : res bool :=
  match num_of v, num_of w with
  | Some a, Some b => Ok (num_ltb a b)
  | _, _ =>
      match v, w with
      | VStr a, VStr b => Ok (match String.compare a b with Lt => true | _ => false end)
      | _, _ => Err TypeError
      end
  end.
Definition py_leb (v w : pyval) : res bool :=
  match num_of v, num_of w with
  | Some a, Some b => Ok (num_leb a b)
  | _, _ =>
      match v, w with
      | VStr a, VStr b => Ok (match String.compare a b with Gt => false | _ => true end)
      | _, _ => Err TypeError
      end
  end.

(** [v in l] *)
Definition py_in (v : pyval) (l : list pyval) : bool := existsb (py_eqb v) l.

(** [str(v)] *)
Definition py_str (O : oracle) (v : pyval) : string :=
  match v with
  | VNone => "None"
  | VBool true => "True"
  | VBool false => "False"
  | VInt z => dec_Z z
  | VFloat f => fl_repr f
  | VDec d => dec_str d
  | VStr s => s
  | _ => o_str O v
  end.

(** Induction over values, with the induction hypothesis for nested ones. *)
Section PyvalInd.
  Variable P : pyval -> Prop.
  Hypothesis Hscalar : forall v,
    match v with VObj _ _ _ | VList _ _ => False | _ => True end -> P v.
  Hypothesis Hobj : forall c xe fs, Forall (fun p => P (snd p)) fs -> P (VObj c xe fs).
  Hypothesis Hlist : forall t l, Forall P l -> P (VList t l).
  Fixpoint pyval_ind' (v : pyval) : P v :=
    match v return P v with
    | VObj c xe fs =>
        Hobj c xe fs
          ((fix go (l : list (string * pyval)) : Forall (fun p => P (snd p)) l :=
              match l with
              | [] => Forall_nil _
              | p :: t => Forall_cons p (pyval_ind' (snd p)) (go t)
              end) fs)
    | VList t l =>
        Hlist t l
          ((fix go (l : list pyval) : Forall P l :=
              match l with
              | [] => Forall_nil _
              | p :: t => Forall_cons p (pyval_ind' p) (go t)
              end) l)
    | VNone => Hscalar VNone I
    | VNil => Hscalar VNil I
    | VBool b => Hscalar (VBool b) I
    | VInt z => Hscalar (VInt z) I
    | VFloat f => Hscalar (VFloat f) I
    | VDec d => Hscalar (VDec d) I
    | VStr s => Hscalar (VStr s) I
    | VDate y m d => Hscalar (VDate y m d) I
    | VXSDDate y m d t => Hscalar (VXSDDate y m d t) I
    | VDateTime d => Hscalar (VDateTime d) I
    | VTime t => Hscalar (VTime t) I
    | VOther w => Hscalar (VOther w) I
    end.
End PyvalInd.
