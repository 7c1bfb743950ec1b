(** C05, C06 and C16, continued: assigned texts, None, and what MaxOccurs takes. *)
From Coq Require Import String Ascii List ZArith NArith Bool QArith.
From Verif Require Import PyBase PyRe Xml PyVal XsdDate XsdSimple SpecSimple PfSimple PfSimple2.
Import ListNotations.
Open Scope Z_scope.

(** None may be assigned, and a text iff it denotes a number in range, which is
    then what is stored. *)
Theorem C05_integer_assigned_texts : forall O c,
  st_accept O (SInteger c no_dfacets) VNone = Ok VNone /\
  forall s, (forall v, st_accept O (SInteger c no_dfacets) (VStr s) = Ok v <->
                       exists z, int_text s z /\ in_int_range c z /\ v = VInt z) /\
            (forall e, st_accept O (SInteger c no_dfacets) (VStr s) = Err e -> e = ValueError).
Proof. exact integer_assign. Qed.
Print Assumptions C05_integer_assigned_texts.

(** None is written as a text, which the integer types refuse to read. *)
Theorem C06_none_text : forall O t, (exists c u, t = SInteger c u) \/ (exists c f, t = SDecimal c f) ->
  st_xmlvalue O t VNone = Ok (VStr "None").
Proof. exact none_text. Qed.
Print Assumptions C06_none_text.
Theorem C06_none_unreadable : forall O c,
  st_pythonvalue O (SInteger c no_dfacets) (VStr "None") = Err ValueError.
Proof. exact none_unread. Qed.
Print Assumptions C06_none_unreadable.

(** Everything MaxOccurs may be given. *)
Theorem C16_maxoccurs_assigned : forall O,
  st_accept O SMaxOccurs VNone = Ok VNone /\
  (forall v, v = VStr "unbounded" \/ num_of v = Some NPInf -> st_accept O SMaxOccurs v = Ok UNBOUNDED) /\
  (forall s v, s <> "unbounded"%string ->
     (st_accept O SMaxOccurs (VStr s) = Ok v <-> exists z, int_text s z /\ v = VInt z)) /\
  (forall s e, st_accept O SMaxOccurs (VStr s) = Err e -> e = ValueError) /\
  (forall v q, num_of v = Some (NFin q) -> exists z, st_accept O SMaxOccurs v = Ok (VInt z) /\
     Z.abs z * QDen q <= Z.abs (Qnum q) < (Z.abs z + 1) * QDen q /\ 0 <= z * Qnum q) /\
  (forall v, num_of v = Some NNInf -> st_accept O SMaxOccurs v = Err (Exn EOverflowError "")) /\
  (forall v, num_of v = Some NNaN -> st_accept O SMaxOccurs v = Err ValueError) /\
  (forall v, v <> VNone -> (forall s, v <> VStr s) -> num_of v = None -> st_accept O SMaxOccurs v = Err TypeError).
Proof. exact maxoccurs_assign. Qed.
Print Assumptions C16_maxoccurs_assigned.

Example C05_assigned_nonvacuous : forall O,
  st_accept O (SInteger CByte no_dfacets) (VStr "+127") = Ok (VInt 127) /\
  st_accept O (SInteger CByte no_dfacets) (VStr "128") = Err ValueError /\
  st_accept O (SInteger CByte no_dfacets) (VStr "nil") = Err ValueError.
Proof. repeat split. Qed.
Example C16_assigned_nonvacuous : forall O,
  num_of (VDec (DecFin true 27 (-1))) = Some (NFin (-27 # 10)) /\
  st_accept O SMaxOccurs (VDec (DecFin true 27 (-1))) = Ok (VInt (-2)) /\
  num_of (VDec (DecInf true)) = Some NNInf /\ st_accept O SMaxOccurs (VStr "7") = Ok (VInt 7) /\
  st_accept O SMaxOccurs VNil = Err TypeError.
Proof. repeat split. Qed.
