(** Vocabulary for shared state. *)
From Coq Require Import String Ascii List ZArith NArith Bool.
From Verif Require Import PyBase PyVal XsdSimple XsdComplex XsdHeap.
Import ListNotations.

(** The groups referred to with Ref have neither lists nor Refs of their own. *)
Definition simple_groups (E : env) : Prop :=
  forall c d f ct dt g, e_cls E c = Some d -> In f (cd_fields d) -> f_kind f = KRef -> f_type f = TComplex ct ->
    e_cls E ct = Some dt -> In g (cd_fields dt) -> f_kind g <> KList /\ f_kind g <> KRef.
(** Element objects with the same number are the same. *)
Definition numbered (E : env) (num : string -> string -> nat) : Prop :=
  forall c d f c' d' f', e_cls E c = Some d -> In f (cd_fields d) -> e_cls E c' = Some d' -> In f' (cd_fields d') ->
    num c (f_name f) = num c' (f_name f') -> f = f'.
