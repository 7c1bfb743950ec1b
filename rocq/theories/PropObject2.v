(** C19 and C20, continued: classes called with keyword arguments, and appends. *)
From Coq Require Import String Ascii List ZArith NArith Bool.
From Verif Require Import PyBase Xml PyVal XsdSimple XsdComplex SpecObject ExEnv PfObject2.
Import ListNotations.
Open Scope Z_scope.

(** [Class(name=value, ...)] makes an object iff [Class()] does and every name is
    a field that takes its value. *)
Theorem C19_construction_succeeds : forall O E c d kw,
  e_cls E c = Some d -> NoDup (map f_name (cd_fields d)) -> NoDup (map fst kw) ->
  ((exists o, construct O E c kw = Ok o) <->
   (exists fs0, new_instance O E c = Ok fs0) /\
   forall name v, In (name, v) kw -> exists f v', In f (cd_fields d) /\ f_name f = name /\ field_accept O E f v = Ok v').
Proof. exact (fun O E c d kw H1 H2 H3 => proj1 (construct_spec O E c d kw H1 H2 H3)). Qed.
Print Assumptions C19_construction_succeeds.
(** The object is of that class, has exactly its fields, holds what each argument
    was accepted as, what [Class()] has elsewhere, and nothing invalid. *)
Theorem C19_construction_result : forall O E c d kw o,
  e_cls E c = Some d -> NoDup (map f_name (cd_fields d)) -> NoDup (map fst kw) ->
  construct O E c kw = Ok o -> exists fs0 fs, new_instance O E c = Ok fs0 /\ o = VObj c None fs /\
     (forall name, assoc name fs <> None <-> In name (map f_name (cd_fields d))) /\
     (forall f, In f (cd_fields d) -> is_list f = false -> exists v, getattr fs (f_name f) = Ok v /\ may_hold O E f v) /\
     (forall name v, In (name, v) kw -> exists f v', In f (cd_fields d) /\ f_name f = name /\ field_accept O E f v = Ok v' /\ getattr fs name = Ok v') /\
     (forall name, ~ In name (map fst kw) -> getattr fs name = getattr fs0 name).
Proof. exact (fun O E c d kw o H1 H2 H3 => proj2 (construct_spec O E c d kw H1 H2 H3) o). Qed.
Print Assumptions C19_construction_result.
Example C19_construction_nonvacuous :
  NoDup (map f_name (cd_fields cd_flight)) /\
  (exists fs, construct ex_oracle ex_env "Flight" [("number", VStr "12"); ("id", VStr "A")]%string = Ok (VObj "Flight" None fs) /\
     getattr fs "number" = Ok (VInt 12) /\ getattr fs "id" = Ok (VStr "A")) /\
  construct ex_oracle ex_env "Flight" [("number", VStr "x")]%string = Err ValueError /\
  construct ex_oracle ex_env "Flight" [("nonsense", VInt 1)]%string = Err ValueError.
Proof.
  split; [repeat constructor; cbn; intuition discriminate|]. split; [eexists; split; [vm_compute; reflexivity|split; vm_compute; reflexivity]|].
  split; vm_compute; reflexivity.
Qed.

(** C20: an append succeeds iff there is room for one more and the item's type, or
    a nillable field, takes the value. *)
Theorem C20_append_succeeds : forall O E f l v l', tl_append O E f l v = Ok l' <->
  max_allows (f_max f) (Z.of_nat (length l) + 1) /\
  exists a, l' = l ++ [a] /\ (v = VNil /\ f_nillable f = true /\ a = VNil \/ v <> VNil /\ type_accept O E (f_type f) v = Ok a).
Proof. exact append_spec. Qed.
Print Assumptions C20_append_succeeds.
Example C20_append_nonvacuous :
  let f := ex_list "legs" "leg" (TComplex "Leg") (Some 1) (OInt 1) in
  let l := ex_leg "OSL" (VInt 1) in
  tl_append ex_oracle ex_env f [] l = Ok [l] /\ tl_append ex_oracle ex_env f [l] l = Err ValueError.
Proof. split; reflexivity. Qed.
