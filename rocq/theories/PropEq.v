(** Properties C31, C62, C63: comparing objects. *)
From Coq Require Import String Ascii List ZArith NArith Bool.
From Verif Require Import PyBase Xml PyVal XsdSimple XsdComplex XsdEq ExEnv PfEq.
Import ListNotations.
Open Scope Z_scope.

(** ** C31 *)
(** For every serialiser and hash function: symmetric, transitive, equal
    objects have equal hashes, and an object that was parsed equals itself. *)
Theorem C31_equality_partial :
  forall ts hash_bytes a b c,
  (ro_eq ts a b = true -> ro_eq ts b a = true) /\
  (ro_eq ts a b = true -> ro_eq ts b c = true -> ro_eq ts a c = true) /\
  (ro_eq ts a b = true -> ro_hash ts hash_bytes a = ro_hash ts hash_bytes b) /\
  (parsed a -> ro_eq ts a a = true).
Proof.
  exact (fun ts hs a b c => conj (fun H => eq_ind_r (fun x => x = true) H (eq_sym ts b a))
    (conj (eq_trans ts a b c) (conj (eq_hash ts hs a b) (proj2 (eq_refl_iff ts a))))).
Qed.
Print Assumptions C31_equality_partial.
(** An object that was not parsed is equal to nothing, not even itself. *)
Theorem C31_reflexive_refuted :
  forall ts a b, ~ parsed a \/ ~ parsed b -> ro_eq ts a b = false.
Proof. exact eq_unparsed. Qed.
Print Assumptions C31_reflexive_refuted.
Definition ex_parsed (id : Z) (x : node) (tail : string) : robj := mkRobj id (VObj "Leg" (Some x) []) tail.
Example C31_nonvacuous :
  let ts := fun x t => (el_tag x ++ t)%string in
  parsed (ex_parsed 1 (Elem "a" [] []) "") /\
  ro_eq ts (ex_parsed 1 (Elem "a" [] []) "") (ex_parsed 2 (Elem "a" [] []) "") = true /\
  ~ parsed (mkRobj 1 ex_flight "") /\ ro_eq ts (mkRobj 1 ex_flight "") (mkRobj 1 ex_flight "") = false.
Proof.
  split; [now repeat eexists|]. split; [reflexivity|]. split; [|reflexivity].
  intros (c & x & fs & H). discriminate.
Qed.

(** ** C62 *)
(** The order of parsed objects is a strict total order that agrees with
    equality, and [>], [<=], [>=] agree with [<]. *)
Theorem C62_order_partial :
  forall ts a b c, parsed a -> parsed b -> parsed c ->
  (ro_lt ts a a = false) /\
  (ro_lt ts a b = true -> ro_lt ts b c = true -> ro_lt ts a c = true) /\
  (ro_lt ts a b = true \/ ro_eq ts a b = true \/ ro_lt ts b a = true) /\
  ro_gt ts a b = ro_lt ts b a /\ ro_le ts a b = negb (ro_lt ts b a) /\ ro_ge ts a b = ro_le ts b a.
Proof. exact order_parsed. Qed.
Print Assumptions C62_order_partial.
(** With an object that was not parsed, each is greater than the other. *)
Theorem C62_unparsed_refuted :
  forall ts a b, ~ parsed a \/ ~ parsed b ->
  ro_lt ts a b = false /\ ro_eq ts a b = false /\ ro_gt ts a b = true /\ ro_gt ts b a = true /\
  ro_ge ts a b = true /\ ro_le ts a b = false.
Proof. exact order_unparsed. Qed.
Print Assumptions C62_unparsed_refuted.
Example C62_nonvacuous :
  let ts := fun x t => (el_tag x ++ t)%string in
  ro_lt ts (ex_parsed 1 (Elem "a" [] []) "") (ex_parsed 2 (Elem "b" [] []) "") = true /\
  ro_gt ts (mkRobj 1 ex_flight "") (mkRobj 1 ex_flight "") = true.
Proof. split; reflexivity. Qed.

(** ** C63 *)
(** Assigning to a field of a parsed object changes neither what it is equal
    to nor its hash. *)
Theorem C63_stale_equality_refuted :
  forall O E ts r name v r', parsed r -> ro_setattr O E r name v = Ok r' ->
  ro_eq ts r r' = true /\ forall hs, ro_hash ts hs r' = ro_hash ts hs r.
Proof. exact eq_stale. Qed.
Print Assumptions C63_stale_equality_refuted.
(** If the serialisation shows the text after an element, objects read from
    the same content followed by different white space are not equal. *)
Theorem C63_tail_refuted :
  forall ts id id' c c' x fs fs' t t', (forall x t t', ts x t = ts x t' -> t = t') -> t <> t' ->
  ro_eq ts (mkRobj id (VObj c (Some x) fs) t) (mkRobj id' (VObj c' (Some x) fs') t') = false.
Proof. exact tail_matters. Qed.
Print Assumptions C63_tail_refuted.
Example C63_nonvacuous :
  let leg := VObj "Leg" (Some (Elem "leg" [] [])) [("origin", VStr "OSL"); ("seats", VNone)]%string in
  ro_setattr ex_oracle ex_env (mkRobj 1 leg "") "origin" (VStr "LHR") =
    Ok (mkRobj 1 (VObj "Leg" (Some (Elem "leg" [] [])) [("origin", VStr "LHR"); ("seats", VNone)]%string) "") /\
  parsed (mkRobj 1 leg "").
Proof. split; [vm_compute; reflexivity|now repeat eexists]. Qed.
