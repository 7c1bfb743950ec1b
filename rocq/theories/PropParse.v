(** Properties C22, C23: what parsing reads. *)
From Coq Require Import String Ascii List ZArith NArith Bool Permutation.
From Verif Require Import PyBase Xml PyVal XsdSimple XsdComplex SpecParse ExEnv PfParse PfParseEx.
Import ListNotations.
Open Scope Z_scope.

(** ** C22 *)
(** Comments, text, elements and attributes that match no field, inserted or
    removed at any depth, change neither the field values nor the outcome. *)
Theorem C22_noise_ignored :
  forall n O E c x x', noise E c x x' ->
  res_map erase (parse_obj n O E c x) = res_map erase (parse_obj n O E c x').
Proof. exact parse_ignores_noise. Qed.
Print Assumptions C22_noise_ignored.
Example C22_nonvacuous : noise ex_env "Flight" ex_flight_xml ex_noisy /\ ex_noisy <> ex_flight_xml /\
  res_map erase (parse_obj 6 ex_oracle ex_env "Flight" ex_noisy) = Ok ex_flight.
Proof. split; [exact ex_noise|]. split; [discriminate|exact ex_noisy_parse]. Qed.

(** ** C23 *)
(** Reordering children so that those of each field keep their order changes
    nothing. *)
Theorem C23_order_insensitive :
  forall n O E c t a k k', ordinary E c -> Permutation k k' ->
  (forall f, reads E c f -> filter (belongs f) k = filter (belongs f) k') ->
  res_map erase (parse_obj n O E c (Elem t a k)) = res_map erase (parse_obj n O E c (Elem t a k')).
Proof. exact parse_reorder. Qed.
Print Assumptions C23_order_insensitive.
Example C23_nonvacuous : ordinary ex_env "Flight" /\ Permutation ex_flight_kids ex_shuffled /\
  (forall f, reads ex_env "Flight" f -> filter (belongs f) ex_flight_kids = filter (belongs f) ex_shuffled) /\
  res_map erase (parse_obj 6 ex_oracle ex_env "Flight"
    (Elem (air "flight") [("id", "F1"); ("lang", "en")]%string ex_shuffled)) = Ok ex_flight.
Proof. split; [exact ex_flight_ordinary|]. split; [apply ex_shuffle|]. split; [apply ex_shuffle|vm_compute; reflexivity]. Qed.
