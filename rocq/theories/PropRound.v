(** Property C21: rendering then parsing returns an equal object. *)
From Coq Require Import String Ascii List ZArith NArith Bool.
From Verif Require Import PyBase Xml PyVal XsdSimple XsdComplex SpecParse SpecRound ExEnv PfParse PfRound PfLeaf PfRoundEx.
Import ListNotations.
Open Scope Z_scope.

(** ** C21 *)
(** [rt_classes] describes the classes, [rt_typed] the instances (SpecRound).
    Rendering succeeds; the document as received, pretty-printed ([layout]) or
    not, also with comments and other [noise] added, parses to an instance with
    the same field values. *)
Theorem C21_roundtrip :
  forall O E (P : string -> Prop) c v tag ns efd n,
  rt_classes O E P -> P c -> rt_typed O E (TComplex c) v ->
  ncname_ok tag = true -> ns_good ns -> (vdepth v <= n)%nat ->
  exists x, xml_of n O E v tag ns efd = Ok x /\
    forall pretty doc, layout (wire x) pretty -> doc = pretty \/ noise E c pretty doc ->
    exists v', parse_obj n O E c doc = Ok v' /\ erase v' = erase v.
Proof. exact roundtrip_wire. Qed.
Print Assumptions C21_roundtrip.

(** Strings, booleans, integers, dates and times are such leaf values. *)
Theorem C21_everyday_values : forall O s v, everyday O s v -> leaf_ok O s v.
Proof. exact everyday_leaf. Qed.
Print Assumptions C21_everyday_values.

(** Attributes may also be empty strings. *)
Theorem C21_attribute_values : forall O s v,
  leaf_ok O s v \/ (exists cls f, s = SString cls f /\ v = VStr "" /\ st_accept O s v = Ok v) -> attr_ok O s v.
Proof. exact attribute_values. Qed.
Print Assumptions C21_attribute_values.

Example C21_nonvacuous :
  rt_classes ex_oracle ex_env ex_classes /\ ex_classes "Flight" /\
  rt_typed ex_oracle ex_env (TComplex "Flight") ex_flight /\ vdepth ex_flight = 2%nat /\
  xml_of 2 ex_oracle ex_env ex_flight "flight" (Some "urn:air"%string) (Some qualified) = Ok ex_flight_xml /\
  res_map erase (parse_obj 2 ex_oracle ex_env "Flight" ex_flight_xml) = Ok ex_flight.
Proof.
  split; [exact ex_rt_classes|]. split; [now left|]. split; [exact ex_flight_rt|].
  repeat split; vm_compute; reflexivity.
Qed.
