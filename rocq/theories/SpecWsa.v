(** Vocabulary for WS-Addressing. *)
From Coq Require Import String List ZArith Bool.
From Verif Require Import PyBase Xml PyVal XsdSimple XsdComplex Soap Wsa.
Import ListNotations.
Open Scope string_scope.
Open Scope list_scope.

(** The program has the classes of wsa.py. *)
Definition has_wsa (E : env) : Prop := forall c d, In (c, d) wsa_classes -> e_cls E c = Some d.
(** An object of the class wsa.Header, whatever its attributes hold. *)
Definition wsa_header (v : pyval) : Prop :=
  exists xe fs, v = VObj "wsa.Header" xe fs /\ map fst fs = ["Action"; "MessageID"; "To"; "ReplyTo"; "RelatesTo"].
(** [v.name] is [x]. *)
Definition attribute (v : pyval) (name : string) (x : pyval) : Prop := py_get v name = Ok x.
(** A block of a header: an element of the namespace of WS-Addressing. *)
Definition block (name text : string) : node := Elem (clark "http://www.w3.org/2005/08/addressing" name) [] [Text text].
(** The block that says where to send the answer. *)
Definition reply_block (address : string) : node := Elem (clark "http://www.w3.org/2005/08/addressing" "ReplyTo") [] [block "Address" address].
(** An object of wsa.Header that can be sent as a reply. *)
Definition written_header (reply : option string) (action id to related : string) (xe : option node) : pyval :=
  VObj "wsa.Header" xe [("Action", VStr action); ("MessageID", VStr id); ("To", VStr to);
    ("ReplyTo", match reply with Some a => VObj "wsa.ReplyTo" None [("Address", VStr a)] | None => VNone end); ("RelatesTo", VStr related)].
