(** Vocabulary for calls from a client to a server. *)
From Coq Require Import String Ascii List ZArith NArith Bool.
From Verif Require Import PyBase Xml PyVal XsdSimple XsdComplex XsdSchema PyHttp Soap Dispatch Client
  SpecParse SpecRound SpecSoap SpecDispatch SpecHttp.
Import ListNotations.
Open Scope string_scope.
Open Scope list_scope.

(** The document [x], serialised and parsed again, arrives: perhaps
    pretty-printed, otherwise unchanged. *)
Definition transmits (P : platform) (x : node) : Prop :=
  exists doc, pf_parse P (pf_ser P x) = Ok doc /\ layout (wire x) doc.

(** The classes in [Q] round-trip (C21). *)
Definition good_classes (P : platform) (Q : string -> Prop) : Prop := rt_classes (pf_O P) (pf_E P) Q.
(** An object of class [c] that can be sent: the class has a schema, the values
    round-trip, and the nesting is within the recursion limit. *)
Definition message (P : platform) (Q : string -> Prop) (c : string) (v : pyval) : Prop :=
  Q c /\ (exists d si, e_cls (pf_E P) c = Some d /\ cd_schema d = Some si /\ In "ComplexType" (cd_mro d)) /\
  rt_typed (pf_O P) (pf_E P) (TComplex c) v /\ (vdepth v + 2 <= pf_n P)%nat.
(** The tag of a message is not one of those SOAP gives a meaning in a Body. *)
Definition message_tag (tag : string) : Prop := ncname_ok tag = true /\ tag <> "message" /\ tag <> "Fault".

(** A header that can be sent to a receiver that reads it as class [cls]: none,
    or an object of that class; any object if the receiver reads none. *)
Definition header_for (P : platform) (Q : string -> Prop) (cls : option string) (h : pyval) : Prop :=
  h = VNone \/ exists c, message P Q c h /\ (cls = Some c \/ cls = None).
(** What the receiver has then. *)
Definition header_received (cls : option string) (h h' : pyval) : Prop :=
  match cls with Some _ => erase h' = erase h | None => h' = VNone end.
(** The class the server reads the header of method [m] as. *)
Definition server_header {W} (S : service W) (m : method) : option string :=
  match m_ih m with Some c => Some c | None => sv_ih S end.

(** The header blocks and the content of the body of an envelope. *)
Definition blocks (x : node) : list node := flat_map el_kids (el_kids x).
(** The validators accept [x], however it is laid out. *)
Definition accepted (P : platform) (x : node) : Prop :=
  forall x', layout x x' -> pf_valid P x' = Ok tt /\ (wsa_block x' -> pf_wsa P x' = Ok tt).

(** How the dispatcher is run. *)
Inductive hosting := Wsgi | Django | Flask.
Definition post_through {W} (a : hosting) (P : platform) (D : dispatcher W) (base : environ) : transport W :=
  match a with Wsgi => wsgi_post P D base | Django => django_post P D base | Flask => flask_post P D base end.
(** The variables the dispatcher sees. *)
Definition seen (a : hosting) (base : environ) (headers : list (string * string)) (data : string) : environ :=
  match a with Django => django_environ (post_environ base headers data) | _ => post_environ base headers data end.
(** The dispatcher finds method [m] for a request with tag [tag]: by its action,
    which arrives (C49), or, where it does not arrive, by the tag. *)
Definition routable {W} (a : hosting) (S : service W) (base : environ) (m : method) (tag : string) : Prop :=
  let action_is := m_action m <> "" /\ ~ char_in quote_c (m_action m) /\
    first_with (fun m' => m_action m' = m_action m) (sv_methods S) m in
  match sv_version S, a with
  | V12, _ => action_is /\ ~ double_backslash (m_action m)
  | V11, Django => action_is /\ clean_environ base
  | V11, _ => clean_environ base /\ first_with (fun m' => m_in m' = IOName tag) (sv_methods S) m
  end.

(** The tag of the request: the name of the input element or, if the input is a
    class, the name of the class of the parameter with its first letter in lower
    case (but QName). *)
Definition tagged_with (m : method) (parameter : pyval) (tag : string) : Prop :=
  m_in m = IOName tag \/
  (forall s, m_in m <> IOName s) /\
  exists c t xe fs, parameter = VObj (String c t) xe fs /\
    (String c t = "QName" /\ tag = "QName" \/ String c t <> "QName" /\ tag = String (lower_char c) t).
(** The output of [m] is the element [tag] of a schema of the service, of class [c]. *)
Definition output_element {W} (P : platform) (S : service W) (m : method) (tag c : string) : Prop :=
  m_out m = IOName tag /\ exists e, find_element_by_name (pf_gn P) (pf_G P) (sv_schemas S) tag = Ok (Some e) /\ se_type e = TComplex c.

(** A call that can work: [m] is the method called, found by the dispatcher;
    [tag] the tag of the request; parameter and header can be sent and read, and
    the request is transmitted and valid. *)
Record callable {W} (P : platform) (Q : string -> Prop) (D : dispatcher W) (a : hosting) (base : environ)
    (op : string) (m : method) (f tag : string) (parameter header : pyval) : Prop := {
  ca_method : first_with (fun m => m_op m = op) (sv_methods (d_service D)) m;
  ca_function : m_fn m = Some f;
  ca_tag : tagged_with m parameter tag;
  ca_tag_ok : message_tag tag;
  ca_parameter : exists c, input_type P D m (TComplex c) /\ message P Q c parameter;
  ca_header : header_for P Q (server_header (d_service D) m) header;
  ca_sent : forall x, envelope_response (pf_n P) (pf_O P) (pf_E P) (sv_version (d_service D)) tag parameter header = Ok x ->
    transmits P x /\ Forall (accepted P) (blocks x);
  ca_route : routable a (d_service D) base m tag }.

(** A result that can be sent back: the object [out] with the header [hout]. *)
Record returnable {W} (P : platform) (Q : string -> Prop) (D : dispatcher W) (m : method) (out hout : pyval) : Prop := {
  re_body : exists c tag, output_element P (d_service D) m tag c /\
    message_tag tag /\ message P Q c out;
  re_header : header_for P Q (m_oh m) hout;
  re_sent : forall tag x, m_out m = IOName tag ->
    envelope_response (pf_n P) (pf_O P) (pf_E P) (sv_version (d_service D)) tag out hout = Ok x -> transmits P x }.

(** An element with the name of its attribute and no namespace of its own. *)
Definition simple_field (f : field) : Prop :=
  f_kind f = KElement /\ f_ns f = None /\ f_tag f = None /\ ncname_ok (f_name f) = true.
