(** WS-Addressing headers: wsa.py. *)
From Coq Require Import String List ZArith Bool.
From Verif Require Import PyBase Xml PyVal XsdSimple XsdComplex Soap.
Import ListNotations.
Open Scope string_scope.
Open Scope list_scope.

(** wsa.py:9 *)
Definition anonymous : string := "http://www.w3.org/2005/08/addressing/anonymous".
(** wsa.py:25-33: the Schema object that becomes the SCHEMA of both classes. *)
Definition wsa_si : sinfo := {| si_tns := Some ns_wsa; si_efd := qualified |}.
(** [xsd.Element(t, tagname=tag, namespace=ns.wsa, minOccurs=mn)] *)
Definition wsa_elem (name : string) (t : ftype) (tag : option string) (mn : Z) : field :=
  mkField name KElement t tag (Some mn) ONone false VNone (Some ns_wsa).
(** class ReplyTo, wsa.py:13-14 *)
Definition cd_reply_to : classdef :=
  mkClass ["wsa.ReplyTo"; "ComplexType"] CKPlain [wsa_elem "Address" string_type (Some "Address") 1] ISequence (Some wsa_si).
(** class Header, wsa.py:17-22 *)
Definition wsa_fields : list field :=
  [wsa_elem "Action" string_type (Some "Action") 1; wsa_elem "MessageID" string_type (Some "MessageID") 1;
   wsa_elem "To" string_type (Some "To") 1; wsa_elem "ReplyTo" (TComplex "wsa.ReplyTo") (Some "ReplyTo") 0;
   wsa_elem "RelatesTo" string_type None 0].
Definition cd_wsa_header : classdef := mkClass ["wsa.Header"; "ComplexType"] CKPlain wsa_fields ISequence (Some wsa_si).
Definition wsa_classes : list (string * classdef) := [("wsa.ReplyTo", cd_reply_to); ("wsa.Header", cd_wsa_header)].

(** [v + 'Response']: only strings can be added to a string. *)
Definition add_response (v : pyval) : res pyval :=
  match v with VStr s => Ok (VStr (s ++ "Response")) | _ => Err TypeError end.

(** fill_header, wsa.py:38-44.  The object [dst] is changed in place: the result
    is what has become of it, and whether there was an exception.  [uuid] is
    [str(uuid.uuid1())].  [src] is an object of xsd.ComplexType, which is always
    true, or None.  (If [src] is [dst] itself the result is the same: each
    attribute is read before it is set.) *)
Section Fill.
  Variable O : oracle.
  Variable E : env.
  (** [dst.name = v], where computing [v] may fail. *)
  Definition put (name : string) (v : res pyval) (p : pyval * res unit) : pyval * res unit :=
    let (dst, r) := p in
    match r with
    | Err _ => p
    | Ok _ => match (x <- v ;; py_set O E dst name x) with Ok dst' => (dst', Ok tt) | Err e => (dst, Err e) end
    end.
  Definition fill_header (uuid : string) (dst src : pyval) : pyval * res unit :=
    let p := match src with
             | VNone => (dst, Ok tt)
             | _ => put "RelatesTo" (py_get src "MessageID")
                      (put "Action" (a <- py_get src "Action" ;; add_response a) (dst, Ok tt))
             end in
    put "To" (Ok (VStr anonymous)) (put "MessageID" (Ok (VStr uuid)) p).
End Fill.

(** The header classes of a Service, soap.py:49-57.  The module wsa has neither
    WSAsaHeader nor WSAHeader. *)
Definition service_headers (use_wsa : bool) (input_header output_header : option string) : res (option string * option string) :=
  ih <- (match use_wsa, input_header with true, None => Err AttributeError | _, _ => Ok input_header end) ;;
  oh <- (match use_wsa, output_header with true, None => Err AttributeError | _, _ => Ok output_header end) ;;
  Ok (ih, oh).
