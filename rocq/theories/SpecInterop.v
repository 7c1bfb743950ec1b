(** Vocabulary for calls between a client and a server generated from the same
    WSDL document. *)
From Coq Require Import String Ascii List ZArith NArith Bool.
From Verif Require Import PyBase Xml PyVal XsdSimple XsdComplex XsdSchema PyHttp Soap Dispatch Client LibClasses Wsdl2Py PyLoad PyService
  SpecParse SpecRound SpecSoap SpecDispatch SpecHttp SpecClient SpecService.
Import ListNotations.
Open Scope string_scope.
Open Scope list_scope.

(** Importing the code generated from a document, for a client or a server. *)
Definition imported (n : nat) (O : oracle) (L : env) (md5 : string -> string) (checked : string -> bool) (rt : runtime) (base : nat)
    (server : bool) (root : node) (st st' : wstate) : Prop :=
  exists code, code_from_wsdl n O L md5 checked server root = Ok code /\ exec_service rt base st code = Ok st'.

(** The document lets the server tell the operation from the others of its port:
    by its action where the action arrives (C49), by the element it takes where not. *)
Definition distinguished (a : hosting) (v : soapver) (env : environ) (p : port_plan) (o : op_plan) : Prop :=
  let by_action := exists act, op_action o = Some act /\ act <> "" /\ ~ char_in quote_c act /\ (v = V12 -> ~ double_backslash act) /\
    forall o', In o' (po_ops p) -> op_action o' = Some act -> o' = o in
  let by_element := forall o', In o' (po_ops p) -> pp_element (op_in o') = pp_element (op_in o) -> o' = o in
  match v, a with
  | V12, _ => by_action
  | V11, Django => by_action /\ clean_environ env
  | V11, _ => by_element /\ clean_environ env
  end.
(** The element [tag] of the schemas is of class [c]. *)
Definition element_class (P : platform) (schemas : list nat) (tag c : string) : Prop :=
  exists e, find_element_by_name (pf_gn P) (pf_G P) schemas tag = Ok (Some e) /\ se_type e = TComplex c.
(** An object of class [c] that can be sent as the element [tag] of the schemas. *)
Definition sendable (P : platform) (Q : string -> Prop) (schemas : list nat) (tag : string) (x : pyval) : Prop :=
  exists c, element_class P schemas tag c /\ message P Q c x /\ message_tag tag.
