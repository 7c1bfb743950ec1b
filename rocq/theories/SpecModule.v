(** Vocabulary for modules generated from the WSDL document of a service: which
    names they have. *)
From Coq Require Import String Ascii List ZArith NArith Bool.
From Verif Require Import PyBase Xml PyVal XsdSimple XsdComplex XsdMeta Soap Dispatch LibClasses Py2Xsd Py2Wsdl Xsd2Py PyLoad PyService PyModule.
Import ListNotations.
Open Scope nat_scope.
Open Scope string_scope.
Open Scope list_scope.

(** The names bound by the statements for the service. *)
Definition service_names (server : bool) (s : wservice) : list string :=
  map (fun m => wm_op m ++ "_method")%string (ws_methods s) ++
  [((ws_name s ++ "Port") ++ "_SERVICE")%string] ++
  (if server then map wm_op (ws_methods s) else [((ws_name s ++ "Port") ++ "ServiceStub")%string]).

(** The elements of a Schema, as the service finds them by name: Element objects
    with the types of the schema of [m]. *)
Definition offers (st : wstate) (m : module) (els : elements_of) : Prop :=
  map fst els = map fst (md_elements m) /\
  forall name t sg, assoc name (md_elements m) = Some (t, sg) ->
  exists i f, assoc name els = Some i /\ nth_error (w_store (st_world st)) i = Some f /\ f_kind f = KElement /\ f_type f = t.
