(** Vocabulary for services that are generated from the WSDL document of a
    service. *)
From Coq Require Import String Ascii List ZArith NArith Bool.
From Verif Require Import PyBase Xml PyVal XsdSimple XsdComplex Soap Dispatch LibClasses Py2Xsd Py2Wsdl PyLoad PyService SpecRound SpecGenWsdl SpecUrl SpecService.
Import ListNotations.
Open Scope string_scope.
Open Scope list_scope.

(** The names of a method can be used in Python code, and its input and output are
    given by elements. *)
Definition method_regenerable (m : wmethod) : Prop :=
  usable_name (wm_op m) /\ quotable (wm_action m) /\
  exists i o, wm_in m = IOName i /\ wm_out m = IOName o /\ usable_name i /\ usable_name o.
Definition service_regenerable (s : wservice) (a : address) : Prop :=
  usable_name (ws_name s ++ "Port")%string /\ quotable (ws_tns s) /\
  ws_location s = written a /\ absolute a /\ no_empty_part a /\ without "$'\" (ws_location s) /\
  Forall method_regenerable (ws_methods s).
(** Names without a special meaning in the generated code. *)
Definition client_regenerable (s : wservice) : Prop :=
  forall m, In m (ws_methods s) -> wm_in m <> IOName "self" /\ wm_in m <> IOName "header".
Definition server_regenerable (s : wservice) : Prop :=
  forall m, In m (ws_methods s) -> wm_in m <> IOName "request" /\ ~ In (wm_op m) ["soap"; "xsd"; "BaseHeader"] /\
    forall x, (wm_op m <> x ++ "_method" /\ wm_op m <> x ++ "_SERVICE" /\ wm_op m <> "Schema_" ++ x)%string.

(** A generated Method and the one described. *)
Definition same_method (m : wmethod) (g : gmethod) : Prop :=
  gm_op g = wm_op m /\ gm_action g = wm_action m /\ gm_in g = wm_in m /\ gm_out g = wm_out m /\ gm_style g = wm_style m /\
  gm_ih g = None /\ gm_oh g = None.
(** The function of a generated Method. *)
Definition calls_function (m : wmethod) (g : gmethod) : Prop :=
  exists f, gm_fn g = Some f /\ fn_name f = wm_op m /\ wm_in m = IOName (fn_parameter f).
(** The module holds the service under the name of its port. *)
Definition regenerated (st : wstate) (els : list elements_of) (s : wservice) (g : gservice) : Prop :=
  assoc ((ws_name s ++ "Port") ++ "_SERVICE")%string (st_names st) = Some (WvService g) /\
  gv_name g = (ws_name s ++ "Port")%string /\ gv_tns g = ws_tns s /\ gv_version g = ws_version s /\ gv_schemas g = els /\
  Forall2 same_method (ws_methods s) (gv_methods g).

(** What a running service has to do with its description. *)
Definition runs {W} (s : wservice) (S : service W) : Prop :=
  sv_version S = ws_version s /\
  Forall2 (fun w m => m_op m = wm_op w /\ m_action m = wm_action w /\ m_in m = wm_in w /\ m_out m = wm_out w) (ws_methods s) (sv_methods S).
Definition headerless {W} (S : service W) : Prop := Forall (fun m => m_ih m = None /\ m_oh m = None) (sv_methods S).
