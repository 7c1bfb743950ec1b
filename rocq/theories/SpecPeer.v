(** Vocabulary for generated modules that talk to the service they were generated
    from: the classes and the schema of the module as a platform for a client or
    a server. *)
From Coq Require Import String Ascii List ZArith NArith Bool.
From Verif Require Import PyBase Xml PyVal XsdSimple XsdComplex XsdMeta XsdSchema PyHttp Soap Dispatch LibClasses Py2Xsd Py2Wsdl Xsd2Py GenOrder SpecOrder PyLoad XsdPrefixes PyService PyInterop PyModule SpecXsd SpecRound SpecGenCode SpecGenWsdl SpecUrl SpecService SpecReclass SpecExchange SpecRegen.
Import ListNotations.
Open Scope nat_scope.
Open Scope string_scope.
Open Scope list_scope.

(** The class xsd.ComplexType is called so in PyLoad.v and ComplexType in Soap.v. *)
Definition plain_name (c : string) : string := if String.eqb c "xsd.ComplexType" then "ComplexType" else c.
Definition as_user (d : classdef) : classdef := mkClass (map plain_name (cd_mro d)) (cd_kind d) (cd_fields d) (cd_ind d) (cd_schema d).
Definition classes_of_module (limit : nat) (m : module) (c : string) : option classdef :=
  option_map as_user (e_cls (module_env limit (md_state m)) c).
(** The Schema object of the module, number 0. *)
Definition module_graph (m : module) : sgraph := fun _ =>
  mkSchema (Some (md_tns m)) (md_efd m) (map (fun e => (fst e, mkSel (fst (snd e)) (snd (snd e)))) (md_elements m)) [] [] None.
(** A process that has the module instead of the original classes and schemas. *)
Definition with_module (P : platform) (limit lim : nat) (m : module) : platform :=
  mkPlat (pf_O P) (soap_env (classes_of_module limit m) lim) (pf_n P) (module_graph m) (pf_gn P) (pf_parse P) (pf_ser P) (pf_valid P) (pf_wsa P) (pf_traceback P).

(** The original classes are derived from xsd.ComplexType, and not called like
    one of the classes of the library that messages are made of. *)
Definition message_classes (U : string -> option classdef) (sc : gschema) : Prop :=
  forall c, In c (gs_complex sc) -> assoc c soap_classes = None /\ forall d, U c = Some d -> In "ComplexType" (cd_mro d).
(** The running service has the schema: one Schema object without imports and
    includes, with these elements. *)
Definition has_schema {W} (P : platform) (S : service W) (sc : gschema) : Prop :=
  exists i, sv_schemas S = [i] /\ s_imports (pf_G P i) = [] /\ s_includes (pf_G P i) = [] /\
    Forall2 (fun p q => fst q = fst p /\ se_type (snd q) = ge_type (snd p) /\ se_subst (snd q) = ge_subst (snd p)) (gs_elements sc) (s_elements (pf_G P i)).
(** An element of the schema with the type of a class. *)
Definition class_element (rt : runtime) (sc : gschema) (name : string) : Prop :=
  exists el, In (name, el) (gs_elements sc) /\ ge_class el = true /\
    forall u, ge_type el = TSimple u -> library_simple u \/ exists st, In st (gs_simple sc) /\ string_class rt st u.
(** The arguments and results of the methods are such elements. *)
Definition class_messages (rt : runtime) (sc : gschema) (s : wservice) : Prop :=
  forall m, In m (ws_methods s) -> exists i o, wm_in m = IOName i /\ wm_out m = IOName o /\ class_element rt sc i /\ class_element rt sc o.
(** An instance of a class of the schema, with such instances in it. *)
Definition instance_of_schema (sc : gschema) (v : pyval) : Prop := made_of (gs_complex sc) v /\ exists c xe fs, v = VObj c xe fs.

(** The service [s] with the one schema [sc], whose classes [U] lose nothing in its
    WSDL document [doc], which arrives as [root].  [sl] is the recursion limit for
    the classes, [a] the parts of the location. *)
Record described (rt : runtime) (limit k : nat) (O : oracle) (lim sl : nat) (md5 : string -> string) (U : string -> option classdef) (G : decls) (rank : string -> nat)
    (s : wservice) (a : address) (sc : gschema) (doc : xdocument) (root : node) : Prop := mkDescribed {
  ds_describable : service_describable O (soap_env U sl) G s;
  ds_referable : referable s;
  ds_regenerable : service_regenerable s a;
  ds_schema : ws_schemas s = [sc];
  ds_reproducible : schema_reproducible (soap_env U sl) G limit rank sc;
  ds_faithful : schema_faithful rt (soap_env U sl) sc;
  ds_namespace : ~ In (ws_tns s) [ns_xsd; ns_xsd2000];
  ds_digest : hex5 (md5 (gs_tns sc));
  ds_limit : limit <= 10 + sl;
  ds_classes : message_classes U sc;
  ds_messages : class_messages rt sc s;
  ds_document : generate_wsdl (10 + k) O (lib_env lim) (soap_env U sl) G s = Ok doc;
  ds_arrives : layout (wire (xd_root doc)) root }.
(** A process with the original classes that runs the service [S] described by [s]. *)
Record hosts {W} (O : oracle) (sl : nat) (U : string -> option classdef) (s : wservice) (sc : gschema) (P : platform) (S : service W) : Prop := mkHosts {
  ho_classes : pf_E P = soap_env U sl;
  ho_oracle : pf_O P = O;
  ho_limit : 4 <= pf_n P;
  ho_depth : 0 < pf_gn P;
  ho_runs : runs s S;
  ho_headerless : headerless S;
  ho_schema : has_schema P S sc }.

(** ** Servers *)

(** What the functions of a service return: an instance of a class of the schema,
    as it is or in a response without header, a SOAP fault, or an exception. *)
Definition payload_of_schema (sc : gschema) (p : payload) : Prop := match p with PVal v => instance_of_schema sc v | PErr _ _ _ => True end.
Definition answer_of_schema (sc : gschema) (r : res result) : Prop :=
  match r with
  | Ok (RResp rs) => payload_of_schema sc (rs_body rs) /\ rs_header rs = VNone
  | Ok (RPay p) => payload_of_schema sc p
  | Err _ => True
  end.
Definition functions_answer {W} (sc : gschema) (fns : string -> handler W) : Prop := forall f s b, answer_of_schema sc (snd (fns f s b)).
(** A middleware that hands on such answers, or gives such answers itself. *)
Fixpoint program_answers {W} (sc : gschema) (p : mprog W) : Prop :=
  match p with
  | MDone _ r => answer_of_schema sc r
  | MNext _ k => forall s r, answer_of_schema sc r -> program_answers sc (k s r)
  end.
Definition middlewares_answer {W} (sc : gschema) (l : list (middleware W)) : Prop := Forall (fun m => forall s, program_answers sc (m s)) l.
(** The service calls the function with the name of the operation, as generated
    code does, and expects no headers. *)
Definition calls_by_name {W} (S : service W) : Prop := sv_ih S = None /\ Forall (fun m => m_fn m = Some (m_op m)) (sv_methods S).
(** The same dispatcher for another service. *)
Definition with_service {W} (D : dispatcher W) (S : service W) : dispatcher W :=
  mkDisp S (d_middlewares D) (d_hooks D) (d_wsdl D) (d_xsds D) (d_strict D).
