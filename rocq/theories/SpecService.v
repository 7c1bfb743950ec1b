(** Vocabulary for services generated from WSDL: what a WSDL document says about
    its ports and operations, in terms of the objects read from it, and what the
    generated module should hold. *)
From Coq Require Import String Ascii List ZArith NArith Bool.
From Verif Require Import PyBase PyVal XsdSimple XsdComplex Dispatch Soap PyLoad PyService SpecNames SpecGenCode SpecUrl.
Import ListNotations.
Open Scope string_scope.
Open Scope list_scope.

(** ** What the document says *)

(** The element of a message, and the name of the part it is in. *)
Record part_plan := mkPp { pp_name : string; pp_element : string }.
(** An operation: name, action, what it takes, what it returns if anything, style. *)
Record op_plan := mkOp {
  op_name : string;
  op_action : option string;
  op_in : part_plan;
  op_out : option part_plan;
  op_style : option string }.
(** A port bound to SOAP over HTTP; the style is that of the binding. *)
Record port_plan := mkPort { po_name : string; po_address : address; po_style : string; po_ops : list op_plan }.

(** A reference to [name], with any prefix. *)
Definition refers_to (ref name : string) : Prop := colon_free name /\ (ref = name \/ exists p, ref = (p ++ ":" ++ name)%string).
(** [x] is the first object called [name] in the list [coll] of [o]. *)
Definition first_called (o : pyval) (coll name : string) (x : pyval) : Prop :=
  exists b before after, has o coll (VList b (before ++ x :: after)) /\ has x "name" (VStr name) /\
    Forall (fun y => exists n, has y "name" (VStr n) /\ n <> name) before.
(** An attribute that may be missing. *)
Definition maybe (o : option string) : pyval := match o with Some s => VStr s | None => VNone end.

(** The message that the operation of a port type has as [x], input or output. *)
Definition message_at (d pto : pyval) (x : string) (m : pyval) : Prop :=
  exists io ref name, has pto x io /\ has io "message" (VStr ref) /\ refers_to ref name /\ first_called d "messages" name m.
(** It has one part, given by an element. *)
Definition takes (d pto : pyval) (x : string) (p : part_plan) : Prop :=
  exists m b part eref, message_at d pto x m /\
    has m "parts" (VList b [part]) /\ has part "name" (VStr (pp_name p)) /\
    has part "element" (VStr eref) /\ refers_to eref (pp_element p) /\ pp_element p <> "".
(** The operation called [n] of the port type of a binding. *)
Definition abstract_op (d b : pyval) (n : string) (pto : pyval) : Prop :=
  exists ref tname pt, has b "type" (VStr ref) /\ refers_to ref tname /\ first_called d "portTypes" tname pt /\
    colon_free n /\ first_called pt "operations" n pto.
Definition without_headers (op : pyval) : Prop :=
  forall x, In x ["input"; "output"] -> exists io, has op x io /\ (io = VNone \/ exists b, has io "headers" (VList b [])).
(** An operation of a binding. *)
Definition states_operation (d b op : pyval) (o : op_plan) : Prop :=
  has op "name" (VStr (op_name o)) /\ without_headers op /\
  (exists so, has op "operation" so /\ has so "soapAction" (maybe (op_action o)) /\ has so "style" (maybe (op_style o))) /\
  exists pto, abstract_op d b (op_name o) pto /\ takes d pto "input" (op_in o) /\
    match op_out o with Some p => takes d pto "output" p | None => has pto "output" VNone end.

(** The binding of a port. *)
Definition bound_to (d port b : pyval) : Prop :=
  exists ref n, has port "binding" (VStr ref) /\ refers_to ref n /\ first_called d "bindings" n b.
Definition soap_http : string := "http://schemas.xmlsoap.org/soap/http".
Definition states_port (d port : pyval) (p : port_plan) : Prop :=
  has port "name" (VStr (po_name p)) /\
  (exists a, has port "address" a /\ has a "location" (VStr (written (po_address p)))) /\
  exists b bb f ops, bound_to d port b /\ has b "binding" bb /\ has bb "transport" (VStr soap_http) /\ has bb "style" (VStr (po_style p)) /\
    has b "operations" (VList f ops) /\ Forall2 (states_operation d b) ops (po_ops p).
(** A port with another binding. *)
Definition other_port (d port : pyval) : Prop :=
  exists b bb, bound_to d port b /\ has b "binding" bb /\ (bb = VNone \/ exists t, has bb "transport" (VStr t) /\ t <> soap_http).

Definition states_service (d s : pyval) (ps : list (option port_plan)) : Prop :=
  exists f ports, has s "ports" (VList f ports) /\
    Forall2 (fun port p => match p with Some p => states_port d port p | None => other_port d port end) ports ps.
(** The target namespace, those of the schemas, and the ports of the services. *)
Definition states_document (d : pyval) (tns : string) (schemas : list string) (plan : list (list (option port_plan))) : Prop :=
  has d "targetNamespace" (VStr tns) /\
  (exists types f l, has d "types" types /\ has types "schemas" (VList f l) /\
     Forall2 (fun s ns => has s "targetNamespace" (VStr ns)) l schemas) /\
  exists f services, has d "services" (VList f services) /\ Forall2 (states_service d) services plan.
Definition soap_ports (plan : list (list (option port_plan))) : list port_plan :=
  flat_map (flat_map (fun p => match p with Some p => [p] | None => [] end)) plan.

(** ** Which names can be used *)

Definition letter (c : ascii) : Prop := (65 <= code c <= 90 \/ 97 <= code c <= 122 \/ code c = 95)%N.
(** A name in Python that is not a keyword. *)
Definition usable_name (s : string) : Prop :=
  (exists c t, s = String c t /\ letter c) /\ (forall c, holds s c -> letter c \/ digit c) /\ python_name s = s.
(** Text that can stand between quotes as it is. *)
Definition quotable (s : string) : Prop := without "'\" s /\ no_break s.
Definition usable_part (p : part_plan) : Prop := usable_name (pp_element p) /\ quotable (pp_name p).
Definition usable_op (o : op_plan) : Prop :=
  usable_name (op_name o) /\ usable_part (op_in o) /\ (forall p, op_out o = Some p -> usable_part p) /\
  (forall a, op_action o = Some a -> quotable a) /\ (forall s, op_style o = Some s -> quotable s /\ s <> "").
Definition usable_port (p : port_plan) : Prop :=
  usable_name (po_name p) /\ absolute (po_address p) /\ no_empty_part (po_address p) /\
  without "$'\" (written (po_address p)) /\ Forall usable_op (po_ops p) /\ NoDup (map op_name (po_ops p)).
(** Parameters of the methods of a stub and of the functions of a server that would clash with others. *)
Definition client_op (o : op_plan) : Prop := ~ In (pp_element (op_in o)) ["self"; "header"].
Definition server_op (o : op_plan) : Prop :=
  pp_element (op_in o) <> "request" /\ op_out o <> None /\
  ~ In (op_name o) ["soap"; "xsd"; "BaseHeader"] /\
  (forall s, op_name o <> s ++ "_method" /\ op_name o <> s ++ "_SERVICE" /\ op_name o <> "Schema_" ++ s)%string.

(** ** What the module should hold *)

(** Names of schemas: five digits of a hash in hexadecimal. *)
Definition hex5 (s : string) : Prop :=
  String.length s = 5%nat /\ forall c, holds s c -> (48 <= code c <= 57 \/ 97 <= code c <= 102)%N.
Definition schemas_bound (md5 : string -> string) (st : wstate) (schemas : list string) (els : list elements_of) : Prop :=
  Forall2 (fun ns e => assoc ("Schema_" ++ md5 ns)%string (st_names st) = Some (WvSchema e)) schemas els.

(** The style that the document gives to an operation: its own, else that of the binding. *)
Definition style_of (p : port_plan) (o : op_plan) : string :=
  match op_style o with Some s => s | None => po_style p end.
Definition out_spec (o : option part_plan) : iospec := match o with Some p => IOName (pp_element p) | None => IONone end.
(** A Method that describes the operation, apart from its action and style. *)
Definition method_for (o : op_plan) (m : gmethod) : Prop :=
  gm_op m = op_name o /\ gm_in m = IOName (pp_element (op_in o)) /\ gm_out m = out_spec (op_out o) /\
  gm_in_part m = pp_name (op_in o) /\ (forall p, op_out o = Some p -> gm_out_part m = pp_name p) /\
  gm_ih m = None /\ gm_oh m = None.
Definition has_action (o : op_plan) (m : gmethod) : Prop := op_action o = Some (gm_action m).
Definition has_style (p : port_plan) (o : op_plan) (m : gmethod) : Prop := gm_style m = style_of p o.
Definition implements (o : op_plan) (m : gmethod) : Prop :=
  exists f, gm_fn m = Some f /\ fn_name f = op_name o /\ fn_parameter f = pp_element (op_in o) /\
    out_spec (op_out o) = IOName (fn_result f).

Definition holds_service (st : wstate) (v : soapver) (tns : string) (els : list elements_of) (p : port_plan) (s : gservice) : Prop :=
  assoc (po_name p ++ "_SERVICE")%string (st_names st) = Some (WvService s) /\
  gv_name s = po_name p /\ gv_tns s = tns /\ gv_version s = v /\ gv_schemas s = els /\
  Forall2 method_for (po_ops p) (gv_methods s).
Definition holds_stub (st : wstate) (p : port_plan) (t : gstub) : Prop :=
  assoc (po_name p ++ "ServiceStub")%string (st_names st) = Some (WvStub t).
(** Methods of a stub that are not hidden by its attributes. *)
Definition callable_name (s : string) : Prop := ~ In s ["username"; "password"; "service"; "location"].
(** The first port of every service is bound to SOAP over HTTP. *)
Definition soap_first (plan : list (list (option port_plan))) : Prop := forall ps, In ps plan -> hd_error ps <> Some None.
