(** Vocabulary for the header blocks of services generated from WSDL: what the
    document says about them, and what the generated module should hold. *)
From Coq Require Import String Ascii List ZArith NArith Bool.
From Verif Require Import PyBase PyVal XsdSimple XsdComplex XsdMeta Dispatch Soap PyLoad PyService SpecNames SpecMeta SpecGenCode SpecUrl SpecService.
Import ListNotations.
Open Scope nat_scope.
Open Scope string_scope.
Open Scope list_scope.

(** ** What the document says *)

(** The header blocks of a message: its name, and the parts that the blocks are. *)
Record heads := mkHeads { hd_message : string; hd_parts : list part_plan }.
(** An operation with the header blocks of its input and of its output. *)
Record hop := mkHop { ho_op : op_plan; ho_in : heads; ho_out : heads }.
Record hport := mkHport { hp_name : string; hp_address : address; hp_style : string; hp_ops : list hop }.
(** The same without header blocks. *)
Definition bare (p : hport) : port_plan := mkPort (hp_name p) (hp_address p) (hp_style p) (map ho_op (hp_ops p)).

(** A header block of a binding: a part, given by an element, of some message. *)
Definition states_head (d h : pyval) (p : part_plan) : Prop :=
  exists mref mname m pref part eref,
    has h "message" (VStr mref) /\ refers_to mref mname /\ first_called d "messages" mname m /\
    has h "part" (VStr pref) /\ refers_to pref (pp_name p) /\ first_called m "parts" (pp_name p) part /\
    has part "element" (VStr eref) /\ refers_to eref (pp_element p) /\ pp_element p <> "".
(** The header blocks of an operation of a binding, for its input or output. *)
Definition states_heads (d op : pyval) (x : string) (hs : list part_plan) : Prop :=
  exists io, has op x io /\
    ((io = VNone /\ hs = []) \/ exists b l, has io "headers" (VList b l) /\ Forall2 (states_head d) l hs).
(** The operation has the message called [n] as [x], input or output. *)
Definition message_called (d pto : pyval) (x n : string) : Prop :=
  exists io ref m, has pto x io /\ has io "message" (VStr ref) /\ refers_to ref n /\ first_called d "messages" n m.
Definition states_hop (d b op : pyval) (o : hop) : Prop :=
  let p := ho_op o in
  has op "name" (VStr (op_name p)) /\
  states_heads d op "input" (hd_parts (ho_in o)) /\ states_heads d op "output" (hd_parts (ho_out o)) /\
  (exists so, has op "operation" so /\ has so "soapAction" (maybe (op_action p)) /\ has so "style" (maybe (op_style p))) /\
  exists pto, abstract_op d b (op_name p) pto /\
    takes d pto "input" (op_in p) /\ message_called d pto "input" (hd_message (ho_in o)) /\
    match op_out p with
    | Some q => takes d pto "output" q /\ message_called d pto "output" (hd_message (ho_out o))
    | None => has pto "output" VNone /\ hd_parts (ho_out o) = []
    end.
Definition states_hport (d port : pyval) (p : hport) : Prop :=
  has port "name" (VStr (hp_name p)) /\
  (exists a, has port "address" a /\ has a "location" (VStr (written (hp_address p)))) /\
  exists b bb f ops, bound_to d port b /\ has b "binding" bb /\ has bb "transport" (VStr soap_http) /\ has bb "style" (VStr (hp_style p)) /\
    has b "operations" (VList f ops) /\ Forall2 (states_hop d b) ops (hp_ops p).
Definition states_hservice (d s : pyval) (ps : list (option hport)) : Prop :=
  exists f ports, has s "ports" (VList f ports) /\
    Forall2 (fun port p => match p with Some p => states_hport d port p | None => other_port d port end) ports ps.
(** A schema: its target namespace and the names of its elements. *)
Record schema_plan := mkSp { sp_tns : string; sp_elements : list string }.
Definition states_schema (s : pyval) (p : schema_plan) : Prop :=
  has s "targetNamespace" (VStr (sp_tns p)) /\
  exists f l, has s "elements" (VList f l) /\ Forall2 (fun e n => has e "name" (VStr n)) l (sp_elements p).
Definition states_hdocument (d : pyval) (tns : string) (schemas : list schema_plan) (plan : list (list (option hport))) : Prop :=
  has d "targetNamespace" (VStr tns) /\
  (exists types f l, has d "types" types /\ has types "schemas" (VList f l) /\ Forall2 states_schema l schemas) /\
  exists f services, has d "services" (VList f services) /\ Forall2 (states_hservice d) services plan.
Definition soap_hports (plan : list (list (option hport))) : list hport :=
  flat_map (flat_map (fun p => match p with Some p => [p] | None => [] end)) plan.
(** The first port of every service is bound to SOAP over HTTP. *)
Definition hsoap_first (plan : list (list (option hport))) : Prop := forall ps, In ps plan -> hd_error ps <> Some None.

(** The number of the first schema with elements of all these names. *)
Definition first_schema (schemas : list schema_plan) (hs : list part_plan) (i : nat) : Prop :=
  exists before s after, schemas = before ++ s :: after /\ length before = i /\
    (forall h, In h hs -> In (pp_element h) (sp_elements s)) /\
    Forall (fun t => exists h, In h hs /\ ~ In (pp_element h) (sp_elements t)) before.

(** Some header block called [name] is the Element object [n]. *)
Definition block_named (schemas : list schema_plan) (els : list elements_of) (plan : list (list (option hport))) (name : string) (n : nat) : Prop :=
  exists p o h q i e, In p (soap_hports plan) /\ In o (hp_ops p) /\ (h = ho_in o \/ h = ho_out o) /\ In q (hd_parts h) /\
    first_schema schemas (hd_parts h) i /\ nth_error els i = Some e /\ name = pp_name q /\ assoc (pp_element q) e = Some n.

(** ** What can be used *)

Definition usable_heads (schemas : list schema_plan) (els : list elements_of) (h : heads) : Prop :=
  usable_name (hd_message h) /\ NoDup (map pp_name (hd_parts h)) /\
  Forall (fun p => usable_name (pp_name p) /\ pp_name p <> "SCHEMA" /\ quotable (pp_element p)) (hd_parts h) /\
  (hd_parts h <> [] -> exists i e, first_schema schemas (hd_parts h) i /\ nth_error els i = Some e /\
     forall p, In p (hd_parts h) -> exists n, assoc (pp_element p) e = Some n).
(** Also: the two messages are not the same one, unless one has no header blocks. *)
Definition usable_hop (schemas : list schema_plan) (els : list elements_of) (o : hop) : Prop :=
  usable_heads schemas els (ho_in o) /\ usable_heads schemas els (ho_out o) /\
  (hd_parts (ho_in o) <> [] -> hd_parts (ho_out o) <> [] -> hd_message (ho_in o) <> hd_message (ho_out o)).
(** No function is called like a class of header blocks. *)
Definition server_hop (o : hop) : Prop := forall s, op_name (ho_op o) <> (s ++ "Headers")%string.

(** The state before the statements for the services: a program has run, the base
    of the header classes has no fields, and the Element objects of the schemas are there. *)
Definition reached (w : world) : Prop := exists es, exec_all empty_world es = Ok w.
Definition plain_base (w : world) (base : nat) : Prop :=
  base < length (w_classes w) /\ forall c n v, In c (lineage w base) -> ~ declares w c n v.
Definition elements_there (w : world) (els : list elements_of) : Prop :=
  forall e name n, In e els -> In (name, n) e -> n < length (w_store w).

(** ** What the module should hold *)

(** The class of the header blocks [hs], if any: a field for each, called like
    the part, and that is the Element object of the element. *)
Definition heads_class (w : world) (schemas : list schema_plan) (els : list elements_of) (hs : list part_plan) (oc : option nat) : Prop :=
  match hs with
  | [] => oc = None
  | _ => exists c i e, oc = Some c /\ first_schema schemas hs i /\ nth_error els i = Some e /\
           forall name n, has_field w c name n <-> exists h, In h hs /\ pp_name h = name /\ assoc (pp_element h) e = Some n
  end.
Definition method_with (w : world) (schemas : list schema_plan) (els : list elements_of) (o : hop) (m : gmethod) : Prop :=
  let p := ho_op o in
  gm_op m = op_name p /\ gm_in m = IOName (pp_element (op_in p)) /\ gm_out m = out_spec (op_out p) /\
  gm_in_part m = pp_name (op_in p) /\ (forall q, op_out p = Some q -> gm_out_part m = pp_name q) /\
  heads_class w schemas els (hd_parts (ho_in o)) (gm_ih m) /\ heads_class w schemas els (hd_parts (ho_out o)) (gm_oh m).
Definition holds_hservice (st : wstate) (v : soapver) (tns : string) (schemas : list schema_plan) (els : list elements_of) (p : hport) (s : gservice) : Prop :=
  assoc (hp_name p ++ "_SERVICE")%string (st_names st) = Some (WvService s) /\
  gv_name s = hp_name p /\ gv_tns s = tns /\ gv_version s = v /\ gv_schemas s = els /\
  Forall2 (method_with (st_world st) schemas els) (hp_ops p) (gv_methods s).
(** The fields of the classes before, and the header blocks. *)
Definition now_named (w : world) (schemas : list schema_plan) (els : list elements_of) (plan : list (list (option hport))) (name : string) (n : nat) : Prop :=
  (exists c, has_field w c name n) \/ block_named schemas els plan name n.
(** No Element object has two names. *)
Definition named_once (w : world) (schemas : list schema_plan) (els : list elements_of) (plan : list (list (option hport))) : Prop :=
  forall a b n, now_named w schemas els plan a n -> now_named w schemas els plan b n -> a = b.
