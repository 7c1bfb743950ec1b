(** Proofs about services generated from WSDL: a port (C74). *)
From Coq Require Import String Ascii List ZArith NArith Bool Lia.
From Verif Require Import PyBase PfBase PyVal XsdSimple XsdComplex XsdMeta PyHttp Soap Client Dispatch LibClasses Py2Xsd Py2Wsdl GenNames
  Xsd2Py PyLoad PyUrl PfUrl SpecUrl Wsdl2Py PyService SpecNames SpecGenCode SpecService PfGenCode PfService PfService2.
Import ListNotations.
Open Scope nat_scope.
Open Scope string_scope.
Open Scope list_scope.

Lemma mapM_forall2 {A B C} (f : A -> res C) (R : A -> B -> Prop) (g : B -> C) l l' :
  Forall2 R l l' -> (forall x y, In y l' -> R x y -> f x = Ok (g y)) -> mapM f l = Ok (map g l').
Proof.
  induction 1 as [|x y l l' H F IH]; intros K; [reflexivity|]. cbn [mapM map]. rewrite (K x y (or_introl eq_refl) H). cbn [bind].
  rewrite IH; [reflexivity|]. intros a b I R'. apply K; [now right|exact R'].
Qed.

(** ** The statements of a port *)
Definition fn_stmt (o : op_plan) : wstmt := SFunction (op_name o) (pp_element (op_in o)) (out_text o).
Definition method_stmt (server : bool) (o : op_plan) : wstmt := SMethod (op_name o ++ "_method") (plan_kw server o).
Definition template_text (p : port_plan) : string := ("${scheme}://${host}" ++ resource (po_address p))%string.
Definition service_stmt (md5 : string -> string) (v : soapver) (tns : string) (schemas : list string) (p : port_plan) : wstmt :=
  SService (po_name p ++ "_SERVICE") (po_name p) tns (template_text p) (map (fun ns => "Schema_" ++ md5 ns)%string schemas) v
    (map (fun o => op_name o ++ "_method")%string (po_ops p)).
Definition stub_stmt (p : port_plan) : wstmt :=
  SStub (po_name p ++ "ServiceStub") (po_name p ++ "_SERVICE") (a_scheme (po_address p)) (a_authority (po_address p))
    (map (fun o => (op_name o, pp_element (op_in o))) (po_ops p)).
Definition port_stmts (md5 : string -> string) (server : bool) (v : soapver) (tns : string) (schemas : list string) (p : port_plan) : list wstmt :=
  (if server then map fn_stmt (po_ops p) else []) ++ map (method_stmt server) (po_ops p) ++
  [service_stmt md5 v tns schemas p] ++ (if server then [] else [stub_stmt p]).

Lemma bound_found d port b : bound_to d port b -> exists l ref, py_get d "bindings" = Ok l /\ py_get port "binding" = Ok ref /\ get_by_name l ref = Ok b.
Proof.
  intros (ref & n & P & R & F). destruct (called_found _ _ _ _ ref F (refers_last _ _ R)) as (l & E & G).
  exists l, (VStr ref). repeat split; auto. now apply has_get.
Qed.
Lemma concat_singles_map {A B} (f : A -> B) (l : list A) : concat (map (fun x => [f x]) l) = map f l.
Proof. induction l as [|x l IH]; [reflexivity|]. cbn. now rewrite IH. Qed.

Section P.
  Variables (md5 : string -> string) (checked : string -> bool) (server : bool) (v : soapver) (d : pyval).
  Variables (tns : string) (schemas : list string).
  Hypothesis Htns : has d "targetNamespace" (VStr tns).
  Hypothesis Hsch : exists types f l, has d "types" types /\ has types "schemas" (VList f l) /\
     Forall2 (fun s ns => has s "targetNamespace" (VStr ns)) l schemas.

  Lemma doc_schemas_ok : exists l, doc_schemas d = Ok l /\ mapM (schema_var md5) l = Ok (map (fun ns => "Schema_" ++ md5 ns)%string schemas).
  Proof.
    destruct Hsch as (types & f & l & T & S & F). exists l. split.
    - unfold doc_schemas. rewrite (has_jattr _ _ _ T). cbn [bind]. now rewrite (has_jattr _ _ _ S).
    - eapply mapM_forall2; [exact F|]. intros s ns _ H. unfold schema_var, schema_name. rewrite (has_get _ _ _ H).
      pose proof (has_object _ _ _ H). destruct s; try congruence; reflexivity.
  Qed.

  Lemma other_code s port : other_port d port -> port_code md5 checked server v d s port = Ok [].
  Proof.
    intros (b & bb & B & H & C). destruct (bound_found _ _ _ B) as (l & ref & E1 & E2 & E3).
    unfold port_code. rewrite E1. cbn [bind]. rewrite E2. cbn [bind]. rewrite E3. cbn [bind]. rewrite (has_jattr _ _ _ H). cbn [bind].
    destruct C as [-> | (t & T & N)]; [reflexivity|]. rewrite (has_jattr _ _ _ T). cbn [bind].
    change (py_eqb (VStr t) (VStr ns_soap_http)) with (String.eqb t soap_http). destruct (String.eqb_spec t soap_http); [contradiction|reflexivity].
  Qed.

  Lemma address_ok p : usable_port p -> forall checked,
    url_template checked (written (po_address p)) = Ok (template_text p) /\
    url_component checked (written (po_address p)) "scheme" = Ok (a_scheme (po_address p)) /\
    url_component checked (written (po_address p)) "netloc" = Ok (a_authority (po_address p)).
  Proof.
    intros (_ & (A1 & A2 & A3 & A4 & A5 & A6 & A7 & A8 & A9) & E & _) ch. apply template_written; assumption.
  Qed.
  (** The address of the first port of the service is parsed, for a comment. *)
  Definition first_address (s : pyval) : Prop :=
    server = true -> exists f p l a loc u, has s "ports" (VList f (p :: l)) /\ has p "address" a /\ has a "location" (VStr loc) /\ urlparse checked loc = Ok u.
  Lemma soap_code s port p : states_port d port p -> usable_port p -> (server = true -> Forall server_op (po_ops p)) -> first_address s ->
    port_code md5 checked server v d s port = Ok (port_stmts md5 server v tns schemas p).
  Proof.
    intros (N & (a & A & L) & b & bb & f & ops & B & Hbb & T & St & O & F) U So Fa. unfold first_address in Fa.
    destruct (bound_found _ _ _ B) as (bl & ref & E1 & E2 & E3).
    unfold port_code. rewrite E1. cbn [bind]. rewrite E2. cbn [bind]. rewrite E3. cbn [bind]. rewrite (has_jattr _ _ _ Hbb). cbn [bind].
    rewrite (has_jattr _ _ _ T). cbn [bind]. change (py_eqb (VStr soap_http) (VStr ns_soap_http)) with true. cbn [negb].
    rewrite (has_jattr _ _ _ O). cbn [bind jiter jlist].
    destruct (address_ok p U checked) as (T1 & T2 & T3).
    assert (M : mapM (op_method md5 server d b) ops = Ok (map (fun o => [method_stmt server o]) (po_ops p))).
    { eapply mapM_forall2; [exact F|]. intros x y I H. apply op_method_code; [exact H|]. intros s0 E. destruct U as (_ & _ & _ & _ & Uo & _).
      rewrite Forall_forall in Uo. destruct (Uo y I) as (_ & _ & _ & _ & K). now destruct (K s0 E). }
    assert (Fn : (if server then mapM (op_function d b) ops else Ok []) = Ok (if server then map fn_stmt (po_ops p) else [])).
    { destruct server; [|reflexivity]. eapply mapM_forall2; [exact F|]. intros x y I H. apply op_function_code; [exact H|].
      specialize (So eq_refl). rewrite Forall_forall in So. apply (So y I). }
    rewrite Fn. cbn [bind]. rewrite M. cbn [bind]. rewrite (has_jattr _ _ _ N). cbn [bind]. rewrite (has_jattr _ _ _ Htns). cbn [bind].
    rewrite (has_jattr _ _ _ A). cbn [bind]. rewrite (has_jattr _ _ _ L). cbn [bind jurl]. rewrite T1. cbn [bind].
    destruct doc_schemas_ok as (sl & S1 & S2). rewrite S1. cbn [bind]. rewrite S2. cbn [bind].
    assert (Nm : mapM (fun o => n <- jattr (JVal o) "name" ;; Ok (jprint n ++ "_method")%string) ops =
                 Ok (map (fun o => op_name o ++ "_method")%string (po_ops p))).
    { eapply mapM_forall2; [exact F|]. intros x y I (H & _). now rewrite (has_jattr _ _ _ H). }
    rewrite Nm. cbn [bind jprint jtext]. unfold port_stmts. rewrite concat_singles_map.
    destruct server.
    - destruct (Fa eq_refl) as (g & q & l & a' & loc & u & F1 & F2 & F3 & F4). rewrite (has_get _ _ _ F1). cbn [bind jlist].
      rewrite (has_jattr _ _ _ F2). cbn [bind]. rewrite (has_jattr _ _ _ F3). cbn [bind jurl]. rewrite F4. reflexivity.
    - rewrite T2. cbn [bind]. rewrite T3. cbn [bind].
      assert (C : mapM (op_call d b) ops = Ok (map (fun o => (op_name o, pp_element (op_in o))) (po_ops p))).
      { eapply mapM_forall2; [exact F|]. intros x y I H. now apply op_call_code. }
      rewrite C. reflexivity.
  Qed.
End P.
