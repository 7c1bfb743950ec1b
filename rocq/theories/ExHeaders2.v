(** A client and a server generated from a WSDL document with header blocks. *)
From Coq Require Import String Ascii List ZArith NArith Bool.
From Verif Require Import PyBase PfBase Xml PyVal XsdSimple XsdComplex XsdSchema PyHttp ExEnv LibClasses Py2Xsd SpecXsd XsdMeta Dispatch Soap Client Py2Wsdl Xsd2Py PyLoad
  SpecMeta SpecGenCode ExGenCode PyUrl Wsdl2Py PyService PyInterop SpecParse SpecRound SpecSoap SpecDispatch SpecHttp SpecClient SpecUrl SpecService SpecInterop SpecHeaders ExSoap PfClient3
  ExService ExInterop ExHeaders.
Import ListNotations.
Open Scope nat_scope.
Open Scope string_scope.
Open Scope list_scope.

(** Both the request and the response of Echo have a header block. *)
Definition t_doc : node :=
  wel "definitions" [("name", "Echo"); ("targetNamespace", "urn:echoing")]
    [wel "types" []
       [xel "schema" [("targetNamespace", "urn:echo"); ("elementFormDefault", "qualified")]
          [e_type "echo" [e_sequence [e_element "value" [("type", "xs:string")]]];
           e_element "echoRequest" [("type", "sns:echo")]; e_element "echoResponse" [("type", "sns:echo")]; e_element "who" [("type", "xs:string")]]];
     v_message "echoIn" [v_part "body" "sns:echoRequest"]; v_message "echoOut" [v_part "body" "sns:echoResponse"]; v_message "heads" [v_part "user" "sns:who"];
     wel "portType" [("name", "Echoing")] [v_abstract "Echo" "tns:echoIn" (Some "tns:echoOut")];
     v_binding "EchoBinding" "tns:Echoing" "document" soap_http
       [h_operation "Echo" [("soapAction", "urn:echo#echo")] [h_block "heads" "user"] [h_block "heads" "user"]];
     wel "service" [("name", "Echo")] [v_port "EchoPort" "tns:EchoBinding" "http://example.org/echo"]].
Definition t_d : pyval := Eval vm_compute in match parse_obj 14 ex_oracle (lib_env 10) (wn V11 "Definitions") t_doc with Ok x => x | Err _ => VNone end.
Lemma t_read : parse_obj 14 ex_oracle (lib_env 10) (wn (version_from_xml t_doc) "Definitions") t_doc = Ok t_d.
Proof. vm_compute. reflexivity. Qed.
Definition t_schemas : list schema_plan := [mkSp "urn:echo" ["echoRequest"; "echoResponse"; "who"]].
Definition t_op : hop := mkHop i_op (mkHeads "echoIn" [mkPp "user" "who"]) (mkHeads "echoOut" [mkPp "user" "who"]).
Definition t_port : hport := mkHport "EchoPort" (mkAddr "http" "example.org" "/echo" None None) "document" [t_op].
Definition t_plan : list (list (option hport)) := [[Some t_port]].
Ltac t_head :=
  eexists _, "heads", (nth 2 (items t_d "messages") VNone), _, (nth 0 (items (nth 2 (items t_d "messages") VNone) "parts") VNone), _;
  split; [hs|]; split; [refer_to|]; split; [called 2 "messages" t_d|]; split; [hs|]; split; [refer_to|];
  split; [called 0 "parts" (nth 2 (items t_d "messages") VNone)|]; split; [hs|]; split; [refer_to|discriminate].
Ltac t_message i := eexists _, _, (nth i (items t_d "messages") VNone); split; [hs|]; split; [hs|]; split; [refer_to|called i "messages" t_d].
Lemma t_states : states_hdocument t_d "urn:echoing" t_schemas t_plan.
Proof.
  split; [hs|]. split.
  { eexists _, _, _. split; [hs|]. split; [hs|]. constructor; [|constructor]. split; [hs|]. eexists _, _. split; [hs|]. repeat (constructor; [hs|]). constructor. }
  eexists _, _. split; [hs|]. constructor; [|constructor]. eexists _, _. split; [hs|]. constructor; [|constructor].
  split; [hs|]. split. { eexists. split; hs. }
  exists (nth 0 (items t_d "bindings") VNone). eexists _, _, _. split. { eexists _, "EchoBinding". split; [hs|]. split; [refer_to|called 0 "bindings" t_d]. }
  split; [hs|]. split; [hs|]. split; [hs|]. split; [hs|]. constructor; [|constructor].
  split; [hs|]. split. { eexists. split; [hs|]. right. eexists _, _. split; [hs|]. constructor; [t_head|constructor]. }
  split. { eexists. split; [hs|]. right. eexists _, _. split; [hs|]. constructor; [t_head|constructor]. }
  split. { eexists. split; [hs|]. split; hs. }
  exists (nth 0 (items (nth 0 (items t_d "portTypes") VNone) "operations") VNone). split.
  { eexists _, "Echoing", (nth 0 (items t_d "portTypes") VNone). split; [hs|]. split; [refer_to|]. split; [called 0 "portTypes" t_d|].
    split; [vm_compute; intuition discriminate|]. called 0 "operations" (nth 0 (items t_d "portTypes") VNone). }
  cbn [t_op ho_op i_op op_out]. split; [|split; [t_message 0|split; [|t_message 1]]].
  - exists (nth 0 (items t_d "messages") VNone). eexists _, _, _. split.
    { eexists _, _, "echoIn". split; [hs|]. split; [hs|]. split; [refer_to|called 0 "messages" t_d]. }
    split; [hs|]. split; [hs|]. split; [hs|]. split; [refer_to|discriminate].
  - exists (nth 1 (items t_d "messages") VNone). eexists _, _, _. split.
    { eexists _, _, "echoOut". split; [hs|]. split; [hs|]. split; [refer_to|called 1 "messages" t_d]. }
    split; [hs|]. split; [hs|]. split; [hs|]. split; [refer_to|discriminate].
Qed.
Definition t_elements : elements_of := [("echoRequest", 0); ("echoResponse", 1); ("who", 2)].
Definition t_program : list XsdMeta.event :=
  [NewElement (ex_elem "" (TComplex "EchoRequest")); NewElement (ex_elem "" (TComplex "EchoResponse")); NewElement (s_elem "" string_type 1 false None); DefClass [] []].
Definition t_world : world := Eval vm_compute in match exec_all empty_world t_program with Ok w => w | Err _ => empty_world end.
Definition t_state : wstate := mkWst t_world [("Schema_c0ffe", WvSchema t_elements)].
Lemma t_reached : reached t_world.
Proof. exists t_program. vm_compute. reflexivity. Qed.
Lemma t_base : plain_base t_world 0.
Proof.
  split; [vm_compute; apply le_n|]. intros c n v _ (k & Nk & D). unfold t_world in Nk. cbn in Nk. destruct c as [|[|c]]; cbn in Nk; [|discriminate..]. injection Nk as <-. discriminate.
Qed.
Lemma t_there : elements_there t_world [t_elements].
Proof. intros e name n [<-|[]] I. cbn in I. destruct I as [E|[E|[E|[]]]]; injection E as _ <-; vm_compute; repeat constructor. Qed.
Lemma t_heads m : usable_name m -> usable_heads t_schemas [t_elements] (mkHeads m [mkPp "user" "who"]).
Proof.
  intros U. split; [exact U|]. split; [repeat constructor; intros []|]. split; [constructor; [split; [name|split; [discriminate|quote]]|constructor]|].
  intros _. exists 0, t_elements. split.
  { exists [], (mkSp "urn:echo" ["echoRequest"; "echoResponse"; "who"]), []. split; [reflexivity|]. split; [reflexivity|]. split; [|constructor]. intros h [<-|[]]. cbn. tauto. }
  split; [reflexivity|]. intros p [<-|[]]. eexists. reflexivity.
Qed.
Lemma t_usable : Forall (fun p => usable_port (bare p) /\ Forall (usable_hop t_schemas [t_elements]) (hp_ops p)) (soap_hports t_plan).
Proof.
  constructor; [|constructor]. split.
  - pose proof i_usable as V. inversion V as [|? ? Hv _]; subst. exact Hv.
  - constructor; [|constructor]. split; [apply t_heads; name|]. split; [apply t_heads; name|]. discriminate.
Qed.
Lemma t_client : Forall (fun p => Forall client_op (map ho_op (hp_ops p))) (soap_hports t_plan).
Proof. constructor; [|constructor]. constructor; [|constructor]. vm_compute; intuition discriminate. Qed.
Lemma t_server : Forall (fun p => Forall (fun o => server_op (ho_op o) /\ server_hop o) (hp_ops p)) (soap_hports t_plan) /\ hsoap_first t_plan.
Proof.
  split.
  - constructor; [|constructor]. constructor; [|constructor]. split; [served|].
    intros s E; apply (f_equal String.length) in E; rewrite <- !length_to_l, to_l_app, app_length in E; cbn in E; Lia.lia.
  - intros ps [<-|[]]. discriminate.
Qed.
Lemma t_names : NoDup (map hp_name (soap_hports t_plan)).
Proof. repeat constructor. intros []. Qed.
Lemma t_hex : forall s, In s t_schemas -> hex5 (i_md5 (sp_tns s)).
Proof. intros s [<-|[]]. apply i_hex. now left. Qed.
Lemma t_bound : schemas_bound i_md5 t_state (map sp_tns t_schemas) [t_elements].
Proof. constructor; [reflexivity|constructor]. Qed.
Lemma t_distinguished a : distinguished a V11 (fun _ => None) (bare t_port) i_op.
Proof. exact (i_distinguished a). Qed.

Definition t_import (server : bool) : res wstate :=
  c <- code_from_wsdl 14 ex_oracle (lib_env 10) i_md5 v_checked server t_doc ;; exec_service g_rt 0 t_state c.
Definition t_generated (server : bool) : gservice :=
  match t_import server with
  | Ok st => match assoc "EchoPort_SERVICE" (st_names st) with Some (WvService s) => s | _ => mkGsv "" "" "" [] V11 [] end
  | Err _ => mkGsv "" "" "" [] V11 []
  end.
(** The classes of the header blocks go by the name Token on the platform, and
    have the fields of the class of that name there. *)
Definition t_cls (c : nat) : string := "Token".
Lemma t_described : forall server, exists st m c d, t_import server = Ok st /\ method_of (t_generated server) "Echo" = Some m /\ gm_ih m = Some c /\
  e_cls (pf_E i_P) (t_cls c) = Some d /\ cd_fields d = class_fields (st_world st) c.
Proof. intros []; eexists _, _, _, _; (split; [vm_compute; reflexivity|]); (split; [vm_compute; reflexivity|]); (split; [reflexivity|]); split; vm_compute; reflexivity. Qed.

(** The user's function answers with the header it was given. *)
Definition t_fn (name : string) : handler (list string) := fun s body =>
  match body with
  | VObj _ _ [("value", VStr "boom")] => (s, Err (SOAPError "Server" "it blew up" (Some "urn:me")))
  | VObj _ _ [("value", VStr v)] =>
      ((name :: v :: fst s, snd s), Ok (RResp (new_response (PVal (response_of v)) (rq_header (snd s)) 200 None [])))
  | _ => (s, Err ValueError)
  end.
Definition t_D : dispatcher (list string) := mkDisp (as_service (t_generated true) [0] t_cls t_fn) [] [] "<wsdl/>" [] true.
Definition t_message_doc (tag s who : string) : node :=
  soap_envelope (envelope_ns V11) [Elem (clark (envelope_ns V11) "Header") [] [Elem (clark (envelope_ns V11) "user") [] [Text who]]]
    [Elem (clark "urn:echo" tag) [] [Elem (clark "urn:echo" "value") [] [Text s]]].
Definition t_docs : list node := [t_message_doc "echoRequest" "hi" "you"; t_message_doc "echoRequest" "boom" "you"; t_message_doc "echoResponse" "hi" "you"; i_fault].
Definition t_P : platform :=
  mkPlat ex_oracle call_env 10 echo_G 10
    (fun s => match find (fun d => String.eqb (show d) s) t_docs with Some d => Ok d | None => Err (Exn EXMLSyntaxError "") end)
    show (fun _ => Ok tt) (fun _ => Ok tt) (fun _ => "").
Lemma t_platform : soap_platform t_P.
Proof. exists echo_U, 10, 6. split; reflexivity. Qed.
Definition t_call (a : hosting) (s : string) : list string * res outcome :=
  stub_call t_P (as_service (t_generated false) [0] t_cls t_fn) (post_through a t_P t_D (fun _ => None)) [] "Echo" (request_of s) (token_of "you").
