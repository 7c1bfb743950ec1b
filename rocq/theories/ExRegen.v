(** Services regenerated from their WSDL documents. *)
From Coq Require Import String Ascii List ZArith NArith Bool.
From Verif Require Import PyBase PfBase PyRe Xml PyVal XsdSimple XsdComplex XsdSchema PyHttp ExEnv LibClasses Py2Xsd SpecXsd XsdMeta Dispatch Soap Client Py2Wsdl Xsd2Py PyLoad
  SpecGenCode ExGenCode PyUrl Wsdl2Py PyService PyInterop SpecParse SpecRound SpecSoap SpecDispatch SpecHttp SpecClient SpecGenWsdl SpecUrl SpecService SpecInterop SpecRegen
  ExSoap ExXsd ExGenWsdl PfClient3 ExService ExInterop.
Import ListNotations.
Open Scope nat_scope.
Open Scope string_scope.
Open Scope list_scope.

Definition r_service (location : string) (v : soapver) (methods : list wmethod) : wservice :=
  mkWs "Shop" "urn:shopping" location [x_schema] v methods.
Definition r_place : wmethod := mkWm "place" "urn:place" (IOName "order") (IOName "box") "document".
Definition r_ask : wmethod := mkWm "ask" "urn:ask" (IOName "box") (IOName "order") "rpc".
Definition r_address : address := mkAddr "http" "example.org" "/shop" None None.
Definition r_shop : wservice := r_service "http://example.org/shop" V12 [r_place; r_ask].

Lemma r_describable : service_describable ex_oracle x_env x_decls r_shop.
Proof. describe. Qed.
Lemma r_referable : referable r_shop.
Proof. refer. Qed.
Lemma r_regenerable : service_regenerable r_shop r_address.
Proof.
  split; [name|]. split; [quote|]. split; [reflexivity|]. split; [address|]. split; [nothing_empty|]. split; [without_tac|].
  constructor; [|constructor; [|constructor]]; (split; [name|]; split; [quote|]; eexists _, _; split; [reflexivity|]; split; [reflexivity|]; split; name).
Qed.
Lemma r_client : client_regenerable r_shop.
Proof. intros m [<-|[<-|[]]]; split; discriminate. Qed.
Lemma r_server : server_regenerable r_shop.
Proof.
  intros m [<-|[<-|[]]]; (split; [discriminate|]; split; [cbn; intuition discriminate|]; intros x; split; [apply too_short_end; cbn; Lia.lia|];
    split; [|apply too_short_start; cbn; Lia.lia]; apply other_end; eexists _, _; split; [vm_compute; reflexivity|]; split; [reflexivity|discriminate]).
Qed.

(** The code from the document of a service, and the module. *)
Definition r_elements : elements_of := [("order", 0); ("box", 1)].
Definition r_state : wstate := mkWst (mkWorld [] []) [("Schema_c0ffe", WvSchema r_elements); ("Order", WvOther); ("Item", WvOther)].
Definition r_code (server : bool) (s : wservice) : res (list wstmt) :=
  doc <- generate_wsdl 14 ex_oracle (lib_env 10) x_env x_decls s ;;
  code_from_wsdl 14 ex_oracle (lib_env 10) i_md5 v_checked server (wire (xd_root doc)).
Definition r_module (server : bool) (s : wservice) : res wstate := c <- r_code server s ;; exec_service g_rt 0 r_state c.
Definition r_stub (s : wservice) : option gstub :=
  match r_module false s with
  | Ok st => match assoc "ShopPortServiceStub" (st_names st) with Some (WvStub t) => Some t | _ => None end
  | Err _ => None
  end.
Definition r_generated (s : wservice) : option gservice := option_map gt_service (r_stub s).

(** A running service, its description, and calls to it from the generated client. *)
Definition r_method : method := mkMethod "Echo" "urn:echo#echo" (IOName "echoRequest") (IOName "echoResponse") None None (Some "my_echo").
Definition r_running : service (list string) := mkService V11 [0] [r_method] None i_fn.
Definition r_D : dispatcher (list string) := mkDisp r_running [] [] "<wsdl/>" [] true.
Definition r_echo_schema : gschema :=
  mkGs "urn:echo" "qualified" [] [] [] [] [("echoRequest", mkGel (TComplex "EchoRequest") true None); ("echoResponse", mkGel (TComplex "EchoResponse") true None)].
Definition r_echo : wservice :=
  mkWs "Echo" "urn:echoing" "http://example.org/echo" [r_echo_schema] V11 [mkWm "Echo" "urn:echo#echo" (IOName "echoRequest") (IOName "echoResponse") "document"].
Definition r_echo_address : address := mkAddr "http" "example.org" "/echo" None None.
Lemma r_echo_describable : service_describable ex_oracle call_env x_decls r_echo.
Proof.
  split; [reflexivity|]; split; [reflexivity|]; split; [reflexivity|]; split; [discriminate|]; split.
  - constructor; [|constructor]. split; [reflexivity|]. split; [now left|]. repeat (split; [constructor|]). repeat constructor; cbn; try discriminate.
  - constructor; [|constructor]. split; [reflexivity|]; split; [reflexivity|]; split; [reflexivity|]; split; [reflexivity|left; reflexivity].
Qed.
Lemma r_echo_referable : referable r_echo.
Proof. refer. Qed.
Lemma r_echo_regenerable : service_regenerable r_echo r_echo_address /\ client_regenerable r_echo.
Proof.
  split.
  - split; [name|]. split; [quote|]. split; [reflexivity|]. split; [address|]. split; [nothing_empty|]. split; [without_tac|].
    constructor; [|constructor]. split; [name|]; split; [quote|]; eexists _, _; split; [reflexivity|]; split; [reflexivity|]; split; name.
  - intros m [<-|[]]; split; discriminate.
Qed.
Lemma r_runs : runs r_echo r_running /\ headerless r_running.
Proof. split; [split; [reflexivity|]; repeat constructor|repeat constructor]. Qed.
Lemma r_callable a s : s = "hi" \/ s = "boom" ->
  callable i_P call_classes r_D a (fun _ => None) "Echo" r_method "my_echo" "echoRequest" (request_of s) VNone.
Proof.
  intros Hs. split.
  - exists [], []. repeat split. intros b [].
  - reflexivity.
  - left. reflexivity.
  - repeat split; discriminate.
  - exists "EchoRequest". split; [right; exists "echoRequest", (mkSel (TComplex "EchoRequest") None); repeat split|]. apply call_request; destruct Hs as [-> | ->]; reflexivity || discriminate.
  - now left.
  - intros x Hx. destruct Hs as [-> | ->]; vm_compute in Hx; injection Hx as <-;
      (split; [eexists; split; [vm_compute; reflexivity|apply ly_same]|]; repeat constructor).
  - destruct a; cbn.
    + split; [intros k _; reflexivity|]. exists [], []. repeat split. intros b [].
    + split; [|intros k _; reflexivity]. split; [discriminate|]. split; [vm_compute; intuition discriminate|]. exists [], []. repeat split. intros b [].
    + split; [intros k _; reflexivity|]. exists [], []. repeat split. intros b [].
Qed.
Lemma r_returnable : returnable i_P call_classes r_D r_method (response_of "hi") VNone.
Proof.
  split.
  - exists "EchoResponse", "echoResponse". split; [split; [reflexivity|eexists; split; reflexivity]|]. split; [repeat split; discriminate|]. apply call_response; reflexivity || discriminate.
  - now left.
  - intros tag x [= <-] Hx. vm_compute in Hx. injection Hx as <-. eexists; split; [vm_compute; reflexivity|apply ly_same].
Qed.
Definition r_client_service : gservice :=
  match (doc <- generate_wsdl 14 ex_oracle (lib_env 10) call_env x_decls r_echo ;;
         c <- code_from_wsdl 14 ex_oracle (lib_env 10) i_md5 v_checked false (wire (xd_root doc)) ;;
         exec_service g_rt 0 i_state c) with
  | Ok st => match assoc "EchoPort_SERVICE" (st_names st) with Some (WvService g) => g | _ => mkGsv "" "" "" [] V11 [] end
  | Err _ => mkGsv "" "" "" [] V11 []
  end.
Definition r_call (a : hosting) (s : string) : list string * res outcome :=
  stub_call i_P (as_service r_client_service [0] (fun _ => "") i_fn) (post_through a i_P r_D (fun _ => None)) [] "Echo" (request_of s) VNone.
