(** A WSDL document with header blocks, for the theorems about generated services. *)
From Coq Require Import String Ascii List ZArith NArith Bool.
From Verif Require Import PyBase PfBase Xml PyVal XsdSimple XsdComplex ExEnv LibClasses XsdMeta Dispatch Soap Py2Wsdl Xsd2Py PyLoad SpecGenCode SpecXsd Py2Xsd ExGenCode
  PyUrl Wsdl2Py PyService SpecMeta SpecUrl SpecService ExService SpecHeaders PfHeaders2 PfMeta PfMeta2.
Import ListNotations.
Open Scope nat_scope.
Open Scope string_scope.
Open Scope list_scope.

Definition h_block (message part : string) : node := sel "header" [("message", ("tns:" ++ message)%string); ("part", part); ("use", "literal")] [].
Definition h_operation (name : string) (attrs : list (string * string)) (i o : list node) : node :=
  wel "operation" [("name", name)] [sel "operation" attrs []; wel "input" [] (v_body :: i); wel "output" [] (v_body :: o)].
(** An operation with two header blocks in its request and one in its response,
    and one with a header block in its response only. *)
Definition h_shop : node := v_definitions
  [v_message "orderIn" [v_part "body" "sns:order"]; v_message "orderOut" [v_part "body" "sns:receipt"];
   v_message "heads" [v_part "auth" "sns:token"; v_part "basket" "sns:order"; v_part "seen" "sns:receipt"];
   wel "portType" [("name", "Shopping")] [v_abstract "place" "tns:orderIn" (Some "tns:orderOut"); v_abstract "ask" "tns:orderIn" (Some "tns:orderOut")];
   v_binding "ShopMail" "tns:Shopping" "document" "http://example.org/smtp" [];
   v_binding "ShopBinding" "tns:Shopping" "document" soap_http
     [h_operation "place" [("soapAction", "urn:place")] [h_block "heads" "auth"; h_block "heads" "basket"] [h_block "heads" "seen"];
      h_operation "ask" [("soapAction", "urn:ask"); ("style", "rpc")] [] [h_block "heads" "auth"]];
   wel "service" [("name", "Shop")] [v_port "ShopPort" "tns:ShopBinding" "https://example.org:8080/shop/v1?k=1"; v_port "MailPort" "tns:ShopMail" "mailto:x"]].

(** The state before: the Element objects of the schema, and xsd.ComplexType as class 0. *)
Definition h_program : list XsdMeta.event :=
  [NewElement (ex_elem "" (TComplex "Item")); NewElement (ex_elem "" (TComplex "Item")); NewElement (ex_elem "" (TSimple (SString "String" no_sfacets))); DefClass [] []].
Definition h_world : world := Eval vm_compute in match exec_all empty_world h_program with Ok w => w | Err _ => empty_world end.
Definition h_state : wstate := mkWst h_world (st_names v_state).
Lemma h_reached : reached h_world.
Proof. exists h_program. vm_compute. reflexivity. Qed.
Lemma h_no_fields c n d : ~ has_field h_world c n d.
Proof.
  intros (b & x & a & E & (k & Nk & D) & _). unfold h_world in *. cbn in Nk. destruct x as [|[|x]]; cbn in Nk; [|discriminate..]. injection Nk as <-. discriminate.
Qed.
Lemma h_base : plain_base h_world 0.
Proof.
  split; [vm_compute; apply le_n|]. intros c n v _ (k & Nk & D). unfold h_world in Nk. cbn in Nk. destruct c as [|[|c]]; cbn in Nk; [|discriminate..]. injection Nk as <-. discriminate.
Qed.
Lemma h_there : elements_there h_world [v_elements].
Proof. intros e name n [<-|[]] I. cbn in I. destruct I as [E|[E|[E|[]]]]; injection E as _ <-; vm_compute; repeat constructor. Qed.

Definition h_d : pyval := Eval vm_compute in match parse_obj 14 ex_oracle (lib_env 10) (wn V11 "Definitions") h_shop with Ok x => x | Err _ => VNone end.
Lemma h_d_read : version_from_xml h_shop = V11 /\ parse_obj 14 ex_oracle (lib_env 10) (wn V11 "Definitions") h_shop = Ok h_d.
Proof. split; vm_compute; reflexivity. Qed.
Definition h_schemas : list schema_plan := [mkSp "urn:shop" ["order"; "receipt"; "token"]].
Definition h_auth : part_plan := mkPp "auth" "token".
Definition h_basket : part_plan := mkPp "basket" "order".
Definition h_seen : part_plan := mkPp "seen" "receipt".
Definition h_place : hop := mkHop v_place (mkHeads "orderIn" [h_auth; h_basket]) (mkHeads "orderOut" [h_seen]).
Definition h_ask : hop := mkHop v_ask (mkHeads "orderIn" []) (mkHeads "orderOut" [h_auth]).
Definition h_port : hport := mkHport "ShopPort" v_address "document" [h_place; h_ask].
Definition h_plan : list (list (option hport)) := [[Some h_port; None]].

Ltac head i :=
  eexists _, "heads", (nth 2 (items h_d "messages") VNone), _, (nth i (items (nth 2 (items h_d "messages") VNone) "parts") VNone), _;
  split; [hs|]; split; [refer_to|]; split; [called 2 "messages" h_d|]; split; [hs|]; split; [refer_to|];
  split; [called i "parts" (nth 2 (items h_d "messages") VNone)|]; split; [hs|]; split; [refer_to|discriminate].
Ltac abstract_tac i :=
  exists (nth i (items (nth 0 (items h_d "portTypes") VNone) "operations") VNone); split;
  [eexists _, "Shopping", (nth 0 (items h_d "portTypes") VNone); split; [hs|]; split; [refer_to|]; split; [called 0 "portTypes" h_d|];
   split; [vm_compute; intuition discriminate|]; called i "operations" (nth 0 (items h_d "portTypes") VNone)|].
Ltac takes_tac i nm :=
  exists (nth i (items h_d "messages") VNone); eexists _, _, _; split;
  [eexists _, _, nm; split; [hs|]; split; [hs|]; split; [refer_to|called i "messages" h_d]|];
  split; [hs|]; split; [hs|]; split; [hs|]; split; [refer_to|discriminate].
Ltac message_tac i := eexists _, _, (nth i (items h_d "messages") VNone); split; [hs|]; split; [hs|]; split; [refer_to|called i "messages" h_d].
Lemma h_states : states_hdocument h_d "urn:shopping" h_schemas h_plan.
Proof.
  split; [hs|]. split.
  { eexists _, _, _. split; [hs|]. split; [hs|]. constructor; [|constructor]. split; [hs|]. eexists _, _. split; [hs|]. repeat (constructor; [hs|]). constructor. }
  eexists _, _. split; [hs|]. constructor; [|constructor]. eexists _, _. split; [hs|].
  constructor; [|constructor; [|constructor]].
  - split; [hs|]. split. { eexists. split; hs. }
    exists (nth 1 (items h_d "bindings") VNone). eexists _, _, _. split. { eexists _, "ShopBinding". split; [hs|]. split; [refer_to|called 1 "bindings" h_d]. }
    split; [hs|]. split; [hs|]. split; [hs|]. split; [hs|].
    constructor; [|constructor; [|constructor]].
    + split; [hs|]. split. { eexists. split; [hs|]. right. eexists _, _. split; [hs|]. constructor; [head 0|constructor; [head 1|constructor]]. }
      split. { eexists. split; [hs|]. right. eexists _, _. split; [hs|]. constructor; [head 2|constructor]. }
      split. { eexists. split; [hs|]. split; hs. }
      abstract_tac 0. split; [takes_tac 0 "orderIn"|]. split; [message_tac 0|]. cbn [h_place ho_op v_place op_out]. split; [takes_tac 1 "orderOut"|message_tac 1].
    + split; [hs|]. split. { eexists. split; [hs|]. right. eexists _, _. split; [hs|]. constructor. }
      split. { eexists. split; [hs|]. right. eexists _, _. split; [hs|]. constructor; [head 0|constructor]. }
      split. { eexists. split; [hs|]. split; hs. }
      abstract_tac 1. split; [takes_tac 0 "orderIn"|]. split; [message_tac 0|]. cbn [h_ask ho_op v_ask op_out]. split; [takes_tac 1 "orderOut"|message_tac 1].
  - exists (nth 0 (items h_d "bindings") VNone). eexists. split. { eexists _, "ShopMail". split; [hs|]. split; [refer_to|called 0 "bindings" h_d]. }
    split; [hs|]. right. eexists. split; [hs|discriminate].
Qed.
Ltac heads_tac :=
  split; [name|]; split; [repeat constructor; cbn; intuition discriminate|];
  split; [repeat (apply Forall_cons; [split; [name|split; [discriminate|quote]]|]); apply Forall_nil|];
  first [ intros _; exists 0, v_elements; split;
          [exists [], (mkSp "urn:shop" ["order"; "receipt"; "token"]), []; split; [reflexivity|]; split; [reflexivity|];
           split; [cbn; intuition (subst; cbn; tauto)|constructor]|]; split; [reflexivity|];
          cbn [hd_parts In]; let p := fresh in let H := fresh in intros p H; repeat (destruct H as [<-|H]; [eexists; reflexivity|]); contradiction
        | intros X; now elim X ].
Lemma h_usable : Forall (fun p => usable_port (bare p) /\ Forall (usable_hop h_schemas [v_elements]) (hp_ops p)) (soap_hports h_plan).
Proof.
  constructor; [|constructor]. split.
  - pose proof v_usable as V. inversion V as [|? ? Hv _]; subst. exact Hv.
  - constructor; [|constructor; [|constructor]].
    + split; [heads_tac|]. split; [heads_tac|]. discriminate.
    + split; [heads_tac|]. split; [heads_tac|]. discriminate.
Qed.
Lemma h_client : Forall (fun p => Forall client_op (map ho_op (hp_ops p))) (soap_hports h_plan).
Proof. constructor; [|constructor]. constructor; [|constructor; [|constructor]]; vm_compute; intuition discriminate. Qed.
Lemma h_server : Forall (fun p => Forall (fun o => server_op (ho_op o) /\ server_hop o) (hp_ops p)) (soap_hports h_plan) /\ hsoap_first h_plan.
Proof.
  split.
  - pose proof (proj1 v_server) as V. inversion V as [|? ? Hv _]; subst. inversion Hv as [|? ? H1 Hv2]; subst. inversion Hv2 as [|? ? H2 _]; subst.
    constructor; [|constructor]. constructor; [|constructor; [|constructor]]; (split; [assumption|]);
      intros s E; apply (f_equal String.length) in E; rewrite <- !length_to_l, to_l_app, app_length in E; cbn in E; Lia.lia.
  - intros ps [<-|[]]. discriminate.
Qed.
Lemma h_hex : forall s, In s h_schemas -> hex5 (v_md5 (sp_tns s)).
Proof. intros s [<-|[]]. apply v_hex. now left. Qed.
Lemma h_bound : schemas_bound v_md5 h_state (map sp_tns h_schemas) [v_elements].
Proof. constructor; [reflexivity|constructor]. Qed.
Lemma h_names : NoDup (map hp_name (soap_hports h_plan)).
Proof. repeat constructor. intros []. Qed.
Lemma h_once : named_once h_world h_schemas [v_elements] h_plan.
Proof.
  assert (X : forall a n, now_named h_world h_schemas [v_elements] h_plan a n -> (a, n) = ("auth", 2) \/ (a, n) = ("basket", 0) \/ (a, n) = ("seen", 1)).
  { intros a n [(c & F)|(p & o & h & q & i & e & Ip & Io & Hh & Iq & _ & Ne & -> & En)]; [now apply h_no_fields in F|].
    assert (e = v_elements) as -> by (destruct i as [|[|i]]; cbn in Ne; congruence). destruct Ip as [<-|[]].
    destruct Io as [<-|[<-|[]]], Hh as [-> | ->]; cbn in Iq; repeat (destruct Iq as [<-|Iq]; [cbn in En; injection En as <-; cbn; tauto|]); contradiction. }
  intros a b n A B. apply X in A, B. destruct A as [A|[A|A]], B as [B|[B|B]]; congruence.
Qed.

(** Documents whose header blocks are not kept. *)
Definition h_doc (types : node) (messages : list node) (ops abstract : list node) : node :=
  wel "definitions" [("name", "Shop"); ("targetNamespace", "urn:shopping")] (types :: messages ++
    [wel "portType" [("name", "Shopping")] abstract; v_binding "ShopBinding" "tns:Shopping" "document" soap_http ops;
     wel "service" [("name", "Shop")] [v_port "ShopPort" "tns:ShopBinding" "http://example.org/shop"]]).
Definition h_import (doc : node) : res wstate := c <- v_code false doc ;; exec_service g_rt 0 h_state c.
(** The Method of an operation of ShopPort, and the names of the fields of a class. *)
Definition h_method (st : wstate) (op : string) : option gmethod :=
  match assoc "ShopPort_SERVICE" (st_names st) with Some (WvService s) => method_of s op | _ => None end.
Definition h_fields (st : wstate) (c : option nat) : list string :=
  match c with Some c => map f_name (class_fields (st_world st) c) | None => [] end.
Definition h_schema (tns : string) (names : list string) : node :=
  xel "schema" [("targetNamespace", tns); ("elementFormDefault", "qualified")] (map (fun n => e_element n [("type", "xs:string")]) names).
Definition h_one : node := wel "types" [] [h_schema "urn:shop" ["order"; "receipt"; "token"]].
(** Two schemas; the second, the namespace of the prefix [two], has an element "token" too. *)
Definition h_two : node := wel "types" [] [h_schema "urn:shop" ["order"; "receipt"; "token"]; h_schema "urn:two" ["token"; "trace"]].
Definition h_messages (heads : list node) : list node := [v_in; v_out; v_message "heads" heads].
Definition h_place_doc (types : node) (heads i o : list node) : node :=
  h_doc types (h_messages heads) [h_operation "place" [("soapAction", "urn:place")] i o] [v_ab "place"].
