(** C91: the header blocks of services generated from WSDL documents. *)
From Coq Require Import String Ascii List ZArith NArith Bool.
From Verif Require Import PyBase Xml PyVal XsdSimple XsdComplex XsdMeta Dispatch Soap LibClasses Py2Wsdl Xsd2Py PyLoad PyUrl Wsdl2Py PyService
  SpecMeta SpecUrl SpecGenCode SpecService SpecHeaders ExEnv ExGenCode ExService ExHeaders PfHeaders3 PfHeaders4.
Import ListNotations.
Open Scope nat_scope.
Open Scope string_scope.
Open Scope list_scope.

(** The module for a client: as in C74, and the Method of an operation has a class
    for the header blocks of its input, and one for those of its output, with a
    field for every block that is the Element object of its element.  These are
    the only fields that are new. *)
Theorem C91_client :
  forall n O L md5 checked rt base root d tns schemas els plan st,
  parse_obj n O L (wn (version_from_xml root) "Definitions") root = Ok d ->
  states_hdocument d tns schemas plan -> quotable tns -> (forall s, In s schemas -> hex5 (md5 (sp_tns s))) ->
  schemas_bound md5 st (map sp_tns schemas) els -> reached (st_world st) -> plain_base (st_world st) base -> elements_there (st_world st) els ->
  Forall (fun p => usable_port (bare p) /\ Forall (usable_hop schemas els) (hp_ops p) /\ Forall client_op (map ho_op (hp_ops p))) (soap_hports plan) ->
  NoDup (map hp_name (soap_hports plan)) ->
  exists code st', code_from_wsdl n O L md5 checked false root = Ok code /\ exec_service rt base st code = Ok st' /\
    (exists es, exec_all (st_world st) es = Ok (st_world st')) /\
    (forall c name k, has_field (st_world st') c name k -> now_named (st_world st) schemas els plan name k) /\
    forall p, In p (soap_hports plan) -> exists s t,
      holds_hservice st' (version_from_xml root) tns schemas els p s /\ holds_stub st' (bare p) t /\ gt_service t = s /\
      stub_posts_to t = Ok (written (hp_address p)) /\
      forall o, In o (hp_ops p) -> exists m, method_of s (op_name (ho_op o)) = Some m /\ method_with (st_world st') schemas els o m /\
        (op_action (ho_op o) <> None -> has_action (ho_op o) m) /\
        (op_style (ho_op o) <> None \/ hp_style p = "document" -> has_style (bare p) (ho_op o) m) /\
        (callable_name (op_name (ho_op o)) -> ~ In "call" (map op_name (map ho_op (hp_ops p))) ->
         stub_operation t (op_name (ho_op o)) = Some (op_name (ho_op o))).
Proof. exact heads_client. Qed.
Print Assumptions C91_client.
(** The module for a server. *)
Theorem C91_server :
  forall n O L md5 checked rt base root d tns schemas els plan st,
  parse_obj n O L (wn (version_from_xml root) "Definitions") root = Ok d ->
  states_hdocument d tns schemas plan -> quotable tns -> (forall s, In s schemas -> hex5 (md5 (sp_tns s))) ->
  schemas_bound md5 st (map sp_tns schemas) els -> reached (st_world st) -> plain_base (st_world st) base -> elements_there (st_world st) els ->
  Forall (fun p => usable_port (bare p) /\ Forall (usable_hop schemas els) (hp_ops p) /\ Forall (fun o => server_op (ho_op o) /\ server_hop o) (hp_ops p))
    (soap_hports plan) -> hsoap_first plan ->
  NoDup (map hp_name (soap_hports plan)) ->
  exists code st', code_from_wsdl n O L md5 checked true root = Ok code /\ exec_service rt base st code = Ok st' /\
    (exists es, exec_all (st_world st) es = Ok (st_world st')) /\
    (forall c name k, has_field (st_world st') c name k -> now_named (st_world st) schemas els plan name k) /\
    forall p, In p (soap_hports plan) -> exists s,
      holds_hservice st' (version_from_xml root) tns schemas els p s /\
      forall o, In o (hp_ops p) -> exists m, method_of s (op_name (ho_op o)) = Some m /\ method_with (st_world st') schemas els o m /\
        (op_action (ho_op o) <> None -> has_action (ho_op o) m) /\
        (op_style (ho_op o) <> None \/ hp_style p = "document" -> has_style (bare p) (ho_op o) m) /\ implements (ho_op o) m.
Proof. exact heads_server. Qed.
Print Assumptions C91_server.
Example C91_nonvacuous :
  parse_obj 14 ex_oracle (lib_env 10) (wn (version_from_xml h_shop) "Definitions") h_shop = Ok h_d /\
  states_hdocument h_d "urn:shopping" h_schemas h_plan /\ quotable "urn:shopping" /\ (forall s, In s h_schemas -> hex5 (v_md5 (sp_tns s))) /\
  schemas_bound v_md5 h_state (map sp_tns h_schemas) [v_elements] /\
  reached h_world /\ plain_base h_world 0 /\ elements_there h_world [v_elements] /\
  Forall (fun p => usable_port (bare p) /\ Forall (usable_hop h_schemas [v_elements]) (hp_ops p)) (soap_hports h_plan) /\
  Forall (fun p => Forall client_op (map ho_op (hp_ops p))) (soap_hports h_plan) /\
  Forall (fun p => Forall (fun o => server_op (ho_op o) /\ server_hop o) (hp_ops p)) (soap_hports h_plan) /\ hsoap_first h_plan /\
  NoDup (map hp_name (soap_hports h_plan)) /\ soap_hports h_plan = [h_port] /\ hp_ops h_port = [h_place; h_ask] /\
  exists st m, h_import h_shop = Ok st /\ h_method st "place" = Some m /\ h_fields st (gm_ih m) = ["basket"; "auth"] /\ h_fields st (gm_oh m) = ["seen"].
Proof.
  split; [exact (proj2 h_d_read)|]. split; [exact h_states|]. split; [exact v_tns|]. split; [exact h_hex|]. split; [exact h_bound|].
  split; [exact h_reached|]. split; [exact h_base|]. split; [exact h_there|]. split; [exact h_usable|]. split; [exact h_client|].
  split; [exact (proj1 h_server)|]. split; [exact (proj2 h_server)|]. split; [exact h_names|]. split; [reflexivity|]. split; [reflexivity|].
  eexists _, _. split; [vm_compute; reflexivity|]. repeat split; vm_compute; reflexivity.
Qed.

(** When no Element object is given two names, the class finds each block under the
    name of its part, with the declaration that the schema has for its element. *)
Theorem C91_blocks :
  forall w w' schemas els plan hs c,
  reached w -> (exists es, exec_all w es = Ok w') -> elements_there w els ->
  (forall c name k, has_field w' c name k -> now_named w schemas els plan name k) -> named_once w schemas els plan ->
  hs <> [] -> heads_class w' schemas els hs (Some c) ->
  exists i e, first_schema schemas hs i /\ nth_error els i = Some e /\
    forall q n, In q hs -> assoc (pp_element q) e = Some n ->
      exists f g, element w n g /\ element w' n f /\ f_name f = pp_name q /\ same_declaration f g /\ find_field (class_fields w' c) (pp_name q) = Ok f.
Proof. exact blocks_kept. Qed.
Print Assumptions C91_blocks.
Example C91_blocks_nonvacuous :
  reached h_world /\ elements_there h_world [v_elements] /\ named_once h_world h_schemas [v_elements] h_plan /\
  exists st m c, h_import h_shop = Ok st /\ h_method st "place" = Some m /\ gm_ih m = Some c /\
    heads_class (st_world st) h_schemas [v_elements] [h_auth; h_basket] (Some c).
Proof.
  split; [exact h_reached|]. split; [exact h_there|]. split; [exact h_once|].
  destruct (C91_client 14 ex_oracle (lib_env 10) v_md5 v_checked g_rt 0 h_shop h_d "urn:shopping" h_schemas [v_elements] h_plan h_state) as
    (code & st & E & X & _ & _ & H); [exact (proj2 h_d_read)|exact h_states|exact v_tns|exact h_hex|exact h_bound|exact h_reached|exact h_base|exact h_there| |exact h_names|].
  { pose proof h_usable as U. pose proof h_client as C. rewrite Forall_forall in *. intros p I. destruct (U p I) as (A & B). auto. }
  destruct (H h_port (or_introl eq_refl)) as (s & t & (As & _) & _ & _ & _ & Ho). destruct (Ho h_place (or_introl eq_refl)) as (m & Em & Mw & _).
  destruct Mw as (_ & _ & _ & _ & _ & Hc & _). destruct Hc as (c & i & e & Ec & Hc). exists st, m, c. split; [unfold h_import, v_code; rewrite E; exact X|].
  split; [unfold h_method; change (hp_name h_port ++ "_SERVICE")%string with "ShopPort_SERVICE" in As; now rewrite As|]. split; [exact Ec|]. exists c, i, e. now split.
Qed.

(** An element that is a block called "auth" in one operation and "key" in another:
    the first operation loses its field "auth". *)
Theorem C91_shared_refuted :
  exists st m, h_import (h_doc h_one (h_messages [v_part "auth" "sns:token"; v_part "key" "sns:token"])
      [h_operation "place" [("soapAction", "urn:place")] [h_block "heads" "auth"] []; h_operation "ask" [("soapAction", "urn:ask")] [h_block "heads" "key"] []]
      [v_ab "place"; v_ab "ask"]) = Ok st /\
    h_method st "place" = Some m /\ h_fields st (gm_ih m) = ["key"].
Proof. eexists _, _. split; [vm_compute; reflexivity|]. split; vm_compute; reflexivity. Qed.
Print Assumptions C91_shared_refuted.
(** With the same message as input and output, both have the class of the blocks of the output. *)
Theorem C91_same_message_refuted :
  exists st m, h_import (h_doc h_one (h_messages [v_part "auth" "sns:token"; v_part "seen" "sns:receipt"])
      [h_operation "place" [("soapAction", "urn:place")] [h_block "heads" "auth"] [h_block "heads" "seen"]]
      [v_abstract "place" "tns:orderIn" (Some "tns:orderIn")]) = Ok st /\
    h_method st "place" = Some m /\ h_fields st (gm_ih m) = ["seen"] /\ h_fields st (gm_oh m) = ["seen"].
Proof. eexists _, _. split; [vm_compute; reflexivity|]. repeat split; vm_compute; reflexivity. Qed.
Print Assumptions C91_same_message_refuted.
(** No module is made when the blocks of a message are elements of two schemas; *)
Theorem C91_two_schemas_refuted :
  v_code false (h_place_doc h_two [v_part "auth" "sns:order"; v_part "trace" "two:trace"] [h_block "heads" "auth"; h_block "heads" "trace"] []) = Err TypeError /\
  exists code, v_code false (h_place_doc h_two [v_part "auth" "sns:order"; v_part "trace" "two:trace"] [h_block "heads" "auth"] [h_block "heads" "trace"]) = Ok code.
Proof. split; [vm_compute; reflexivity|]. eexists. vm_compute. reflexivity. Qed.
Print Assumptions C91_two_schemas_refuted.
(** nor when a block is given by a type. *)
Theorem C91_type_refuted :
  v_code false (h_place_doc h_one [wel "part" [("name", "auth"); ("type", "xs:string")] []] [h_block "heads" "auth"] []) = Err TypeError.
Proof. vm_compute. reflexivity. Qed.
Print Assumptions C91_type_refuted.
(** The schema is chosen by the names of the elements: a block that is the element
    "token" of the second schema becomes that of the first. *)
Theorem C91_namespace_refuted :
  exists code rest, v_code false (h_place_doc h_two [v_part "auth" "two:token"] [h_block "heads" "auth"] []) = Ok code /\
    code = SHeaders "orderInHeaders" ("Schema_" ++ v_md5 "urn:shop")%string [("auth", WText "token")] :: rest.
Proof. eexists _, _. split; [vm_compute; reflexivity|reflexivity]. Qed.
Print Assumptions C91_namespace_refuted.
(** A message whose name is not an identifier makes a module that cannot be imported
    if it has header blocks, *)
Theorem C91_name_refuted :
  let doc heads := h_doc h_one [v_message "order-in" [v_part "body" "sns:order"]; v_out; v_message "heads" [v_part "auth" "sns:token"]]
    [h_operation "place" [("soapAction", "urn:place")] heads []] [v_abstract "place" "tns:order-in" (Some "tns:orderOut")] in
  h_import (doc [h_block "heads" "auth"]) = Err SyntaxError /\ exists st, h_import (doc []) = Ok st.
Proof. split; [vm_compute; reflexivity|]. eexists. vm_compute. reflexivity. Qed.
Print Assumptions C91_name_refuted.
(** and so does a part that is not: the part is the name of the field. *)
Theorem C91_part_refuted :
  h_import (h_place_doc h_one [v_part "auth-key" "sns:token"] [h_block "heads" "auth-key"] []) = Err SyntaxError.
Proof. vm_compute. reflexivity. Qed.
Print Assumptions C91_part_refuted.
