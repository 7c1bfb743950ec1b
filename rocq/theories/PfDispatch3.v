(** The dispatcher: final forms and examples. *)
From Coq Require Import String Ascii List ZArith NArith Bool Lia.
From Verif Require Import PyBase Xml PyVal XsdSimple XsdComplex XsdSchema PyHttp Soap SpecSoap Dispatch SpecDispatch
  PfBase PfSoap PfSoap2 PfSoap3 PfDispatch PfPin PfDispatch2 ExEnv ExSoap.
Import ListNotations.
Open Scope string_scope.
Open Scope list_scope.

Section D.
  Variable W : Type.
  Implicit Types (P : platform) (D : dispatcher W) (w : W).
  Notation sv D := (d_service D).
  Notation ver D := (sv_version (d_service D)).

  Lemma actor_lost P D w rq rq' f s code message actor :
    soap_platform P -> plain D -> request_method rq "POST" -> reaches_handler P D rq rq' f ->
    sv_fns (d_service D) f (w, rq') (rq_body rq') = (s, Err (SOAPError code message (Some actor))) ->
    text_good code -> text_good message ->
    exists tr rs doc, dispatch P D w rq = (fst s, tr, Ok rs) /\ rs_content rs = Some (pf_ser P doc) /\
      client_reads_fault (pf_n P) (pf_O P) (pf_E P) (sv_version (d_service D)) (wire doc) = Ok (VStr code, VStr message, VNone).
  Proof.
    intros SP Pl R RH Hf Cg Mg. destruct Cg as [C1 C2], Mg as [M1 M2].
    destruct (handler_raises _ P D w rq rq' f s code message (Some actor) SP Pl R RH Hf C2 M2) as (tr & rs & Ed & F).
    destruct F as (_ & _ & Fc). do 3 eexists. split; [exact Ed|]. split; [exact Fc|].
    assert (Ee := error_plain P (ver D) code message SP C2 M2). destruct SP as (U & lim & n & E & N).
    rewrite E, N in *.
    apply (fault_roundtrip _ _ _ _ _ _ _ None VNone _ (conj C1 C2) (conj M1 M2) I Ee).
  Qed.

  Lemma route_wsdl P D w rq : no_hooks D -> request_method rq "GET" -> has_key rq "wsdl" \/ has_key rq "singleWsdl" ->
    exists rs, dispatch P D w rq = (w, [], Ok rs) /\ rs_content rs = Some (wsdl_content D rq) /\
      rs_headers rs = [("Content-Type", "text/xml")].
  Proof.
    intros H R K. rewrite (dispatch_wsdl _ _ _ _ _ R K), (wsdl_plain _ _ _ _ H). eexists. repeat split.
  Qed.
  Lemma first_has rq k v : first_value rq k v -> has_key rq k.
  Proof. intros (l1 & l2 & E & _). exists v. rewrite E. apply in_elt. Qed.
  Lemma route_xsd P D w rq key : no_hooks D ->
    request_method rq "GET" -> ~ has_key rq "wsdl" -> ~ has_key rq "singleWsdl" -> first_value rq "xsd" key ->
    exists rs, dispatch P D w rq = (w, [], Ok rs) /\
      match loc_get (Some (if String.eqb key "" then "xsd" else key)) (d_xsds D) with
      | Some schema => rs_content rs = Some schema /\ rs_headers rs = [("Content-Type", "text/xml")]
      | None => rs_content rs = Some "not_found" /\ rs_headers rs = [("Content-Type", "text/plain")]
      end.
  Proof.
    intros H R K1 K2 F. rewrite (dispatch_xsd _ _ _ _ _ R K1 K2 (first_has _ _ _ F)).
    destruct (loc_get _ (d_xsds D)) as [x|] eqn:L.
    - rewrite (xsd_found _ _ _ _ _ _ H F L). eexists. repeat split.
    - rewrite (xsd_missing _ _ _ _ _ H F L). eexists. repeat split.
  Qed.
  Lemma route_soap P D w rq : no_hooks D -> request_method rq "POST" ->
    dispatch P D w rq =
    let '((w', rq'), tr, r) := stack P D (d_middlewares D) (w, rq) [] in (w', tr, build_response P D rq' r).
  Proof. intros H R. now rewrite (dispatch_soap _ _ _ _ _ R), (soap_no_hooks _ _ _ _ _ H). Qed.
  Lemma route_bad P D w rq : ~ request_method rq "POST" ->
    (request_method rq "GET" -> ~ has_key rq "wsdl" /\ ~ has_key rq "singleWsdl" /\ ~ has_key rq "xsd") ->
    exists rs, dispatch P D w rq = (w, [], Ok rs) /\ rs_content rs = Some "bad_request" /\
      rs_headers rs = [("Content-Type", "text/plain")].
  Proof. intros A B. rewrite (dispatch_bad _ _ _ _ _ A B). eexists. repeat split. Qed.

  Lemma success_status P D w rq rq' f s v w' tr rs : plain D -> request_method rq "POST" ->
    reaches_handler P D rq rq' f -> sv_fns (d_service D) f (w, rq') (rq_body rq') = (s, Ok (RPay (PVal v))) ->
    dispatch P D w rq = (w', tr, Ok rs) -> rs_status rs = 200%Z.
  Proof.
    intros [H M] R RH Hf. rewrite (dispatch_soap _ _ _ _ _ R), (soap_no_hooks _ _ _ _ _ H), M. cbn [stack].
    destruct (reached_call _ _ _ _ _ _ _ _ _ RH Hf) as (x & Ec). rewrite Ec. destruct s as [w2 rq2]. intros [= <- <- Eb].
    unfold build_response in Eb. cbn [bind res_map as_response rs_body new_response rs_header rs_status] in Eb.
    destruct (rq_method rq2) as [m|]; [|discriminate Eb]. cbn [bind] in Eb.
    destruct (m_out m); try discriminate Eb.
    destruct (envelope_response _ _ _ _ _ _ _); [|discriminate Eb]. injection Eb as <-. reflexivity.
  Qed.
  Lemma route_one rq : let get := request_method rq "GET" in let post := request_method rq "POST" in
    let wsdl := has_key rq "wsdl" \/ has_key rq "singleWsdl" in let xsd := has_key rq "xsd" in
    (get /\ wsdl \/ get /\ ~ wsdl /\ xsd \/ post \/ ~ post /\ (get -> ~ wsdl /\ ~ xsd)) /\
    ~ (get /\ post).
  Proof.
    cbv zeta. split.
    - assert (DK : forall k, has_key rq k \/ ~ has_key rq k).
      { intros k. destruct (qs_has k (parse_qsl (query_of rq))) eqn:Q; [left; now apply qs_has_in|right].
        intros H. apply qs_has_in in H. congruence. }
      assert (DM : forall m, request_method rq m \/ ~ request_method rq m).
      { intros m. unfold request_method. destruct (rq_environ rq "REQUEST_METHOD") as [x|]; [|right; discriminate].
        destruct (String.eqb_spec x m) as [-> | N]; [now left|right; congruence]. }
      destruct (DM "GET") as [G|G], (DM "POST") as [Q|Q], (DK "wsdl") as [A|A], (DK "singleWsdl") as [B|B], (DK "xsd") as [C|C]; tauto.
    - unfold request_method. intros [A B]. congruence.
  Qed.
  Lemma bad_status P D w rq : ~ request_method rq "POST" -> ~ request_method rq "GET" ->
    exists rs, dispatch P D w rq = (w, [], Ok rs) /\ rs_content rs = Some "bad_request" /\ rs_status rs = 200%Z.
  Proof. intros A B. rewrite (dispatch_bad _ _ _ _ _ A (fun g => match B g with end)). eexists. repeat split. Qed.
  Lemma unknown_status P D w rq key : no_hooks D ->
    request_method rq "GET" -> ~ has_key rq "wsdl" -> ~ has_key rq "singleWsdl" -> first_value rq "xsd" key -> key <> "" ->
    loc_get (Some key) (d_xsds D) = None ->
    exists rs, dispatch P D w rq = (w, [], Ok rs) /\ rs_content rs = Some "not_found" /\ rs_status rs = 200%Z.
  Proof.
    intros H R K1 K2 F N L. rewrite (dispatch_xsd _ _ _ _ _ R K1 K2 (first_has _ _ _ F)).
    assert (L' : loc_get (Some (if String.eqb key "" then "xsd" else key)) (d_xsds D) = None).
    { destruct (String.eqb_spec key ""); [contradiction|exact L]. }
    rewrite (xsd_missing _ _ _ _ _ H F L'). eexists. repeat split.
  Qed.
  Lemma chosen_called P D w rq rq' f s r : plain D -> request_method rq "POST" -> reaches_handler P D rq rq' f ->
    sv_fns (d_service D) f (w, rq') (rq_body rq') = (s, r) ->
    exists x r', dispatch P D w rq = (fst s, [EValidated x; ECalled f (rq_body rq')], r').
  Proof.
    intros [H M] R RH Hf. rewrite (dispatch_soap _ _ _ _ _ R), (soap_no_hooks _ _ _ _ _ H), M. cbn [stack].
    destruct (reached_call _ _ _ _ _ _ _ _ _ RH Hf) as (x & Ec). rewrite Ec. destruct s. do 2 eexists. reflexivity.
  Qed.
  Lemma called_reached P D w rq w' tr r f body : plain D -> request_method rq "POST" -> dispatch P D w rq = (w', tr, r) ->
    In (ECalled f body) tr -> exists rq', reaches_handler P D rq rq' f /\ rq_body rq' = body.
  Proof.
    intros [H M] R. rewrite (dispatch_soap _ _ _ _ _ R), (soap_no_hooks _ _ _ _ _ H), M. cbn [stack].
    unfold call_method. destruct (prepare_request P D rq) as [[rq1 ev] q] eqn:Ep. apply prepare_spec in Ep.
    destruct q as [u|er].
    - destruct Ep as (h & x & m & b & h' & -> & C & V & VH & F & PH & PI & ->). cbn [rq_method rq_body].
      destruct (m_fn m) as [f'|] eqn:Em.
      + destruct (sv_fns (d_service D) f' _ _) as [[w2 rq2] r2] eqn:Ef. intros [= <- <- <-] [I | [I | []]]; [discriminate I|].
        injection I as -> ->.
        apply parse_input_class in PI as (c & Ic & Pc).
        exists (mkReq (rq_environ rq) (rq_content rq) h' body (Some m)). split; [|reflexivity].
        exists x, h, m, c, h'. apply validate_ok in VH. apply header_as_spec in PH. repeat (split; [assumption || reflexivity|]). reflexivity.
      + intros [= <- <- <-] [I | []]. discriminate I.
    - intros [= <- <- <-] I. destruct Ep as [-> | (h & x & -> & _)]; [destruct I|destruct I as [I | []]; discriminate I].
  Qed.
  Lemma own_well_behaved P D tb catches log :
    well_behaved (exception_to_fault P D tb) /\ well_behaved (W := W) (exception_logger catches log).
  Proof.
    split; intros s; constructor; intros s' [v|e]; try constructor.
    - destruct e as [c m|c m a]; [|constructor]. destruct (is_Exception _); constructor.
    - destruct (catches e); constructor.
  Qed.
  Lemma bad_answer' P D w rq m : soap_platform P -> plain D -> request_method rq "POST" -> bad_post P D rq m -> xml_text_ok m = true ->
    exists tr rs, dispatch P D w rq = (w, tr, Ok rs) /\ calls tr = 0%nat /\ is_fault P D rs (code_client (ver D)) m [].
  Proof. intros A B C F G. destruct (bad_answer _ _ _ w _ _ A B C F G) as (tr & rs & H1 & H2 & H3). eauto 6. Qed.
  Lemma empty_body' P D w rq : soap_platform P -> plain D -> request_method rq "POST" ->
    pf_parse P (rq_content rq) = Ok (soap_envelope (envelope_ns (ver D)) [] []) ->
    dispatch P D w rq = (w, [], Err IndexError).
  Proof. intros (U & lim & n & A & B) C F G. eapply (empty_body _ _ _ _ _ _ _ _ _ A B C F); [now left|exact G]. Qed.
  Lemma nil_header' P D w rq kids t a k : soap_platform P -> plain D -> request_method rq "POST" ->
    local_name t <> "message" -> local_name t <> "Fault" ->
    pf_parse P (rq_content rq) = Ok (soap_envelope (envelope_ns (ver D))
      [Elem (clark (envelope_ns (ver D)) "Header") [(xsi_nil, "true")] kids] [Elem t a k]) ->
    dispatch P D w rq = (w, [], Err AttributeError).
  Proof. intros (U & lim & n & A & B) C F G H I. exact (nil_header _ _ _ _ _ _ _ _ _ _ _ _ _ A B C F (eq_refl : assoc xsi_nil [(xsi_nil, "true")] = _) G H I). Qed.
  Lemma pi_escape' P D w rq t a k s : soap_platform P -> plain D -> request_method rq "POST" ->
    In (PI s) k -> pf_parse P (rq_content rq) = Ok (Elem t a k) -> dispatch P D w rq = (w, [], Err TypeError).
  Proof.
    intros (U & lim & n & A & B) C F G H. eapply (pi_escape _ _ _ _ _ _ _ _ _ _ _ A B C F); eauto.
    apply existsb_exists. exists (PI s). auto.
  Qed.
End D.

(** ** The example service *)
Lemma echo_carries c t v : assoc c
    [("hello", ("echoRequest", "hello")); ("boom", ("echoRequest", "boom")); ("invalid", ("echoRequest", "invalid"));
     ("shout", ("shout", "hello")); ("lonely", ("lonely", "hello")); ("unknown", ("unknown", "hello"))] = Some (t, v) ->
  forall act, carries echo_P (echo_D [] []) (echo_post act c) VNone
    (Elem (clark "urn:echo" t) [] [Elem (clark "urn:echo" "value") [] [Text v]]).
Proof.
  intros H act. cbn [assoc] in H.
  repeat match type of H with (if String.eqb c ?k then _ else _) = _ => destruct (String.eqb_spec c k) as [-> | _];
    [injection H as <- <-; do 3 eexists; split; [reflexivity|]; split; [vm_compute; reflexivity|];
     split; [reflexivity|]; split; [vm_compute; reflexivity|]; split; [discriminate|reflexivity]|] end.
  discriminate H.
Qed.
Lemma echo_reaches c t v : assoc c
    [("hello", ("echoRequest", "hello")); ("boom", ("echoRequest", "boom")); ("shout", ("shout", "hello"))] = Some (t, v) ->
  reaches_handler echo_P (echo_D [] []) (echo_post "" c)
    (set_rq_body (VObj "EchoRequest" (Some (Elem (clark "urn:echo" t) [] [Elem (clark "urn:echo" "value") [] [Text v]])) [("value", VStr v)]) (set_header VNone (set_method echo_method (echo_post "" c)))) "echo".
Proof.
  intros H. do 5 eexists. split; [apply (echo_carries c t v)|].
  - revert H. cbn [assoc]. destruct (String.eqb c "hello"); [auto|]. destruct (String.eqb c "boom"); [auto|].
    destruct (String.eqb_spec c "shout") as [-> | _]; [|discriminate]. auto.
  - split; [now left|]. cbn [assoc] in H.
    destruct (String.eqb_spec c "hello") as [-> | _]; [|destruct (String.eqb_spec c "boom") as [-> | _];
      [|destruct (String.eqb_spec c "shout") as [-> | _]; [|discriminate H]]]; injection H as <- <-.
    all: split; [reflexivity|]. 
    all: split; [vm_compute; reflexivity|].
    all: split; [reflexivity|].
    all: split; [left; split; reflexivity|].
    all: split; [reflexivity|].
    all: split; [right; exists "echoRequest", (mkSel (TComplex "EchoRequest") None); repeat split|].
    all: split; [vm_compute; reflexivity|].
    all: repeat split.
Qed.
Lemma echo_hello : exists rq', reaches_handler echo_P (echo_D [] []) (echo_post "" "hello") rq' "echo".
Proof. eexists. apply (echo_reaches "hello" "echoRequest" "hello"). reflexivity. Qed.
Lemma echo_shout : exists rq', reaches_handler echo_P (echo_D [] []) (echo_post "" "shout") rq' "echo".
Proof. eexists. apply (echo_reaches "shout" "shout" "hello"). reflexivity. Qed.
Lemma echo_boom : exists rq', reaches_handler echo_P (echo_D [] []) (echo_post "" "boom") rq' "echo" /\
    echo_handler ([], rq') (rq_body rq') = (([], rq'), Err (SOAPError "Server" "it blew up" (Some "urn:me"))).
Proof. eexists. split; [apply (echo_reaches "boom" "echoRequest" "boom"); reflexivity|reflexivity]. Qed.
Lemma echo_lonely : exists h x, carries echo_P (echo_D [] []) (echo_post "" "lonely") h x /\
    header_ok echo_P true h /\ pf_valid echo_P x = Ok tt.
Proof. do 2 eexists. split; [apply (echo_carries "lonely" "lonely" "hello"); reflexivity|]. split; [now left|reflexivity]. Qed.
Lemma echo_bad :
  soap_platform echo_P /\ plain (echo_D [] []) /\
  bad_post echo_P (echo_D [] []) (echo_post "" "garbage") "XMLSyntaxError: Start tag expected" /\
  bad_post echo_P (echo_D [] []) (echo_post "" "none") "Missing SOAP body" /\
  bad_post echo_P (echo_D [] []) (echo_post "" "invalid") "DocumentInvalid: no way" /\
  bad_post echo_P (echo_D [] []) (echo_post "nope" "hello") "Invalid SOAP action: nope" /\
  bad_post echo_P (echo_D [] []) (echo_post "" "unknown") "Missing SOAP action and invalid root tag: unknown".
Proof.
  split; [exact echo_platform|]. split; [exact echo_plain|].
  split; [apply (bp_syntax echo_P (echo_D [] []) _ "Start tag expected"); reflexivity|].
  split; [eapply bp_no_body; [reflexivity|vm_compute; reflexivity|reflexivity]|].
  split; [apply (bp_invalid echo_P (echo_D [] []) _ _ _ "no way" (echo_carries "invalid" _ _ eq_refl _)); [now left|reflexivity]|].
  split.
  - apply (bp_action echo_P (echo_D [] []) _ _ _ _ _ "nope" (echo_carries "hello" _ _ eq_refl _)); try reflexivity.
    + now left.
    + split; [reflexivity|discriminate].
    + intros m [<- | []]. discriminate.
  - apply (bp_root echo_P (echo_D [] []) _ _ _ _ _ (echo_carries "unknown" _ _ eq_refl _)); try reflexivity.
    + now left.
    + intros a [H _]. discriminate H.
    + intros m [<- | []]. discriminate.
Qed.

Section D2.
  Variable W : Type.
  Implicit Types (P : platform) (D : dispatcher W) (w : W).
  Lemma logger_anywhere P D catches outer inner q tr :
    stack P D (outer ++ exception_logger catches (fun _ w => w) :: inner) q tr = stack P D (outer ++ inner) q tr.
  Proof.
    apply stack_ext. intros s t. assert (L := logger_spec _ P D catches (fun _ w => w) inner s t).
    destruct (stack P D inner s t) as [[[w1 q1] t'] r]. rewrite L. cbn [fst snd]. destruct r as [|e]; [reflexivity|].
    destruct (catches e); reflexivity.
  Qed.
  Lemma soap_request_wrong P D w rq h w1 x : request_method rq "POST" ->
    assoc "soap-request" (d_hooks D) = Some h -> h w rq None = (w1, Ok x) -> (forall q, x <> HReq q) ->
    dispatch P D w rq = (w1, [], Err (Exn ETypeError "Request hooks must return a SOAPRequest.")).
  Proof.
    intros R A H N. rewrite (dispatch_soap _ _ _ _ _ R). unfold handle_soap_request, request_hook. rewrite A, H.
    destruct x as [q| |]; [destruct (N q eq_refl)| |]; reflexivity.
  Qed.
End D2.
Lemma prefix_app d s : String.prefix d (d ++ s) = true.
Proof. induction d as [|c d IH]; cbn; [now destruct s|]. destruct (ascii_dec c c); [exact IH|congruence]. Qed.
Lemma hook_suffix d suffix : In d documented_hooks -> check_hooks [(d ++ suffix)%string] = Ok tt.
Proof. intros H. apply check_hooks_spec. intros n [<- | []]. exists d. split; [exact H|apply prefix_app]. Qed.
