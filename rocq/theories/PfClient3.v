(** What goes wrong between client and server, and an example. *)
From Coq Require Import String Ascii List ZArith NArith Bool Lia.
From Verif Require Import PyBase Xml PyVal XsdSimple XsdComplex XsdSchema PyHttp Soap Dispatch Client
  SpecParse SpecRender SpecRound SpecSimple SpecSoap SpecDispatch SpecHttp SpecClient
  PfBase PfObject PfParse PfLayout PfRound PfMono PfLeaf PfSoap PfSoap2 PfSoap3 PfDispatch PfDispatch2 PfHttp PfClient PfClient2 ExEnv ExSoap.
Import ListNotations.
Open Scope nat_scope.
Open Scope string_scope.
Open Scope list_scope.

Lemma call_works {W} P Q (D : dispatcher W) a base op w m f tag parameter header :
  soap_platform P -> good_classes P Q -> plain D -> callable P Q D a base op m f tag parameter header ->
  exists data rq', reaches_handler P D (new_request (seen a base (request_headers (sv_version (d_service D)) (m_action m)) data) data) rq' f /\
    rq_method rq' = Some m /\ erase (rq_body rq') = erase parameter /\ header_received (server_header (d_service D) m) header (rq_header rq') /\
    (forall w' rq2 r out hout, sv_fns (d_service D) f (w, rq') (rq_body rq') = ((w', rq2), Ok r) ->
       rq_method rq2 = Some m -> rs_body (as_response r) = PVal out -> rs_header (as_response r) = hout ->
       returnable P Q D m out hout ->
       exists out' hout', stub_call P (d_service D) (post_through a P D base) w op parameter header = (w', Ok (CReturned out' hout')) /\
         erase out' = erase out /\ header_received (m_oh m) hout hout') /\
    (forall w' rq2 r code msg actor hout, sv_fns (d_service D) f (w, rq') (rq_body rq') = ((w', rq2), r) ->
       r = Err (SOAPError code msg actor) /\ hout = VNone \/
       (exists p, r = Ok p /\ rs_body (as_response p) = PErr code msg actor /\ rs_header (as_response p) = hout) ->
       text_good code -> text_good msg -> header_for P Q (m_oh m) hout ->
       (forall x, error_response (pf_n P) (pf_O P) (pf_E P) (sv_version (d_service D)) code msg hout None = Ok x -> transmits P x) ->
       stub_call P (d_service D) (post_through a P D base) w op parameter header = (w', Ok (CRaised (VStr code) (VStr msg) VNone))).
Proof. intros (U & lim & n & HE & Hn) HQ PD C. eapply (call_returns P Q U lim n HE Hn HQ D); eauto. Qed.

Lemma call_headers {W} P Q (D : dispatcher W) a base op m f tag parameter header c :
  soap_platform P -> good_classes P Q -> callable P Q D a base op m f tag parameter header ->
  server_header (d_service D) m = Some c ->
  exists headers data rq', stub_request P (d_service D) m parameter header = Ok (headers, data) /\
    reaches_handler P D (new_request (seen a base headers data) data) rq' f /\
    erase (rq_header rq') = erase header.
Proof.
  intros (U & lim & n & HE & Hn) HQ C Sc.
  destruct (call_reaches P Q U lim n HE Hn HQ D _ _ _ _ _ _ _ _ C) as (data & rq' & Sr & RH & _ & _ & Hh & _).
  exists (request_headers (sv_version (d_service D)) (m_action m)), data, rq'. split; [exact Sr|]. split; [exact RH|].
  unfold header_received in Hh. now rewrite Sc in Hh.
Qed.

(** ** A class as output *)
Lemma class_output {W} P Q (D : dispatcher W) a base op w m f tag parameter header c :
  soap_platform P -> good_classes P Q -> plain D -> callable P Q D a base op m f tag parameter header -> m_out m = IOClass c ->
  exists data rq', reaches_handler P D (new_request (seen a base (request_headers (sv_version (d_service D)) (m_action m)) data) data) rq' f /\
    forall w' rq2 r out, sv_fns (d_service D) f (w, rq') (rq_body rq') = ((w', rq2), Ok r) ->
       rq_method rq2 = Some m -> rs_body (as_response r) = PVal out ->
       stub_call P (d_service D) (post_through a P D base) w op parameter header = (w', Err AttributeError).
Proof.
  intros (U & lim & n & HE & Hn) HQ PD C Mo.
  destruct (call_reaches P Q U lim n HE Hn HQ D _ _ _ _ _ _ _ _ C) as (data & rq' & Sr & RH & _).
  exists data, rq'. split; [exact RH|]. intros w' rq2 r out Hf Hm Hb.
  rewrite (call_start P Q D _ _ _ _ _ _ _ _ _ _ _ PD C _ _ Sr RH Hf). cbn [fst snd res_map].
  unfold build_response. cbn [bind as_response]. rewrite Hb, Hm. cbn [bind]. rewrite Mo. reflexivity.
Qed.

(** ** SOAP 1.1 under WSGI or Flask, classes as input *)
Lemma class_input {W} P (D : dispatcher W) a base w action data w' tr r : plain D -> sv_version (d_service D) = V11 ->
  a <> Django -> clean_environ base -> (forall m, In m (sv_methods (d_service D)) -> exists c, m_in m = IOClass c) ->
  dispatch P D w (new_request (seen a base (request_headers V11 action) data) data) = (w', tr, r) -> calls tr = 0%nat.
Proof.
  intros [Hk Mw] EV Na C Cl.
  assert (R : request_method (new_request (seen a base (request_headers V11 action) data) data) "POST") by apply seen_post.
  rewrite (dispatch_soap _ _ _ _ _ R), (soap_no_hooks _ _ _ _ _ Hk), Mw. cbn [stack].
  unfold call_method. destruct (prepare_request P D _) as [[rq1 ev] q] eqn:Ep. apply prepare_spec in Ep. destruct q as [u|er].
  - exfalso. destruct Ep as (h & x & m & b & h' & _ & _ & _ & _ & F & _).
    assert (NA : no_action D (new_request (seen a base (request_headers V11 action) data) data)).
    { intros act [Ha _]. rewrite EV in Ha. destruct a; try congruence;
        change (determine_soap_action V11 (wsgi_environ base (request_headers V11 action)) = Some act) in Ha;
        rewrite action11_wsgi in Ha by auto; discriminate. }
    assert (NF : forall s, find (input_is s) (sv_methods (d_service D)) = None).
    { intros s. apply find_none_iff. intros m' I. destruct (Cl m' I) as (c & Hc). unfold input_is. now rewrite Hc. }
    unfold find_handler in F. rewrite (action_none _ _ _ NA) in F. destruct (root_tag x) as [t|]; [|discriminate]. cbn [bind] in F.
    rewrite NF in F. destruct (own_element _ _ _) as [e|]; [|discriminate]. destruct (sv_methods (d_service D)) as [|m0 ms]; [discriminate|].
    destruct (se_subst e) as [g|]; [|discriminate]. rewrite NF in F. discriminate.
  - intros [= <- <- <-]. destruct Ep as [-> | (h & x & -> & _)]; reflexivity.
Qed.

(** ** Headers *)
Lemma header_no_schema {W T} P Q (S : service W) (post : transport T) w op m tag parameter c ch xe fs d :
  soap_platform P -> get_method (sv_methods S) op = Ok m -> tagged_with m parameter tag -> message P Q c parameter ->
  e_cls (pf_E P) ch = Some d -> cd_schema d = None ->
  stub_call P S post w op parameter (VObj ch xe fs) = (w, Err AttributeError).
Proof.
  intros (U & lim & n & HE & Hn) Gm Rt%request_tagged (_ & (dp & si & Hd & Hs & Hm) & Ht & _) Hc Hn'.
  unfold stub_call. rewrite Gm. unfold stub_request. rewrite Rt. cbn [bind].
  inversion Ht as [|? ? xp fp ? ? ?]; subst parameter. rewrite HE in *. rewrite Hn.
  change (4 + n) with (Datatypes.S (Datatypes.S (2 + n))).
  rewrite (response_eq _ _ _ _ _ _ _ _ _ _ _ _ Hd Hs Hm). cbn [header_nodes].
  rewrite render_obj_S.
  assert (G : exists mro, get_class (soap_env U lim) (header_cls (sv_version S)) = Ok (mkClass mro CKHeader [] ISequence (Some (env_si (sv_version S)))))
    by (destruct (sv_version S); eexists; reflexivity).
  destruct G as (mro & ->). cbn [bind cd_kind obj_parts fst].
  unfold get_class. rewrite Hc. cbn [bind]. rewrite Hn'. reflexivity.
Qed.

(** The namespace of the header blocks. *)
Lemma blocks_tags O E n ns fs F : ns <> "" -> ns_good (Some ns) -> Forall simple_field F ->
  forall t a k x, foldM (fun par f => fv <- getattr fs (f_name f) ;; render_field O E (render_obj n O E) f par fv (Some ns) (Some qualified)) (Elem t a k) F = Ok x ->
  exists k2, x = Elem t a (k ++ k2) /\ forall y, In y k2 -> exists f, In f F /\ has_tag (clark ns (f_name f)) y.
Proof.
  intros Ns Gn. induction 1 as [|f F (K & Nf & Tf & Nm) HF IH]; intros t a k x H; cbn [foldM] in H.
  - injection H as <-. exists []. rewrite app_nil_r. split; [reflexivity|intros y []].
  - apply bind_ok in H as (p & Hp & H). apply bind_ok in Hp as (fv & _ & Hp).
    unfold render_field in Hp. rewrite K in Hp.
    assert (S1 : exists k1, p = Elem t a (k ++ k1) /\ forall y, In y k1 -> has_tag (clark ns (f_name f)) y).
    { unfold render_element in Hp.
      assert (ME : mk_element (qualify (eff_ns f (Some ns)) (Some qualified) (tag_or_name f)) = Ok (Elem (clark ns (f_name f)) [] [])).
      { unfold eff_ns, tag_or_name. rewrite Nf, Tf. unfold mk_element.
        assert (X : norm_name (ref_tag (Some ns) (f_name f)) = Ok (ref_tag (Some ns) (f_name f))) by now apply norm_ref_tag.
        unfold ref_tag in X. apply String.eqb_neq in Ns. rewrite Ns in X.
        change (qualify (Some ns) (Some qualified) (f_name f)) with (clark ns (f_name f)).
        rewrite X. reflexivity. }
      destruct fv; try (injection Hp as <-; exists []; rewrite app_nil_r; split; [reflexivity|intros y []]);
        rewrite ME in Hp; cbn [bind] in Hp; apply bind_ok in Hp as (zz & Hz & Hp); injection Hp as <-;
        (exists [zz]; split; [reflexivity|]; intros yy [<- | []]);
        try (eapply set_tag; [|exact Hz]; unfold has_tag; eauto; fail);
        unfold render_type in Hz; (destruct (f_type f); [eapply simple_tag|eapply render_tag]; try exact Hz; unfold has_tag; eauto). }
    destruct S1 as (k1 & -> & T1). destruct (IH t a (k ++ k1) x H) as (k2 & -> & T2). exists (k1 ++ k2). rewrite app_assoc. split; [reflexivity|].
    intros y Hy. apply in_app_iff in Hy as [Hy | Hy]; [exists f; split; [now left|auto]|].
    destruct (T2 y Hy) as (g & Ig & Tg). exists g. split; [now right|exact Tg].
Qed.

Lemma header_blocks O U lim n v ci xei fsi di si c xe fs d sh tag x :
  e_cls (soap_env U lim) ci = Some di -> cd_schema di = Some si -> In "ComplexType" (cd_mro di) ->
  e_cls (soap_env U lim) c = Some d -> cd_schema d = Some sh -> Forall simple_field (cd_fields d) ->
  envelope_response (2 + n) O (soap_env U lim) v tag (VObj ci xei fsi) (VObj c xe fs) = Ok x ->
  exists ks b, x = soap_envelope (envelope_ns v) [Elem (clark (envelope_ns v) "Header") [] ks] [b] /\
    forall y, In y ks -> exists f ay ky, In f (cd_fields d) /\ y = Elem (clark (envelope_ns v) (f_name f)) ay ky.
Proof.
  intros Hci Hsi Hm Hc Hs HF H. change (2 + n) with (S (S n)) in H. rewrite (response_eq _ _ _ _ _ _ _ _ _ _ _ _ Hci Hsi Hm) in H.
  apply bind_ok in H as (hx & Hh & H). apply bind_ok in H as (b & _ & H). injection H as <-.
  cbn [header_nodes] in Hh. apply bind_ok in Hh as (hd & Hr & Hh). injection Hh as <-.
  rewrite render_obj_S in Hr.
  assert (G : exists mro, get_class (soap_env U lim) (header_cls v) = Ok (mkClass mro CKHeader [] ISequence (Some (env_si v))))
    by (destruct v; eexists; reflexivity).
  destruct G as (mro & G). rewrite G in Hr. cbn [bind cd_kind obj_parts fst] in Hr.
  assert (Gi : get_class (soap_env U lim) c = Ok d) by (unfold get_class; now rewrite Hc).
  rewrite Gi in Hr. cbn [bind] in Hr. rewrite Hs in Hr. cbn [bind cd_schema env_si si_tns snd] in Hr.
  destruct (blocks_tags O (soap_env U lim) n (envelope_ns v) fs (cd_fields d) ltac:(destruct v; discriminate) (soap_ns_good v) HF _ _ _ _ Hr) as (k2 & -> & T).
  exists k2, b. split; [reflexivity|]. intros y I. destruct (T y I) as (f & If & ay & ky & ->). now exists f, ay, ky.
Qed.

(** ** An example *)
Definition call_classes (c : string) : Prop := In c ["EchoRequest"; "EchoResponse"; "Token"].
Definition call_env : env := soap_env echo_U 10.
Ltac flat_fop := repeat (constructor; [repeat constructor|]); repeat constructor.
Lemma call_rt_classes : rt_classes ex_oracle call_env call_classes.
Proof.
  intros c H. unfold call_classes in H. cbn in H. destruct H as [<-|[<-|[<-|[]]]].
  all: match goal with |- context [e_cls _ ?c] => let d := eval cbn in (e_cls call_env c) in match d with Some ?d' => exists d', (cd_fields d') end end.
  all: split; [reflexivity|]; repeat split; try discriminate.
  all: try (now left).
  all: try (match goal with |- flat_fields _ ?c (cd_fields ?d) => cbn [cd_fields]; apply (fl_class _ c d [[_]]); [reflexivity|cbn [cd_fields]; repeat constructor] end).
  all: try (cbn; intuition discriminate).
  all: try (repeat constructor; cbn; intuition discriminate).
  all: try (eexists; vm_compute; reflexivity).
  all: try (cbn in H; decompose [or] H; subst; try exact I; try reflexivity; try discriminate; contradiction).
  all: try (cbn in H; decompose [or] H; subst; cbn; try exact I; try reflexivity; try discriminate; contradiction).
Qed.
Lemma call_str s : s <> "" -> xml_text_ok s = true -> rt_typed ex_oracle call_env string_type (VStr s).
Proof.
  intros H1 H2. constructor. apply everyday_leaf. constructor; auto.
  - split; [|split; [|split; [|split]]]; cbn; try easy.
  - repeat split; cbn; easy.
  - reflexivity.
Qed.
Definition request_of s : pyval := VObj "EchoRequest" None [("value", VStr s)].
Definition response_of s : pyval := VObj "EchoResponse" None [("value", VStr s)].
Definition token_of s : pyval := VObj "Token" None [("user", VStr s)].
Lemma call_one c name s d : e_cls call_env c = Some d -> cd_fields d = [s_elem name string_type 1%Z false None] -> s <> "" -> xml_text_ok s = true ->
  rt_typed ex_oracle call_env (TComplex c) (VObj c None [(name, VStr s)]).
Proof.
  intros Hd Hf H1 H2. apply (rt_obj _ _ _ d); auto; [now rewrite Hf|]. rewrite Hf. intros f v [<-|[]]. cbn [f_name s_elem assoc].
  rewrite String.eqb_refl. intros [= <-]. apply rf_val; try discriminate; auto. now apply call_str.
Qed.

Definition call_handler : handler (list string) := fun s body =>
  match body with
  | VObj _ _ [("value", VStr "boom")] => (s, Err (SOAPError "Server" "it blew up" (Some "urn:me")))
  | VObj _ _ [("value", VStr v)] => ((v :: fst s, snd s), Ok (RResp (new_response (PVal (response_of v)) (token_of "me") 200 None [])))
  | _ => (s, Err ValueError)
  end.
Definition call_method_ : method :=
  mkMethod "Echo" "urn:echo#echo" (IOName "echoRequest") (IOName "echoResponse") (Some "Token") (Some "Token") (Some "echo").
Definition call_service : service (list string) := mkService V12 [0] [call_method_] None (fun _ => call_handler).
Definition call_D : dispatcher (list string) := mkDisp call_service [] [] "<wsdl/>" [] true.
(** The documents of the example, as the platform writes and reads them. *)
Definition call_doc (tag s user : string) : node :=
  soap_envelope (envelope_ns V12) [Elem (clark (envelope_ns V12) "Header") [] [Elem (clark (envelope_ns V12) "user") [] [Text user]]]
    [Elem (clark "urn:echo" tag) [] [Elem (clark "urn:echo" "value") [] [Text s]]].
Definition call_fault : node := soap_envelope (envelope_ns V12) [] [fault12 (envelope_ns V12) "Server" "it blew up" None].
Definition call_docs : list node := [call_doc "echoRequest" "hi" "you"; call_doc "echoRequest" "boom" "you"; call_doc "echoResponse" "hi" "me"; call_fault].
Definition call_P : platform :=
  mkPlat ex_oracle call_env 10 echo_G 10
    (fun s => match find (fun d => String.eqb (show d) s) call_docs with Some d => Ok d | None => Err (Exn EXMLSyntaxError "") end)
    show (fun _ => Ok tt) (fun _ => Ok tt) (fun _ => "").

Lemma call_platform : soap_platform call_P.
Proof. exists echo_U, 10, 6. split; reflexivity. Qed.
Lemma call_message_of c name s d si : call_classes c -> e_cls call_env c = Some d -> cd_fields d = [s_elem name string_type 1%Z false None] ->
  cd_schema d = Some si -> In "ComplexType" (cd_mro d) -> s <> "" -> xml_text_ok s = true -> message call_P call_classes c (VObj c None [(name, VStr s)]).
Proof.
  intros Hc Hd Hf Hs Hm H1 H2. split; [exact Hc|]. split; [exists d, si; repeat split; auto|]. split; [eapply call_one; eauto|]. cbn. lia.
Qed.
Lemma call_request s : s <> "" -> xml_text_ok s = true -> message call_P call_classes "EchoRequest" (request_of s).
Proof. intros. eapply call_message_of; try reflexivity; auto; cbn; auto. Qed.
Lemma call_response s : s <> "" -> xml_text_ok s = true -> message call_P call_classes "EchoResponse" (response_of s).
Proof. intros. eapply call_message_of; try reflexivity; auto; cbn; auto. Qed.
Lemma call_token s : s <> "" -> xml_text_ok s = true -> message call_P call_classes "Token" (token_of s).
Proof. intros. eapply call_message_of; try reflexivity; auto; cbn; auto. Qed.

Lemma call_callable a : forall s, s = "hi" \/ s = "boom" ->
  callable call_P call_classes call_D a (fun _ => None) "Echo" call_method_ "echo" "echoRequest" (request_of s) (token_of "you").
Proof.
  intros s Hs. split.
  - exists [], []. repeat split. intros b [].
  - reflexivity.
  - left. reflexivity.
  - repeat split; discriminate.
  - exists "EchoRequest". split; [right; exists "echoRequest", (mkSel (TComplex "EchoRequest") None); repeat split|]. apply call_request; destruct Hs as [-> | ->]; reflexivity || discriminate.
  - right. exists "Token". split; [apply call_token; reflexivity || discriminate|left; reflexivity].
  - intros x Hx. destruct Hs as [-> | ->]; vm_compute in Hx; injection Hx as <-;
      (split; [eexists; split; [vm_compute; reflexivity|apply ly_same]|]; repeat constructor).
  - cbn. split; [split; [discriminate|split]|].
    + unfold char_in. cbn. intuition discriminate.
    + exists [], []. repeat split. intros b [].
    + intros (l1 & l2 & H). assert (I : In bslash (to_l "urn:echo#echo")) by (cbn [m_action call_method_] in H; rewrite H; apply in_elt). revert I. cbn. intuition discriminate.
Qed.
Lemma call_returnable : returnable call_P call_classes call_D call_method_ (response_of "hi") (token_of "me").
Proof.
  split.
  - exists "EchoResponse", "echoResponse". split; [split; [reflexivity|eexists; split; reflexivity]|]. split; [repeat split; discriminate|]. apply call_response; reflexivity || discriminate.
  - right. exists "Token". split; [apply call_token; reflexivity || discriminate|left; reflexivity].
  - intros tag x [= <-] Hx. vm_compute in Hx. injection Hx as <-. eexists; split; [vm_compute; reflexivity|apply ly_same].
Qed.
