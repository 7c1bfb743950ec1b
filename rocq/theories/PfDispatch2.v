(** Faults, middlewares and hooks. *)
From Coq Require Import String Ascii List ZArith NArith Bool Lia.
From Verif Require Import PyBase Xml PyVal XsdSimple XsdComplex XsdSchema PyHttp Soap SpecSoap Dispatch SpecDispatch PfBase PfSoap PfSoap2 PfSoap3 PfDispatch PfPin.
Import ListNotations.
Open Scope string_scope.
Open Scope list_scope.

Section D.
  Variable W : Type.
  Implicit Types (P : platform) (D : dispatcher W) (w : W).
  Notation sv D := (d_service D).
  Notation ver D := (sv_version (d_service D)).

  (** ** Faults *)
  Lemma error_plain P v c m : soap_platform P -> xml_text_ok c = true -> xml_text_ok m = true ->
    error_response (pf_n P) (pf_O P) (pf_E P) v c m VNone None =
    Ok (soap_envelope (envelope_ns v) [] [match v with V11 => fault11 | V12 => fault12 end (envelope_ns v) c m None]).
  Proof.
    intros (U & lim & n & E & N) C M. rewrite E, N. change (4 + n) with (S (S (S (S n)))). rewrite error_eq. cbn [header_nodes bind].
    unfold texts_ok. rewrite C, M. destruct v; reflexivity.
  Qed.
  Lemma error_control P v c m : soap_platform P -> xml_text_ok m = false ->
    error_response (pf_n P) (pf_O P) (pf_E P) v c m VNone None = Err ValueError.
  Proof.
    intros (U & lim & n & E & N) M. rewrite E, N. now apply (fault_control _ U lim n v c m VNone [] None eq_refl).
  Qed.

  Lemma content_type_set D rs st c : assoc "Content-Type" (rs_headers (set_resp D rs st c)) = Some (content_type (ver D)).
  Proof.
    cbn [set_resp rs_headers]. induction (rs_headers rs) as [|[k v] l IH]; cbn [assoc_set assoc].
    - reflexivity.
    - destruct (String.eqb_spec "Content-Type" k) as [<-|N]; cbn [assoc].
      + now rewrite String.eqb_refl.
      + apply String.eqb_neq in N. now rewrite N.
  Qed.

  (** A SOAPError raised or returned, without header. *)
  Lemma build_fault P D rq r c m a : soap_platform P -> xml_text_ok c = true -> xml_text_ok m = true ->
    r = Err (SOAPError c m a) \/ r = Ok (RPay (PErr c m a)) ->
    exists rs, build_response P D rq r = Ok rs /\ is_fault P D rs c m [] /\ rs_body rs = PErr c m a.
  Proof.
    intros SP C M R.
    assert (E : build_response P D rq r = Ok (set_resp D (new_response (PErr c m a) VNone 200 None []) 500
       (pf_ser P (soap_envelope (envelope_ns (ver D)) []
          [match ver D with V11 => fault11 | V12 => fault12 end (envelope_ns (ver D)) c m None])))).
    { destruct R as [-> | ->]; unfold build_response; cbn [bind as_response rs_body new_response rs_header];
        rewrite (error_plain _ _ _ _ SP C M); reflexivity. }
    rewrite E. eexists. split; [reflexivity|]. split; [|reflexivity]. split; [reflexivity|]. split; [apply content_type_set|reflexivity].
  Qed.
  Lemma build_control P D rq r c m a : soap_platform P -> xml_text_ok m = false ->
    r = Err (SOAPError c m a) \/ r = Ok (RPay (PErr c m a)) -> build_response P D rq r = Err ValueError.
  Proof.
    intros SP M R. destruct R as [-> | ->]; unfold build_response; cbn [bind as_response rs_body new_response rs_header];
      rewrite (error_control _ _ _ _ SP M); reflexivity.
  Qed.
  Lemma build_other P D rq e : (forall c m a, e <> SOAPError c m a) -> build_response P D rq (Err e) = Err e.
  Proof. intros N. unfold build_response. destruct e; [reflexivity|]. destruct (N _ _ _ eq_refl). Qed.

  Lemma soap_no_hooks P D w rq : d_hooks D = [] ->
    handle_soap_request P D w rq =
    let '((w2, rq2), tr, r) := stack P D (d_middlewares D) (w, rq) [] in (w2, tr, build_response P D rq2 r).
  Proof.
    intros H. unfold handle_soap_request. rewrite (no_req_hook _ _ _ _ _ H).
    destruct (stack P D (d_middlewares D) (w, rq) []) as [[[w2 rq2] tr] r].
    destruct (build_response P D rq2 r) as [rs|]; auto. rewrite (no_resp_hook _ _ _ _ _ _ H). reflexivity.
  Qed.

  (** ** Bad requests *)
  Lemma carries_parts P D rq h x : carries P D rq h x -> exists e b, parse_soap_content P D (rq_content rq) = Ok e /\
    py_get e "Header" = Ok h /\ py_get e "Body" = Ok b /\ body_content b = Ok x.
  Proof.
    intros (doc & e & b & Hp & He & Hh & Hb & Nb & Hx). exists e, b. repeat split; auto.
    unfold parse_soap_content. rewrite Hp, He. cbn [bind]. rewrite Hb. cbn [bind]. destruct b; congruence.
  Qed.
  Lemma prepare_carries P D rq h x : carries P D rq h x ->
    prepare_request P D rq =
    match (validate_header P D h ;;; pf_valid P x) with
    | Err er => (rq, [], Err (if is_lxml_error er then SOAPError (code_client (ver D)) (exn_message er) None else er))
    | Ok _ =>
        match find_handler P D rq x with
        | Err er => (rq, [EValidated x], Err er)
        | Ok m =>
            match parse_header_of P D m h with
            | Err er => (set_method m rq, [EValidated x], Err er)
            | Ok h' =>
                match parse_input P D m x with
                | Err er => (set_header h' (set_method m rq), [EValidated x], Err er)
                | Ok b' => (set_rq_body b' (set_header h' (set_method m rq)), [EValidated x], Ok tt)
                end
            end
        end
    end.
  Proof.
    intros C. destruct (carries_parts _ _ _ _ _ C) as (e & b & He & Hh & Hb & Hx). unfold prepare_request.
    rewrite He. cbn [bind]. rewrite Hh. cbn [bind]. rewrite Hb. cbn [bind]. rewrite Hx. cbn [bind].
    unfold validate_input. rewrite Hh. cbn [bind]. rewrite Hb.
    destruct (validate_header P D h) as [[]|er]; cbn [bind].
    2:{ destruct (is_lxml_error er); reflexivity. }
    unfold validate_body. rewrite Hx. cbn [bind]. destruct (pf_valid P x) as [u|er].
    - reflexivity.
    - destruct (is_lxml_error er); reflexivity.
  Qed.

  Lemma bad_prepare P D rq m : bad_post P D rq m ->
    exists ev, prepare_request P D rq = (rq, ev, Err (SOAPError (code_client (ver D)) m None)) /\ calls ev = 0.
  Proof.
    intros B. destruct B as [m Hp|doc e Hp He Hb|h x m C VH V|h x m C VH|h t a k act C VH V A N|h t a k C VH V A N O].
    - exists []. split; auto. unfold prepare_request, parse_soap_content. rewrite Hp. reflexivity.
    - exists []. split; auto. unfold prepare_request, parse_soap_content. rewrite Hp, He. cbn [bind]. rewrite Hb. reflexivity.
    - apply validate_ok in VH. exists []. split; auto. rewrite (prepare_carries _ _ _ _ _ C), VH. cbn [bind]. rewrite V. reflexivity.
    - apply validate_bad in VH. exists []. split; auto. rewrite (prepare_carries _ _ _ _ _ C), VH. reflexivity.
    - apply validate_ok in VH. exists [EValidated (Elem t a k)]. split; auto. rewrite (prepare_carries _ _ _ _ _ C), VH. cbn [bind]. rewrite V.
      rewrite (proj2 (find_by_action _ P D rq t a k act A) N). reflexivity.
    - apply validate_ok in VH. exists [EValidated (Elem t a k)]. split; auto. rewrite (prepare_carries _ _ _ _ _ C), VH. cbn [bind]. rewrite V.
      apply own_element_none in O. rewrite (find_unknown _ P D rq t a k A N O). reflexivity.
  Qed.
  Lemma client_ok v : xml_text_ok (code_client v) = true.
  Proof. destruct v; reflexivity. Qed.
  Lemma server_ok v : xml_text_ok (code_server v) = true.
  Proof. destruct v; reflexivity. Qed.

  Lemma bad_answer P D w rq m : soap_platform P -> plain D -> request_method rq "POST" -> bad_post P D rq m -> xml_text_ok m = true ->
    exists tr rs, dispatch P D w rq = (w, tr, Ok rs) /\ is_fault P D rs (code_client (ver D)) m [] /\ calls tr = 0.
  Proof.
    intros SP [H M] R B X. destruct (bad_prepare _ _ _ _ B) as (ev & Ep & Cv).
    rewrite (dispatch_soap _ _ _ _ _ R), (soap_no_hooks _ _ _ _ H), M. cbn [stack]. unfold call_method. rewrite Ep. cbn [app].
    destruct (build_fault P D rq _ _ m None SP (client_ok (ver D)) X (or_introl eq_refl)) as (rs & Eb & F & _).
    exists ev, rs. rewrite Eb. auto.
  Qed.
  Lemma bad_control P D w rq m : soap_platform P -> plain D -> request_method rq "POST" -> bad_post P D rq m -> xml_text_ok m = false ->
    exists tr, dispatch P D w rq = (w, tr, Err ValueError).
  Proof.
    intros SP [H M] R B X. destruct (bad_prepare _ _ _ _ B) as (ev & Ep & Cv).
    rewrite (dispatch_soap _ _ _ _ _ R), (soap_no_hooks _ _ _ _ H), M. cbn [stack]. unfold call_method. rewrite Ep. cbn [app].
    exists ev. now rewrite (build_control P D rq _ _ m None SP X (or_introl eq_refl)).
  Qed.
  (** Exceptions that are not SOAPErrors escape. *)
  Lemma escape P D w rq rq' ev e : plain D -> request_method rq "POST" ->
    prepare_request P D rq = (rq', ev, Err e) -> (forall c m a, e <> SOAPError c m a) ->
    dispatch P D w rq = (w, ev, Err e).
  Proof.
    intros [H M] R Ep N. rewrite (dispatch_soap _ _ _ _ _ R), (soap_no_hooks _ _ _ _ H), M. cbn [stack]. unfold call_method. rewrite Ep. cbn [app].
    now rewrite (build_other _ _ _ _ N).
  Qed.

  Lemma empty_body P D w rq U lim n hx : pf_E P = soap_env U lim -> pf_n P = 4 + n -> plain D -> request_method rq "POST" ->
    one_header (ver D) hx -> pf_parse P (rq_content rq) = Ok (soap_envelope (envelope_ns (ver D)) hx []) ->
    dispatch P D w rq = (w, [], Err IndexError).
  Proof.
    intros E N Pl R Hh Hp. eapply escape; eauto; [|discriminate]. unfold prepare_request, parse_soap_content. rewrite Hp, E, N.
    change (4 + n) with (S (S (S (S n)))).
    rewrite (parse_soap_envelope (pf_O P) U lim _ (ver D) hx [] [("message", VNone); ("Fault", VNone)] Hh).
    - reflexivity.
    - apply parse_plain_body; reflexivity.
  Qed.
  Lemma nil_header P D w rq U lim n a k t a' k' : pf_E P = soap_env U lim -> pf_n P = 4 + n -> plain D -> request_method rq "POST" ->
    assoc xsi_nil a = Some "true" -> local_name t <> "message" -> local_name t <> "Fault" ->
    pf_parse P (rq_content rq) = Ok (soap_envelope (envelope_ns (ver D)) [Elem (clark (envelope_ns (ver D)) "Header") a k] [Elem t a' k']) ->
    dispatch P D w rq = (w, [], Err AttributeError).
  Proof.
    intros E N Pl R Ha T1 T2 Hp. eapply escape; eauto; [|discriminate]. unfold prepare_request, parse_soap_content. rewrite Hp, E, N.
    change (4 + n) with (S (S (S (S n)))).
    rewrite (parse_soap_envelope (pf_O P) U lim _ (ver D) _ _ [("message", VNone); ("Fault", VNone)]).
    - cbn [bind]. cbn [read_header]. unfold is_nil, el_get. cbn [el_attrs]. rewrite Ha. reflexivity.
    - right. eauto.
    - now apply parse_message_body.
  Qed.
  (** Text between the nodes of an Envelope does not matter: here a processing
      instruction does. *)
  Lemma pi_escape P D w rq U lim n t a k : pf_E P = soap_env U lim -> pf_n P = 4 + n -> plain D -> request_method rq "POST" ->
    existsb (fun x => match x with PI _ => true | _ => false end) k = true ->
    pf_parse P (rq_content rq) = Ok (Elem t a k) -> dispatch P D w rq = (w, [], Err TypeError).
  Proof.
    intros E N Pl R Hk Hp. eapply escape; eauto; [|discriminate]. unfold prepare_request, parse_soap_content. rewrite Hp, E, N.
    change (4 + n) with (S (S (S (S n)))). rewrite parse_envelope_eq.
    replace (find_sub (header_field (ver D)) (el_children (Elem t a k))) with (@Err (list node) TypeError).
    - reflexivity.
    - symmetry. unfold el_children. cbn [el_kids]. clear -Hk. induction k as [|x k IH]; [discriminate|].
      destruct x as [t0 a0 k0| | |]; cbn in Hk |- *; auto.
      + cbn in IH. now rewrite IH.
      + cbn in IH. now rewrite (IH Hk).
  Qed.
  Lemma unsubstituted P D w rq h t a k e : plain D -> request_method rq "POST" ->
    carries P D rq h (Elem t a k) -> header_ok P (d_strict D) h -> pf_valid P (Elem t a k) = Ok tt ->
    no_action D rq -> sv_methods (sv D) <> [] -> (forall m, In m (sv_methods (sv D)) -> m_in m <> IOName (local_name t)) ->
    declared_as P (sv_schemas (sv D)) (local_name t) e -> se_subst e = None ->
    dispatch P D w rq = (w, [EValidated (Elem t a k)], Err AttributeError).
  Proof.
    intros Pl R C VH V A M N O G. apply validate_ok in VH. apply own_element_spec in O. eapply escape; eauto; [|discriminate].
    rewrite (prepare_carries _ _ _ _ _ C), VH. cbn [bind]. rewrite V.
    rewrite (find_crash _ P D rq t a k e A M N O G). reflexivity.
  Qed.

  (** ** Handlers *)
  Lemma reaches_prepare P D rq rq' f : reaches_handler P D rq rq' f ->
    exists x m, prepare_request P D rq = (rq', [EValidated x], Ok tt) /\ rq_method rq' = Some m /\ m_fn m = Some f.
  Proof.
    intros (x & h & m & c & h' & C & VH & V & F & Fn & Ph & Hh & Ic & Pc & Hm & He & Hc).
    apply validate_ok in VH. apply header_as_spec in Ph. exists x, m. split; auto. rewrite (prepare_carries _ _ _ _ _ C), VH. cbn [bind]. rewrite V, F, Ph, (parse_input_ok _ _ _ _ _ _ Ic), Pc.
    destruct rq'; cbn in *; subst; reflexivity.
  Qed.
  Lemma reached_call P D w rq rq' f s r : reaches_handler P D rq rq' f ->
    sv_fns (sv D) f (w, rq') (rq_body rq') = (s, r) -> exists x,
    call_method P D (w, rq) [] = (s, [EValidated x; ECalled f (rq_body rq')], res_map (fun r => RResp (as_response r)) r).
  Proof.
    intros H Hf. destruct (reaches_prepare _ _ _ _ _ H) as (x & m & Ep & Em & Ef). exists x.
    unfold call_method. rewrite Ep. cbn [app]. rewrite Em, Ef, Hf. reflexivity.
  Qed.
  Lemma handler_raises P D w rq rq' f s c m a : soap_platform P -> plain D -> request_method rq "POST" ->
    reaches_handler P D rq rq' f -> sv_fns (sv D) f (w, rq') (rq_body rq') = (s, Err (SOAPError c m a)) ->
    xml_text_ok c = true -> xml_text_ok m = true ->
    exists tr rs, dispatch P D w rq = (fst s, tr, Ok rs) /\ is_fault P D rs c m [].
  Proof.
    intros SP [H M] R RH Hf C X. destruct (reached_call _ _ _ _ _ _ _ _ RH Hf) as (x & Ec).
    rewrite (dispatch_soap _ _ _ _ _ R), (soap_no_hooks _ _ _ _ H), M. cbn [stack]. rewrite Ec. destruct s as [w2 rq2]. cbn [res_map].
    destruct (build_fault P D rq2 _ c m a SP C X (or_introl eq_refl)) as (rs & Eb & F & _).
    rewrite Eb. eauto.
  Qed.

  (** ** Status *)
  Lemma build_status P D rq r rs : build_response P D rq r = Ok rs ->
    match rs_body rs with
    | PErr _ _ _ => rs_status rs = 500%Z
    | PVal v => exists q, r = Ok q /\ rs_status rs = rs_status (as_response q) /\ rs_body (as_response q) = PVal v
    end.
  Proof.
    unfold build_response. intros H. apply bind_ok in H as (q & Hq & H).
    destruct (rs_body (as_response q)) as [v|c m a] eqn:B.
    - apply bind_ok in H as (m & Hm & H). destruct (m_out m); try discriminate.
      apply bind_ok in H as (x & Hx & H). injection H as <-. cbn [set_resp rs_body rs_status]. rewrite B.
      exists q. repeat split; auto. destruct r as [|[|]]; try congruence. injection Hq as <-. discriminate.
    - apply bind_ok in H as (x & Hx & H). injection H as <-. cbn [set_resp rs_body rs_status]. rewrite B. reflexivity.
  Qed.
  Lemma soap_status P D w rq w' tr rs : no_hooks D -> request_method rq "POST" -> dispatch P D w rq = (w', tr, Ok rs) ->
    match rs_body rs with
    | PErr _ _ _ => rs_status rs = 500%Z
    | PVal v => exists s q, stack P D (d_middlewares D) (w, rq) [] = (s, tr, Ok q) /\
        rs_body (as_response q) = PVal v /\ rs_status rs = rs_status (as_response q)
    end.
  Proof.
    intros H R. rewrite (dispatch_soap _ _ _ _ _ R), (soap_no_hooks _ _ _ _ H).
    destruct (stack P D (d_middlewares D) (w, rq) []) as [[[w2 rq2] tr2] r]. intros [= <- <- Eb].
    apply build_status in Eb. destruct (rs_body rs); auto. destruct Eb as (q & -> & B & St). eauto 10.
  Qed.

  (** ** Middlewares *)
  Lemma stack_ext P D l1 l2 l2' : (forall s tr, stack P D l2 s tr = stack P D l2' s tr) ->
    forall s tr, stack P D (l1 ++ l2) s tr = stack P D (l1 ++ l2') s tr.
  Proof.
    intros H. induction l1 as [|m l1 IH]; cbn [app stack]; auto. intros s tr.
    generalize (m s) as p. intros p. revert tr. induction p as [s0 r|s0 k IHp]; intros tr; cbn [run_middleware]; auto.
    rewrite IH. destruct (stack P D (l1 ++ l2') s0 tr) as [[s1 tr1] r1]. apply IHp.
  Qed.
  Lemma stack_stop P D l2 l2' m s r : (forall q, m q = MDone (s q) (r q)) ->
    forall l1 q tr, stack P D (l1 ++ m :: l2) q tr = stack P D (l1 ++ m :: l2') q tr.
  Proof. intros H l1. apply stack_ext. intros q tr. cbn [stack]. now rewrite H. Qed.
  Lemma stack_stop_now P D m l q tr s r : m q = MDone s r -> stack P D (m :: l) q tr = (s, tr, r).
  Proof. intros H. cbn [stack]. now rewrite H. Qed.

  Lemma stack_wrappers P D l w rq tr :
    stack P D (map (fun ba => wrapper (fst ba) (snd ba)) l) (w, rq) tr =
    let '((w1, rq1), tr1, r) := call_method P D (fold_left (fun w ba => fst ba w) l w, rq) tr in
    ((fold_right (fun ba w => snd ba w) w1 l, rq1), tr1, r).
  Proof.
    revert w. induction l as [|[b a] l IH]; intros w; cbn [map stack fold_left fold_right fst snd].
    - destruct (call_method P D (w, rq) tr) as [[[w1 rq1] tr1] r]. reflexivity.
    - change (wrapper b a (w, rq)) with (@MNext W (b w, rq) (fun s' r => MDone (a (fst s'), snd s') r)). cbn [run_middleware]. rewrite IH.
      destruct (call_method P D _ tr) as [[[w1 rq1] tr1] r]. reflexivity.
  Qed.

  (** ExceptionToSoapFault *)
  Lemma etf_ok P D tb l q tr s tr' v : stack P D l q tr = (s, tr', Ok v) ->
    stack P D (exception_to_fault P D tb :: l) q tr = (s, tr', Ok v).
  Proof. intros H. cbn [stack exception_to_fault run_middleware]. rewrite H. reflexivity. Qed.
  Lemma etf_err P D tb l q tr s tr' e : stack P D l q tr = (s, tr', Err e) -> ~ base_exception e ->
    exists a, stack P D (exception_to_fault P D tb :: l) q tr = (s, tr', Ok (RPay (PErr (fst (fault_of P D tb e)) (snd (fault_of P D tb e)) a))).
  Proof.
    intros H X. apply exception_spec in X. cbn [stack exception_to_fault run_middleware]. rewrite H. destruct e as [c m|c m a]; cbn [fault_of fst snd].
    - rewrite X. cbn [run_middleware]. rewrite message_reported. eexists. reflexivity.
    - eexists. reflexivity.
  Qed.
  Lemma etf_base P D tb l q tr s tr' e : stack P D l q tr = (s, tr', Err e) -> base_exception e ->
    stack P D (exception_to_fault P D tb :: l) q tr = (s, tr', Err e).
  Proof.
    intros H X. apply base_exception_spec in X. cbn [stack exception_to_fault run_middleware]. rewrite H. destruct e as [c m|c m a]; [|discriminate].
    rewrite X. reflexivity.
  Qed.
  Lemma etf_answer P D tb l w rq s tr e : soap_platform P -> no_hooks D -> request_method rq "POST" ->
    d_middlewares D = exception_to_fault P D tb :: l -> stack P D l (w, rq) [] = (s, tr, Err e) -> ~ base_exception e ->
    xml_text_ok (fst (fault_of P D tb e)) = true -> xml_text_ok (snd (fault_of P D tb e)) = true ->
    exists rs, dispatch P D w rq = (fst s, tr, Ok rs) /\ is_fault P D rs (fst (fault_of P D tb e)) (snd (fault_of P D tb e)) [].
  Proof.
    intros SP H R M Hs X C T. destruct (etf_err P D tb l _ _ _ _ _ Hs X) as (a & Es).
    rewrite (dispatch_soap _ _ _ _ _ R), (soap_no_hooks _ _ _ _ H), M, Es. destruct s as [w2 rq2].
    destruct (build_fault P D rq2 _ _ _ a SP C T (or_intror eq_refl)) as (rs & Eb & F & _). rewrite Eb. eauto.
  Qed.
  Lemma etf_control P D tb l w rq s tr e : soap_platform P -> no_hooks D -> request_method rq "POST" ->
    d_middlewares D = exception_to_fault P D tb :: l -> stack P D l (w, rq) [] = (s, tr, Err e) -> ~ base_exception e ->
    xml_text_ok (snd (fault_of P D tb e)) = false -> dispatch P D w rq = (fst s, tr, Err ValueError).
  Proof.
    intros SP H R M Hs X T. destruct (etf_err P D tb l _ _ _ _ _ Hs X) as (a & Es).
    rewrite (dispatch_soap _ _ _ _ _ R), (soap_no_hooks _ _ _ _ H), M, Es. destruct s as [w2 rq2].
    now rewrite (build_control P D rq2 _ _ _ a SP T (or_intror eq_refl)).
  Qed.

  (** ExceptionLogger *)
  Lemma logger_spec P D catches log l q tr : let '(s, tr', r) := stack P D l q tr in
    stack P D (exception_logger catches log :: l) q tr =
    ((match r with Err e => if catches e then log e (fst s) else fst s | Ok _ => fst s end, snd s), tr', r).
  Proof.
    cbn [stack exception_logger run_middleware]. destruct (stack P D l q tr) as [[[w1 rq1] tr'] r].
    destruct r as [v|e]; cbn [run_middleware]; [reflexivity|]. destruct (catches e); reflexivity.
  Qed.

  (** ** Hooks *)
  Lemma check_hooks_spec names : check_hooks names = Ok tt <-> forall n, In n names -> exists d, In d documented_hooks /\ String.prefix d n = true.
  Proof.
    unfold check_hooks.
    assert (S : forall n, hook_name_ok n = true <-> exists d, In d documented_hooks /\ String.prefix d n = true).
    { intros n. unfold hook_name_ok. apply existsb_exists. }
    induction names as [|n l IH]; cbn [foldM].
    - split; auto. intros _ n [].
    - destruct (hook_name_ok n) eqn:E; cbn [bind].
      + rewrite IH. split.
        * intros H m [<-|I]; [now apply S|auto].
        * intros H m I. apply H. now right.
      + split; [discriminate|]. intros H. rewrite (proj2 (S n) (H n (or_introl eq_refl))) in E. discriminate E.
  Qed.

  Lemma hooks_used P D hs w rq : same_hooks D (with_hooks D hs) -> dispatch P (with_hooks D hs) w rq = dispatch P D w rq.
  Proof.
    intros H.
    assert (A : forall n w rq, In n ["soap-request"; "soap-response"; "wsdl-request"; "wsdl-response"; "xsd-request"] ->
              request_hook (with_hooks D hs) n w rq = request_hook D n w rq).
    { intros n w0 rq0 I. unfold request_hook. now rewrite (H n I). }
    assert (B : forall n w rq rs, In n ["soap-request"; "soap-response"; "wsdl-request"; "wsdl-response"; "xsd-request"] ->
              response_hook (with_hooks D hs) n w rq rs = response_hook D n w rq rs).
    { intros n w0 rq0 rs0 I. unfold response_hook. now rewrite (H n I). }
    unfold dispatch. destruct (_ && _)%bool.
    { unfold handle_wsdl_request. rewrite A by (cbn; auto 10). destruct (request_hook D "wsdl-request" w rq) as [w1 [rq1|]]; auto.
      rewrite B by (cbn; auto 10). reflexivity. }
    destruct (_ && _)%bool.
    { unfold handle_xsd_request. rewrite A by (cbn; auto 10). destruct (request_hook D "xsd-request" w rq) as [w1 [rq1|]]; auto.
      rewrite B by (cbn; auto 10). reflexivity. }
    destruct (String.eqb _ "POST"); [|reflexivity].
    unfold handle_soap_request. rewrite A by (cbn; auto 10). destruct (request_hook D "soap-request" w rq) as [w1 [rq1|]]; auto.
    change (stack P (with_hooks D hs) (d_middlewares (with_hooks D hs))) with (stack P D (d_middlewares D)).
    destruct (stack P D (d_middlewares D) (w1, rq1) []) as [[[w2 rq2] tr] r].
    change (build_response P (with_hooks D hs) rq2 r) with (build_response P D rq2 r).
    destruct (build_response P D rq2 r) as [rs|]; auto. rewrite B by (cbn; auto 10). reflexivity.
  Qed.

  Lemma assoc_filter {A} n m (l : list (string * A)) :
    assoc n (filter (fun p => negb (String.eqb (fst p) m)) l) = if String.eqb n m then None else assoc n l.
  Proof.
    induction l as [|[a b] l IH]; cbn [filter fst assoc].
    - now destruct (String.eqb n m).
    - destruct (String.eqb_spec a m) as [->|N]; cbn [negb assoc].
      + rewrite IH. destruct (String.eqb_spec n m) as [->|N]; auto.
      + destruct (String.eqb_spec n a) as [->|N'].
        * apply String.eqb_neq in N. now rewrite N.
        * rewrite IH. reflexivity.
  Qed.
  Lemma xsd_response_unused P D w rq : dispatch P (without_hook "xsd-response" D) w rq = dispatch P D w rq.
  Proof.
    apply hooks_used. intros n I. cbn [without_hook with_hooks d_hooks]. rewrite assoc_filter.
    destruct (String.eqb_spec n "xsd-response") as [->|N]; auto. cbn in I. decompose [or] I; try discriminate; contradiction.
  Qed.

  (** A hook on the request replaces it. *)
  Lemma soap_request_hook P D w rq h w1 rq1 : request_method rq "POST" -> request_method rq1 "POST" ->
    assoc "soap-request" (d_hooks D) = Some h -> h w rq None = (w1, Ok (HReq rq1)) ->
    dispatch P D w rq = dispatch P (without_hook "soap-request" D) w1 rq1.
  Proof.
    intros R R1 Hh Hc. rewrite !(dispatch_soap _ _ _ _ _ R), !(dispatch_soap _ _ _ _ _ R1).
    unfold handle_soap_request.
    assert (E : request_hook D "soap-request" w rq = (w1, Ok rq1)) by (unfold request_hook; rewrite Hh, Hc; reflexivity).
    assert (E' : request_hook (without_hook "soap-request" D) "soap-request" w1 rq1 = (w1, Ok rq1)).
    { unfold request_hook. cbn [without_hook with_hooks d_hooks]. now rewrite assoc_filter. }
    rewrite E, E'.
    change (stack P (without_hook "soap-request" D) (d_middlewares (without_hook "soap-request" D))) with (stack P D (d_middlewares D)).
    destruct (stack P D (d_middlewares D) (w1, rq1) []) as [[[w2 rq2] tr] r].
    change (build_response P (without_hook "soap-request" D) rq2 r) with (build_response P D rq2 r).
    destruct (build_response P D rq2 r) as [rs|]; auto.
    assert (B : response_hook (without_hook "soap-request" D) "soap-response" w2 rq2 rs = response_hook D "soap-response" w2 rq2 rs).
    { unfold response_hook. cbn [without_hook with_hooks d_hooks]. now rewrite assoc_filter. }
    now rewrite B.
  Qed.
  Lemma get_request_hooks P D w rq name h w1 rq1 : 
    (name = "wsdl-request" /\ (has_key rq "wsdl" \/ has_key rq "singleWsdl") /\ (has_key rq1 "wsdl" \/ has_key rq1 "singleWsdl") \/
     name = "xsd-request" /\ (~ has_key rq "wsdl" /\ ~ has_key rq "singleWsdl" /\ has_key rq "xsd") /\
        (~ has_key rq1 "wsdl" /\ ~ has_key rq1 "singleWsdl" /\ has_key rq1 "xsd")) ->
    request_method rq "GET" -> request_method rq1 "GET" ->
    assoc name (d_hooks D) = Some h -> h w rq None = (w1, Ok (HReq rq1)) ->
    dispatch P D w rq = dispatch P (without_hook name D) w1 rq1.
  Proof.
    intros K R R1 Hh Hc.
    assert (E : request_hook D name w rq = (w1, Ok rq1)) by (unfold request_hook; rewrite Hh, Hc; reflexivity).
    assert (E' : request_hook (without_hook name D) name w1 rq1 = (w1, Ok rq1)).
    { unfold request_hook. cbn [without_hook with_hooks d_hooks]. now rewrite assoc_filter, String.eqb_refl. }
    assert (B : forall rs, name <> "wsdl-response" -> response_hook (without_hook name D) "wsdl-response" w1 rq1 rs = response_hook D "wsdl-response" w1 rq1 rs).
    { intros rs N. unfold response_hook. cbn [without_hook with_hooks d_hooks]. rewrite assoc_filter.
      destruct (String.eqb_spec "wsdl-response" name); [congruence|reflexivity]. }
    destruct K as [(-> & K & K1)|(-> & (Ka & Kb & Kc) & K1a & K1b & K1c)].
    - rewrite (dispatch_wsdl _ _ _ _ _ R K), (dispatch_wsdl _ _ _ _ _ R1 K1). unfold handle_wsdl_request. rewrite E, E', B by discriminate. reflexivity.
    - rewrite (dispatch_xsd _ _ _ _ _ R Ka Kb Kc), (dispatch_xsd _ _ _ _ _ R1 K1a K1b K1c). unfold handle_xsd_request. rewrite E, E', B by discriminate. reflexivity.
  Qed.

  (** A hook on the response gets the answer of the dispatcher without it. *)
  Lemma soap_response_hook P D w rq h w1 tr rs w2 rs2 : request_method rq "POST" ->
    assoc "soap-response" (d_hooks D) = Some h ->
    dispatch P (without_hook "soap-response" D) w rq = (w1, tr, Ok rs) ->
    (forall q, h w1 q (Some rs) = (w2, Ok (HResp rs2))) ->
    dispatch P D w rq = (w2, tr, Ok rs2).
  Proof.
    intros R Hh. rewrite !(dispatch_soap _ _ _ _ _ R). unfold handle_soap_request.
    assert (E : request_hook (without_hook "soap-response" D) "soap-request" w rq = request_hook D "soap-request" w rq).
    { unfold request_hook. cbn [without_hook with_hooks d_hooks]. now rewrite assoc_filter. }
    rewrite E. destruct (request_hook D "soap-request" w rq) as [w0 [rq0|]]; [|discriminate].
    change (stack P (without_hook "soap-response" D) (d_middlewares (without_hook "soap-response" D))) with (stack P D (d_middlewares D)).
    destruct (stack P D (d_middlewares D) (w0, rq0) []) as [[[w3 rq3] tr3] r].
    change (build_response P (without_hook "soap-response" D) rq3 r) with (build_response P D rq3 r).
    destruct (build_response P D rq3 r) as [rs3|]; [|discriminate].
    unfold response_hook at 1. cbn [without_hook with_hooks d_hooks]. rewrite assoc_filter. cbn.
    intros [= <- <- <-] Hc. unfold response_hook. rewrite Hh, Hc. reflexivity.
  Qed.
  Lemma get_response_hook P D w rq h w1 tr rs w2 rs2 : request_method rq "GET" ->
    has_key rq "wsdl" \/ has_key rq "singleWsdl" \/ has_key rq "xsd" ->
    assoc "wsdl-response" (d_hooks D) = Some h ->
    dispatch P (without_hook "wsdl-response" D) w rq = (w1, tr, Ok rs) ->
    (forall q, h w1 q (Some rs) = (w2, Ok (HResp rs2))) ->
    dispatch P D w rq = (w2, tr, Ok rs2).
  Proof.
    intros R K Hh.
    assert (E : forall n, n <> "wsdl-response" -> request_hook (without_hook "wsdl-response" D) n w rq = request_hook D n w rq).
    { intros n N. unfold request_hook. cbn [without_hook with_hooks d_hooks]. rewrite assoc_filter. apply String.eqb_neq in N. now rewrite N. }
    assert (B : forall w0 rq0 rs0, response_hook (without_hook "wsdl-response" D) "wsdl-response" w0 rq0 rs0 = (w0, Ok rs0)).
    { intros. unfold response_hook. cbn [without_hook with_hooks d_hooks]. now rewrite assoc_filter. }
    assert (C : forall w0 rq0, (forall q, h w0 q (Some rs) = (w2, Ok (HResp rs2))) -> response_hook D "wsdl-response" w0 rq0 rs = (w2, Ok rs2)).
    { intros w0 rq0 Hq. unfold response_hook. rewrite Hh, Hq. reflexivity. }
    assert (T : has_key rq "wsdl" \/ has_key rq "singleWsdl" \/ ~ has_key rq "wsdl" /\ ~ has_key rq "singleWsdl" /\ has_key rq "xsd").
    { unfold has_key in *. rewrite <- !qs_has_in in *. destruct (qs_has "wsdl" _), (qs_has "singleWsdl" _); intuition congruence. }
    assert (T' : (has_key rq "wsdl" \/ has_key rq "singleWsdl") \/ ~ has_key rq "wsdl" /\ ~ has_key rq "singleWsdl" /\ has_key rq "xsd") by tauto.
    destruct T' as [K'|(Ka & Kb & Kc)].
    - rewrite !(dispatch_wsdl _ _ _ _ _ R K'). unfold handle_wsdl_request. rewrite E by discriminate.
      destruct (request_hook D "wsdl-request" w rq) as [w0 [rq0|]]; [|discriminate]. rewrite B.
      intros [= <- <- <-] Hc. rewrite (C _ _ Hc). reflexivity.
    - rewrite !(dispatch_xsd _ _ _ _ _ R Ka Kb Kc). unfold handle_xsd_request. rewrite E by discriminate.
      destruct (request_hook D "xsd-request" w rq) as [w0 [rq0|]]; [|discriminate]. rewrite B.
      intros [= <- <- <-] Hc. rewrite (C _ _ Hc). reflexivity.
  Qed.
End D.
