(** Proofs for C93, continued. *)
From Coq Require Import String Ascii List ZArith NArith Bool Lia.
From Verif Require Import PyBase Xml PyVal XsdSimple XsdComplex XsdSchema PyHttp Soap Dispatch Client SpecParse SpecSoap SpecDispatch SpecEnvelope
  PfBase PfParse PfSoap PfSoap2 PfPin PfDispatch PfEnvelope.
Import ListNotations.
Open Scope nat_scope.
Open Scope string_scope.
Open Scope list_scope.

Section D.
  Variable W : Type.
  Implicit Types (P : platform) (D : dispatcher W) (w : W).

  Lemma envelope_carried P D rq doc header body x : soap_platform P -> pf_parse P (rq_content rq) = Ok doc ->
    envelope_of doc header body -> message_of body x ->
    carries P D rq (match header with Some y => VObj (header_cls (sv_version (d_service D))) (Some y) [] | None => VNone end) x.
  Proof.
    intros (U & lim & n & EE & En) Hp He Hm. set (v := sv_version (d_service D)).
    exists doc. eexists. eexists. split; [exact Hp|]. rewrite EE, En. fold v. split.
    { exact (read_envelope (pf_O P) U lim (S (S n)) v doc header body _ He (read_message _ _ _ _ v body x Hm)). }
    split; [reflexivity|]. split; [reflexivity|]. split; [discriminate|]. exact (first_child body x v _ Hm).
  Qed.
  Lemma carries_fun P D rq h x h' x' : carries P D rq h x -> carries P D rq h' x' -> h = h' /\ x = x'.
  Proof.
    intros (d1 & e1 & b1 & A1 & B1 & C1 & D1 & _ & F1) (d2 & e2 & b2 & A2 & B2 & C2 & D2 & _ & F2).
    rewrite A1 in A2. injection A2 as <-. rewrite B1 in B2. injection B2 as <-. rewrite C1 in C2. rewrite D1 in D2. injection D2 as <-.
    rewrite F1 in F2. split; congruence.
  Qed.
  Lemma envelope_read P D rq doc header body x : soap_platform P -> pf_parse P (rq_content rq) = Ok doc ->
    envelope_of doc header body -> message_of body x ->
    (exists h, carries P D rq h x /\ header_from header h) /\
    forall h x', carries P D rq h x' -> x' = x /\ header_from header h.
  Proof.
    intros HP Hp He Hm. pose proof (envelope_carried P D rq doc header body x HP Hp He Hm) as C.
    assert (F : header_from header (match header with Some y => VObj (header_cls (sv_version (d_service D))) (Some y) [] | None => VNone end))
      by (destruct header; [eexists; reflexivity|reflexivity]).
    split; [eexists; split; [exact C|exact F]|]. intros h x' C'. destruct (carries_fun _ _ _ _ _ _ _ C C') as [<- <-]. now split.
  Qed.

  Lemma handler_environ P D rq rq2 x : rq_environ rq = rq_environ rq2 -> find_handler P D rq x = find_handler P D rq2 x.
  Proof. intros E. unfold find_handler. now rewrite E. Qed.
  Lemma reach_again P D rq rq2 rq' f h x h2 : carries P D rq h x -> carries P D rq2 h2 x -> rq_environ rq2 = rq_environ rq ->
    reaches_handler P D rq rq' f -> header_ok P (d_strict D) h2 ->
    forall h2', (forall m, rq_method rq' = Some m -> header_as P D m h2 h2') ->
    exists rq2', reaches_handler P D rq2 rq2' f /\ rq_body rq2' = rq_body rq' /\ rq_method rq2' = rq_method rq' /\ rq_header rq2' = h2'.
  Proof.
    intros C1 C2 Ee (x0 & h0 & m & t & h' & C & Hok & Hv & Hf & Hm & Ha & Hh & Hi & Hr & Hmm & He & Hc) Ho2 h2' Ha2.
    destruct (carries_fun _ _ _ _ _ _ _ C C1) as [-> ->].
    exists (mkReq (rq_environ rq2) (rq_content rq2) h2' (rq_body rq') (rq_method rq')). split; [|repeat split].
    exists x, h2, m, t, h2'. cbn [rq_header rq_body rq_method rq_environ rq_content].
    split; [exact C2|]. split; [exact Ho2|]. split; [exact Hv|]. split; [now rewrite (handler_environ P D rq2 rq x)|].
    split; [exact Hm|]. split; [exact (Ha2 m Hmm)|]. repeat (split; [assumption || reflexivity|]). reflexivity.
  Qed.
  Lemma same_call P D rq rq2 rq' f doc doc2 header body body2 x : soap_platform P ->
    pf_parse P (rq_content rq) = Ok doc -> envelope_of doc header body -> message_of body x ->
    pf_parse P (rq_content rq2) = Ok doc2 -> envelope_of doc2 header body2 -> message_of body2 x ->
    rq_environ rq2 = rq_environ rq -> reaches_handler P D rq rq' f ->
    exists rq2', reaches_handler P D rq2 rq2' f /\ rq_body rq2' = rq_body rq' /\ rq_method rq2' = rq_method rq' /\ rq_header rq2' = rq_header rq'.
  Proof.
    intros HP A1 B1 C1 A2 B2 C2 Ee R. pose proof (envelope_carried P D rq doc header body x HP A1 B1 C1) as K1.
    pose proof (envelope_carried P D rq2 doc2 header body2 x HP A2 B2 C2) as K2.
    pose proof R as (x0 & h0 & m & t & h' & C & Hok & Hv & Hf & Hm & Ha & Hh & Hi & Hr & Hmm & He & Hc).
    destruct (carries_fun _ _ _ _ _ _ _ C K1) as [-> ->].
    refine (reach_again P D rq rq2 rq' f _ x _ K1 K2 Ee R Hok (rq_header rq') _). intros m' Hm'. rewrite Hmm in Hm'. injection Hm' as <-. now rewrite Hh.
  Qed.

  Lemma envelope_plain ns x t a k : x = Elem t a k -> local_name t <> "message" -> local_name t <> "Fault" -> ~ In "}"%char (to_l ns) ->
    envelope_of (soap_envelope ns [] [x]) None (Elem (clark ns "Body") [] [x]) /\ message_of (Elem (clark ns "Body") [] [x]) x.
  Proof.
    intros -> N1 N2 B. assert (L : local_name (clark ns "Body") = "Body").
    { unfold clark, local_name. change (("{" ++ ns ++ "}" ++ "Body")%string) with (String "{" (ns ++ String "}" "Body")).
      unfold str_partition. rewrite to_l_app. change (to_l (String "}" "Body")) with ("}"%char :: to_l "Body").
      assert (Pp : forall l r, ~ In "}"%char l -> partition_l "}" (l ++ "}"%char :: r) = (l, Some r)).
      { clear. intros l r. induction l as [|c l IH]; intros N; cbn [app partition_l].
        - reflexivity.
        - destruct (Ascii.eqb_spec c "}") as [-> | Q]; [destruct N; now left|]. rewrite IH; [reflexivity|]. intros I. apply N. now right. }
      rewrite (Pp _ _ B). reflexivity. }
    apply String.eqb_neq in N1, N2. split; [split; [|split; [|split; [|split]]]|split; [|split; [|split; [|split]]]].
    - intros s [Q | []]. discriminate Q.
    - unfold children_called, soap_envelope. cbn [el_kids app filter called]. now rewrite L.
    - unfold children_called, soap_envelope. cbn [el_kids app filter called]. now rewrite L.
    - discriminate.
    - discriminate.
    - intros s [Q | []]. discriminate Q.
    - unfold children_called. cbn [el_kids filter called]. now rewrite N1.
    - unfold children_called. cbn [el_kids filter called]. now rewrite N2.
    - exists t, a, k. reflexivity.
    - exists [], []. reflexivity.
  Qed.
  Lemma any_version P D rq rq2 rq' f v t a k : soap_platform P -> local_name t <> "message" -> local_name t <> "Fault" ->
    pf_parse P (rq_content rq) = Ok (soap_envelope (soap_ns (sv_version (d_service D))) [] [Elem t a k]) ->
    pf_parse P (rq_content rq2) = Ok (soap_envelope (soap_ns v) [] [Elem t a k]) ->
    rq_environ rq2 = rq_environ rq -> reaches_handler P D rq rq' f ->
    exists rq2', reaches_handler P D rq2 rq2' f /\ rq_body rq2' = rq_body rq'.
  Proof.
    intros HP N1 N2 A1 A2 Ee R.
    assert (B : forall v, ~ In "}"%char (to_l (soap_ns v))) by (intros []; vm_compute; intuition discriminate).
    destruct (envelope_plain (soap_ns (sv_version (d_service D))) _ t a k eq_refl N1 N2 (B _)) as [E1 M1].
    destruct (envelope_plain (soap_ns v) _ t a k eq_refl N1 N2 (B _)) as [E2 M2].
    destruct (same_call P D rq rq2 rq' f _ _ None _ _ _ HP A1 E1 M1 A2 E2 M2 Ee R) as (rq2' & R2 & Eb & _). exists rq2'. now split.
  Qed.
  Lemma not_understood P D rq rq2 rq' f m doc doc2 body body2 x y block e : soap_platform P -> d_strict D = false ->
    pf_parse P (rq_content rq) = Ok doc -> envelope_of doc None body -> message_of body x ->
    pf_parse P (rq_content rq2) = Ok doc2 -> envelope_of doc2 (Some y) body2 -> message_of body2 x ->
    el_children y = [block] -> assoc (clark (soap_ns (sv_version (d_service D))) "mustUnderstand") (el_attrs block) = Some "1" ->
    ~ wsa_block block -> pf_valid P block = Err e -> lxml_failure e ->
    rq_environ rq2 = rq_environ rq -> reaches_handler P D rq rq' f ->
    rq_method rq' = Some m -> m_ih m = None -> sv_ih (d_service D) = None ->
    exists rq2', reaches_handler P D rq2 rq2' f /\ rq_body rq2' = rq_body rq' /\ rq_header rq2' = VNone.
  Proof.
    intros HP Hs A1 B1 C1 A2 B2 C2 Hy _ Hw Hv Hl Ee R Hm I1 I2. pose proof (envelope_carried P D rq doc None body x HP A1 B1 C1) as K1.
    pose proof (envelope_carried P D rq2 doc2 (Some y) body2 x HP A2 B2 C2) as K2.
    destruct (reach_again P D rq rq2 rq' f _ x _ K1 K2 Ee R) with (h2' := VNone) as (rq2' & R2 & Eb & _ & Eh).
    - right. exists y. split; [reflexivity|]. rewrite Hy. constructor; [|constructor]. right. split; [exact Hw|]. right. split; [exact Hs|]. exists e. now split.
    - intros m' Hm'. rewrite Hm in Hm'. injection Hm' as <-. right. split; [discriminate|]. right. now repeat split.
    - exists rq2'. now repeat split.
  Qed.
End D.

(** ** The client *)
Section C.
  Variable W T : Type.
  Implicit Types (P : platform) (S : service W).
  (** The header of the response, soap.py:107-110. *)
  Definition header_step P m (h : pyval) : res pyval :=
    match h, m_oh m with
    | VNone, _ => Ok VNone
    | _, None => Ok VNone
    | _, Some c => header_parse_as (pf_n P) (pf_O P) (pf_E P) h c
    end.
  Lemma response_header P m header h : reply_header (pf_n P) (pf_O P) (pf_E P) (m_oh m) header h -> forall v,
    header_step P m (match header with Some y => VObj (header_cls v) (Some y) [] | None => VNone end) = Ok h.
  Proof.
    intros H v. unfold reply_header in H. unfold header_step. destruct header as [y|]; [|now rewrite H]. destruct (m_oh m) as [c|]; [exact H|now rewrite H].
  Qed.
  Lemma response_eq' P S m content : handle_response P S m content =
    (doc <- pf_parse P content ;;
     e <- parse_obj (pf_n P) (pf_O P) (pf_E P) (envelope_cls (sv_version S)) doc ;;
     h <- py_get e "Header" ;; h' <- header_step P m h ;; b <- py_get e "Body" ;; f <- py_get b "Fault" ;;
     match f with
     | VNone => t <- output_type P S m ;; r <- parse_output P b t ;; Ok (CReturned r h')
     | _ => p <- parse_fault_message (sv_version S) f ;; let '(code, message, actor) := p in Ok (CRaised code message actor)
     end).
  Proof. reflexivity. Qed.
  Lemma op_method l op m : first_with (fun m => m_op m = op) l m -> get_method l op = Ok m.
  Proof.
    intros (l1 & l2 & -> & E & L). unfold get_method. induction l1 as [|x l1 IH]; cbn [app find].
    - now rewrite (proj2 (String.eqb_eq _ _) E).
    - rewrite (proj2 (String.eqb_neq (m_op x) op) (L x (or_introl eq_refl))). apply IH. intros b H. apply L. now right.
  Qed.
  Lemma reply_read P S (post : transport T) w w' op m parameter header hs data content doc hd body x name e c r h :
    soap_platform P -> first_with (fun m => m_op m = op) (sv_methods S) m -> stub_request P S m parameter header = Ok (hs, data) ->
    post w hs data = (w', Ok content) -> pf_parse P content = Ok doc -> envelope_of doc hd body -> message_of body x ->
    m_out m = IOName name -> find_element_by_name (pf_gn P) (pf_G P) (sv_schemas S) name = Ok (Some e) -> se_type e = TComplex c ->
    parse_obj (pf_n P) (pf_O P) (pf_E P) c x = Ok r -> reply_header (pf_n P) (pf_O P) (pf_E P) (m_oh m) hd h ->
    stub_call P S post w op parameter header = (w', Ok (CReturned r h)).
  Proof.
    intros (U & lim & n & EE & En) Hg0 Hs Hp Hx He Hm Ho Hf Ht Hr Hh. pose proof (op_method _ _ _ Hg0) as Hg. unfold stub_call. rewrite Hg, Hs, Hp. f_equal.
    pose proof (response_header P m hd h Hh (sv_version S)) as Hh'.
    rewrite response_eq', Hx. cbn [bind].
    replace (parse_obj (pf_n P) (pf_O P) (pf_E P) (envelope_cls (sv_version S)) doc) with
      (Ok (VObj (envelope_cls (sv_version S)) (Some doc)
          [("Header", match hd with Some y => VObj (header_cls (sv_version S)) (Some y) [] | None => VNone end);
           ("Body", VObj (body_cls (sv_version S)) (Some body) [("message", VNone); ("Fault", VNone)])]))
      by (rewrite EE, En; symmetry; exact (read_envelope (pf_O P) U lim (2 + n) _ doc hd body _ He (read_message _ _ _ _ _ body x Hm))).
    cbn [bind].
    change (py_get (VObj (envelope_cls (sv_version S)) (Some doc) ?l) "Header") with (Ok (match hd with Some y => VObj (header_cls (sv_version S)) (Some y) [] | None => VNone end)).
    cbn [bind]. rewrite Hh'. cbn [bind].
    change (py_get (VObj (envelope_cls (sv_version S)) (Some doc) ?l) "Body") with (Ok (VObj (body_cls (sv_version S)) (Some body) [("message", VNone); ("Fault", VNone)])).
    cbn [bind]. change (py_get (VObj (body_cls (sv_version S)) (Some body) ?l) "Fault") with (Ok VNone). cbn [bind].
    unfold output_type. rewrite Ho, Hf. cbn [bind]. rewrite Ht. unfold parse_output, body_parse_as.
    rewrite (first_child body x (sv_version S) _ Hm). cbn [bind]. rewrite Hr. reflexivity.
  Qed.
  Lemma fault_read P S (post : transport T) w w' op m parameter header hs data content doc hd body code message actor h :
    soap_platform P -> first_with (fun m => m_op m = op) (sv_methods S) m -> stub_request P S m parameter header = Ok (hs, data) ->
    post w hs data = (w', Ok content) -> pf_parse P content = Ok doc -> envelope_of doc hd body ->
    fault_in (sv_version S) body code message actor -> reply_header (pf_n P) (pf_O P) (pf_E P) (m_oh m) hd h ->
    stub_call P S post w op parameter header =
    (w', Ok (CRaised (VStr code) (VStr message) (match actor with Some a => VStr a | None => VNone end))).
  Proof.
    intros (U & lim & n & EE & En) Hg0 Hs Hp Hx He Hf Hh. pose proof (op_method _ _ _ Hg0) as Hg. unfold stub_call. rewrite Hg, Hs, Hp. f_equal.
    pose proof (response_header P m hd h Hh (sv_version S)) as Hh'.
    destruct (read_fault (pf_O P) U lim n _ _ _ _ _ Hf) as (f & Hb & Hq & Nf).
    rewrite response_eq', Hx. cbn [bind].
    replace (parse_obj (pf_n P) (pf_O P) (pf_E P) (envelope_cls (sv_version S)) doc) with
      (Ok (VObj (envelope_cls (sv_version S)) (Some doc)
          [("Header", match hd with Some y => VObj (header_cls (sv_version S)) (Some y) [] | None => VNone end);
           ("Body", VObj (body_cls (sv_version S)) (Some body) [("message", VNone); ("Fault", f)])]))
      by (rewrite EE, En; symmetry; exact (read_envelope (pf_O P) U lim (2 + n) _ doc hd body _ He Hb)).
    cbn [bind].
    change (py_get (VObj (envelope_cls (sv_version S)) (Some doc) ?l) "Header") with (Ok (match hd with Some y => VObj (header_cls (sv_version S)) (Some y) [] | None => VNone end)).
    cbn [bind]. rewrite Hh'. cbn [bind].
    change (py_get (VObj (envelope_cls (sv_version S)) (Some doc) ?l) "Body") with (Ok (VObj (body_cls (sv_version S)) (Some body) [("message", VNone); ("Fault", f)])).
    cbn [bind]. change (py_get (VObj (body_cls (sv_version S)) (Some body) ?l) "Fault") with (Ok f). cbn [bind].
    rewrite Hq. destruct f; try reflexivity. congruence.
  Qed.
End C.
