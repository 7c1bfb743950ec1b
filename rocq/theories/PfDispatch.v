(** Proofs about the dispatcher. *)
From Coq Require Import String Ascii List ZArith NArith Bool Lia.
From Verif Require Import PyBase Xml PyVal XsdSimple XsdComplex XsdSchema PyHttp Soap SpecSoap Dispatch SpecDispatch PfBase PfSoap PfSoap2 PfSoap3.
Import ListNotations.
Open Scope string_scope.
Open Scope list_scope.

Lemma qs_has_in k l : qs_has k l = true <-> exists v, In (k, v) l.
Proof.
  unfold qs_has. induction l as [|[a b] l IH]; cbn.
  - split; [discriminate|intros (v & [])].
  - destruct (String.eqb_spec k a) as [->|N].
    + split; eauto.
    + rewrite IH. split; intros (v & H); exists v; [auto|]. destruct H as [[= -> ->]|H]; congruence || auto.
Qed.
Lemma qs_has_not k l : qs_has k l = false <-> ~ exists v, In (k, v) l.
Proof. rewrite <- qs_has_in. destruct (qs_has k l); split; congruence. Qed.

Lemma find_first {A} (p : A -> bool) (Q : A -> Prop) l : (forall a, p a = true <-> Q a) ->
  forall a, find p l = Some a <-> first_with Q l a.
Proof.
  intros E. induction l as [|b l IH]; intros a; cbn.
  - split; [discriminate|]. intros ([|? ?] & l2 & H & _); discriminate.
  - destruct (p b) eqn:Hb.
    + split.
      * intros [= <-]. exists [], l. split; auto. split; [now apply E|]. intros ? [].
      * intros ([|c l1] & l2 & H & Qa & N); injection H as <- ->; auto. exfalso. apply (N b); [now left|now apply E].
    + rewrite IH. split; intros (l1 & l2 & H & Qa & N).
      * exists (b :: l1), l2. split; [now rewrite H|]. split; auto. intros c [<-|I]; auto. rewrite <- E. congruence.
      * destruct l1 as [|c l1]; injection H as <- ->.
        { apply E in Qa. congruence. }
        exists l1, l2. split; auto. split; auto. intros c I. apply N. now right.
Qed.
Lemma find_none_iff {A} (p : A -> bool) l : find p l = None <-> forall a, In a l -> p a = false.
Proof.
  split; [intros; eapply find_none; eauto|]. induction l as [|b l IH]; cbn; auto. intros H.
  rewrite (H b (or_introl eq_refl)). apply IH. auto.
Qed.
Lemma assoc_first {A} k (v : A) l : assoc k l = Some v <-> exists l1 l2, l = l1 ++ (k, v) :: l2 /\ forall v', ~ In (k, v') l1.
Proof.
  induction l as [|[a b] l IH]; cbn.
  - split; [discriminate|]. intros ([|? ?] & l2 & H & _); discriminate.
  - destruct (String.eqb_spec k a) as [<-|N].
    + split; [intros [= <-]; exists [], l; split; auto|]. intros ([|c l1] & l2 & H & N); injection H as E ->.
      * congruence.
      * subst c. exfalso. apply (N b). now left.
    + rewrite IH. split; intros (l1 & l2 & H & M).
      * exists ((a, b) :: l1), l2. split; [now rewrite H|]. intros v' [[= -> ->]|I]; [contradiction|]. now apply (M v').
      * destruct l1 as [|c l1]; injection H as E ->; [congruence|]. subst c. exists l1, l2. split; auto. intros v' I. apply (M v'). now right.
Qed.

Section D.
  Variable W : Type.
  Implicit Types (P : platform) (D : dispatcher W) (w : W).

  (** ** Routing *)
  Lemma no_req_hook D name w rq : d_hooks D = [] -> request_hook D name w rq = (w, Ok rq).
  Proof. unfold request_hook. now intros ->. Qed.
  Lemma no_resp_hook D name w rq rs : d_hooks D = [] -> response_hook D name w rq rs = (w, Ok rs).
  Proof. unfold response_hook. now intros ->. Qed.

  Lemma meth_eq rq m : request_method rq m -> match rq_environ rq "REQUEST_METHOD" with Some s => s | None => "" end = m.
  Proof. unfold request_method. now intros ->. Qed.

  Lemma dispatch_wsdl P D w rq : request_method rq "GET" -> (has_key rq "wsdl" \/ has_key rq "singleWsdl") ->
    dispatch P D w rq = let '(w', r) := handle_wsdl_request D w rq in (w', [], r).
  Proof.
    intros M K. unfold dispatch. rewrite (meth_eq _ _ M). fold (query_of rq). cbn [String.eqb andb].
    replace (qs_has "wsdl" (parse_qsl (query_of rq)) || qs_has "singleWsdl" (parse_qsl (query_of rq)))%bool with true.
    - reflexivity.
    - symmetry. apply orb_true_iff. rewrite !qs_has_in. exact K.
  Qed.
  Lemma dispatch_xsd P D w rq : request_method rq "GET" -> ~ has_key rq "wsdl" -> ~ has_key rq "singleWsdl" -> has_key rq "xsd" ->
    dispatch P D w rq = let '(w', r) := handle_xsd_request D w rq in (w', [], r).
  Proof.
    intros M K1 K2 K3. unfold dispatch. rewrite (meth_eq _ _ M). fold (query_of rq). cbn [String.eqb andb].
    apply qs_has_not in K1, K2. apply qs_has_in in K3. rewrite K1, K2, K3. reflexivity.
  Qed.
  Lemma dispatch_soap P D w rq : request_method rq "POST" -> dispatch P D w rq = handle_soap_request P D w rq.
  Proof. intros M. unfold dispatch. rewrite (meth_eq _ _ M). reflexivity. Qed.
  Definition bad_request : response :=
    mkResp (PVal (VStr "bad request")) VNone 200 [("Content-Type", "text/plain")] (Some "bad_request").
  Lemma dispatch_bad P D w rq : ~ request_method rq "POST" ->
    (request_method rq "GET" -> ~ has_key rq "wsdl" /\ ~ has_key rq "singleWsdl" /\ ~ has_key rq "xsd") ->
    dispatch P D w rq = (w, [], Ok bad_request).
  Proof.
    intros NP NG. unfold dispatch. fold (query_of rq). unfold request_method in *.
    destruct (rq_environ rq "REQUEST_METHOD") as [m|]; [|reflexivity].
    destruct (String.eqb_spec m "GET") as [->|N]; cbn [andb].
    - destruct (NG eq_refl) as (K1 & K2 & K3). apply qs_has_not in K1, K2, K3. now rewrite K1, K2, K3.
    - destruct (String.eqb_spec m "POST") as [->|N']; [now destruct NP|]. reflexivity.
  Qed.

  Lemma wsdl_plain D w rq : d_hooks D = [] -> handle_wsdl_request D w rq =
    (w, Ok (mkResp (PVal (VStr "wsdl")) VNone 200 [("Content-Type", "text/xml")] (Some (wsdl_content D rq)))).
  Proof.
    intros H. unfold handle_wsdl_request. rewrite (no_req_hook _ _ _ _ H), (no_resp_hook _ _ _ _ _ H). reflexivity.
  Qed.
  Lemma xsd_found D w rq k x : d_hooks D = [] -> first_value rq "xsd" k ->
    loc_get (Some (if String.eqb k "" then "xsd" else k)) (d_xsds D) = Some x ->
    handle_xsd_request D w rq = (w, Ok (mkResp (PVal (VStr "xsd")) VNone 200 [("Content-Type", "text/xml")] (Some x))).
  Proof.
    intros H F L. unfold handle_xsd_request. rewrite (no_req_hook _ _ _ _ H), (no_resp_hook _ _ _ _ _ H).
    fold (query_of rq). apply (assoc_first "xsd") in F. rewrite F, L. reflexivity.
  Qed.
  Lemma xsd_missing D w rq k : d_hooks D = [] -> first_value rq "xsd" k ->
    loc_get (Some (if String.eqb k "" then "xsd" else k)) (d_xsds D) = None ->
    handle_xsd_request D w rq = (w, Ok (mkResp (PVal (VStr "not found")) VNone 200 [("Content-Type", "text/plain")] (Some "not_found"))).
  Proof.
    intros H F L. unfold handle_xsd_request. rewrite (no_req_hook _ _ _ _ H), (no_resp_hook _ _ _ _ _ H).
    fold (query_of rq). apply (assoc_first "xsd") in F. rewrite F, L. reflexivity.
  Qed.

  (** ** Choosing the method *)
  Notation sv D := (d_service D).
  Lemma action_some D rq a : has_action D rq a ->
    determine_soap_action (sv_version (sv D)) (rq_environ rq) = Some a /\ truthy_str (Some a) = true.
  Proof. intros [H N]. split; auto. destruct a; [contradiction|reflexivity]. Qed.
  Lemma action_none D rq : no_action D rq -> truthy_str (determine_soap_action (sv_version (sv D)) (rq_environ rq)) = false.
  Proof.
    intros H. destruct (determine_soap_action _ _) as [a|] eqn:E; auto. destruct a as [|c a]; auto.
    exfalso. apply (H (String c a)). split; [exact E|discriminate].
  Qed.

  Lemma find_by_action P D rq t a k act : has_action D rq act ->
    (forall m, find_handler P D rq (Elem t a k) = Ok m <-> first_with (fun m => m_action m = act) (sv_methods (sv D)) m) /\
    ((forall m, In m (sv_methods (sv D)) -> m_action m <> act) ->
     find_handler P D rq (Elem t a k) = Err (SOAPError (code_client (sv_version (sv D))) ("Invalid SOAP action: " ++ act)%string None)).
  Proof.
    intros H. destruct (action_some _ _ _ H) as [E T]. unfold find_handler. rewrite E, T. cbn [root_tag bind].
    assert (Q : forall m : method, String.eqb (m_action m) act = true <-> m_action m = act) by (intros; apply String.eqb_eq).
    split.
    - intros m. rewrite <- (find_first _ _ _ Q). destruct (find _ _) as [m'|]; split; congruence.
    - intros N. assert (F : find (fun m => String.eqb (m_action m) act) (sv_methods (sv D)) = None).
      { apply find_none_iff. intros m I. apply String.eqb_neq. auto. }
      rewrite F. reflexivity.
  Qed.

  Lemma input_is_eq s m : input_is s m = true <-> m_in m = IOName s.
  Proof.
    unfold input_is. destruct (m_in m); split; try discriminate.
    - now intros ->%String.eqb_eq.
    - intros [= ->]. apply String.eqb_refl.
  Qed.
  Lemma find_by_root P D rq t a k m : no_action D rq ->
    first_with (fun m => m_in m = IOName (local_name t)) (sv_methods (sv D)) m -> find_handler P D rq (Elem t a k) = Ok m.
  Proof.
    intros H F. unfold find_handler. cbn [root_tag bind]. rewrite (action_none _ _ H).
    apply (find_first _ _ _ (input_is_eq (local_name t))) in F. now rewrite F.
  Qed.
  Lemma find_by_root_inv P D rq t a k m : no_action D rq -> find_handler P D rq (Elem t a k) = Ok m ->
    first_with (fun m => m_in m = IOName (local_name t)) (sv_methods (sv D)) m \/
    (forall m', In m' (sv_methods (sv D)) -> m_in m' <> IOName (local_name t)) /\
    exists e g, own_element P (sv_schemas (sv D)) (local_name t) = Some e /\ se_subst e = Some g /\
      first_with (fun m => m_in m = IOName (after_colon g)) (sv_methods (sv D)) m.
  Proof.
    intros H. unfold find_handler. cbn [root_tag bind]. rewrite (action_none _ _ H).
    destruct (find (input_is (local_name t)) _) as [m'|] eqn:F.
    - intros [= <-]. left. now apply (find_first _ _ _ (input_is_eq (local_name t))).
    - intros G. right. split.
      { intros m' I C. apply input_is_eq in C. rewrite (proj1 (find_none_iff _ _) F m' I) in C. discriminate. }
      destruct (own_element P _ _) as [e|]; [|discriminate].
      destruct (sv_methods (sv D)) as [|m0 ms] eqn:Em; [discriminate|].
      destruct (se_subst e) as [g|] eqn:Eg; [|discriminate].
      destruct (find (input_is (after_colon g)) _) as [m'|] eqn:F'; [|discriminate]. injection G as <-.
      exists e, g. split; auto. split; auto. now apply (find_first _ _ _ (input_is_eq (after_colon g))).
  Qed.
  Lemma find_by_subst P D rq t a k m e g : no_action D rq ->
    (forall m', In m' (sv_methods (sv D)) -> m_in m' <> IOName (local_name t)) ->
    own_element P (sv_schemas (sv D)) (local_name t) = Some e -> se_subst e = Some g ->
    first_with (fun m => m_in m = IOName (after_colon g)) (sv_methods (sv D)) m -> find_handler P D rq (Elem t a k) = Ok m.
  Proof.
    intros H N O G F. unfold find_handler. cbn [root_tag bind]. rewrite (action_none _ _ H).
    assert (X : find (input_is (local_name t)) (sv_methods (sv D)) = None).
    { apply find_none_iff. intros m' I. destruct (input_is _ m') eqn:C; auto. apply input_is_eq in C. destruct (N _ I C). }
    rewrite X, O, G. apply (find_first _ _ _ (input_is_eq (after_colon g))) in F. rewrite F.
    destruct (sv_methods (sv D)); [discriminate|]. reflexivity.
  Qed.
  Lemma find_unknown P D rq t a k : no_action D rq ->
    (forall m', In m' (sv_methods (sv D)) -> m_in m' <> IOName (local_name t)) ->
    own_element P (sv_schemas (sv D)) (local_name t) = None ->
    find_handler P D rq (Elem t a k) =
      Err (SOAPError (code_client (sv_version (sv D))) ("Missing SOAP action and invalid root tag: " ++ local_name t)%string None).
  Proof.
    intros H N O. unfold find_handler. cbn [root_tag bind]. rewrite (action_none _ _ H).
    assert (X : find (input_is (local_name t)) (sv_methods (sv D)) = None).
    { apply find_none_iff. intros m' I. destruct (input_is _ m') eqn:C; auto. apply input_is_eq in C. destruct (N _ I C). }
    rewrite X, O. reflexivity.
  Qed.
  Lemma find_crash P D rq t a k e : no_action D rq -> sv_methods (sv D) <> [] ->
    (forall m', In m' (sv_methods (sv D)) -> m_in m' <> IOName (local_name t)) ->
    own_element P (sv_schemas (sv D)) (local_name t) = Some e -> se_subst e = None ->
    find_handler P D rq (Elem t a k) = Err AttributeError.
  Proof.
    intros H M N O G. unfold find_handler. cbn [root_tag bind]. rewrite (action_none _ _ H).
    assert (X : find (input_is (local_name t)) (sv_methods (sv D)) = None).
    { apply find_none_iff. intros m' I. destruct (input_is _ m') eqn:C; auto. apply input_is_eq in C. destruct (N _ I C). }
    rewrite X, O, G. destruct (sv_methods (sv D)); [contradiction|]. reflexivity.
  Qed.
  Lemma find_in P D rq x m : find_handler P D rq x = Ok m -> In m (sv_methods (sv D)).
  Proof.
    unfold find_handler. destruct (root_tag x) as [t|]; cbn [bind]; [|discriminate].
    destruct (truthy_str _).
    - destruct (find _ _) as [m'|] eqn:F; [|discriminate]. intros [= <-]. eapply find_some, F.
    - destruct (find _ _) as [m'|] eqn:F; [intros [= <-]; eapply find_some, F|].
      destruct (own_element _ _ _) as [e|]; [|discriminate]. intros H.
      destruct (sv_methods (sv D)) as [|m0 ms] eqn:Em; [discriminate|].
      destruct (se_subst e) as [g|]; [|discriminate].
      destruct (find (input_is (after_colon g)) (m0 :: ms)) as [m'|] eqn:F'; [|discriminate].
      injection H as <-. eapply find_some, F'.
  Qed.

  (** ** Preparing *)
  Lemma parse_input_class P D m x b : parse_input P D m x = Ok b ->
    exists t, input_type P D m t /\ read_as P t x = Ok b.
  Proof.
    unfold parse_input. destruct (m_in m) as [|name|c] eqn:E; [discriminate| |].
    - intros H. apply bind_ok in H as (e & He & H). destruct e as [e|]; [|discriminate].
      exists (se_type e). split; auto. right. eauto 10.
    - intros H. exists (TComplex c). split; auto. left. eauto.
  Qed.
  Lemma parse_input_ok P D m x t : input_type P D m t -> parse_input P D m x = read_as P t x.
  Proof.
    unfold parse_input. intros [(c & -> & ->) | (name & e & -> & T & F)]; [reflexivity|]. rewrite F. cbn [bind]. now rewrite T.
  Qed.

  Lemma prepare_spec P D rq rq' ev r : prepare_request P D rq = (rq', ev, r) ->
    match r with
    | Ok _ => exists h x m b h', ev = [EValidated x] /\ carries P D rq h x /\ pf_valid P x = Ok tt /\
        validate_header P D h = Ok tt /\ find_handler P D rq x = Ok m /\ parse_header_of P D m h = Ok h' /\
        parse_input P D m x = Ok b /\ rq' = mkReq (rq_environ rq) (rq_content rq) h' b (Some m)
    | Err _ => ev = [] \/ exists h x, ev = [EValidated x] /\ carries P D rq h x /\ pf_valid P x = Ok tt
    end.
  Proof.
    unfold prepare_request.
    destruct (bind (parse_soap_content P D (rq_content rq)) _) as [[h x]|er] eqn:EX.
    - apply bind_ok in EX as (e & He & EX). apply bind_ok in EX as (h0 & Hh & EX).
      apply bind_ok in EX as (b0 & Hb & EX). apply bind_ok in EX as (x0 & Hx & EX).
      destruct (validate_input W P D e) as [u|er] eqn:EV; [|destruct (is_lxml_error er); discriminate].
      injection EX as -> ->.
      assert (C : carries P D rq h x).
      { unfold parse_soap_content in He. destruct (pf_parse P (rq_content rq)) as [doc|] eqn:Ep; [|destruct (is_syntax_error _); discriminate].
        apply bind_ok in He as (e' & He & Hn). apply bind_ok in Hn as (b' & Hb' & Hn).
        exists doc, e, b0. assert (e' = e) by (destruct b'; congruence). subst e'. rewrite Hb in Hb'. injection Hb' as <-.
        repeat split; auto. intros ->. discriminate. }
      unfold validate_input in EV. rewrite Hh in EV. cbn [bind] in EV. apply bind_ok in EV as ([] & EH & EV). rewrite Hb in EV. cbn [bind] in EV.
      unfold validate_body in EV. rewrite Hx in EV. cbn [bind] in EV. destruct u.
      destruct (find_handler P D rq x) as [m|] eqn:Fm.
      2:{ intros [= <- <- <-]. right. eauto. }
      destruct (parse_header_of P D m h) as [h'|] eqn:Ph.
      2:{ intros [= <- <- <-]. right. eauto. }
      destruct (parse_input P D m x) as [b|] eqn:Pi.
      2:{ intros [= <- <- <-]. right. eauto. }
      intros [= <- <- <-]. exists h, x, m, b, h'. repeat split; auto.
    - intros [= <- <- <-]. now left.
  Qed.

  (** ** What the trace says *)
  Definition call_ok P D (tr : list event) : Prop :=
    forall l1 f b l2, tr = l1 ++ ECalled f b :: l2 ->
    exists l0 x m t, l1 = l0 ++ [EValidated x] /\ pf_valid P x = Ok tt /\ In m (sv_methods (sv D)) /\ m_fn m = Some f /\
      input_type P D m t /\ read_as P t x = Ok b.
  Lemma call_ok_app P D t1 t2 : call_ok P D t1 -> call_ok P D t2 -> call_ok P D (t1 ++ t2).
  Proof.
    intros H1 H2 l1 f b l2 E. revert l1 E H1. induction t1 as [|e t1 IH]; cbn; intros l1 E H1; [eauto|].
    destruct l1 as [|e' l1]; injection E as -> E.
    - destruct (H1 [] f b t1 eq_refl) as (l0 & x & m & c & H & _). destruct l0; discriminate.
    - assert (C : forall t, (exists q, e' :: t1 = t ++ q) -> True) by auto. clear C.
      destruct (Nat.lt_ge_cases (length l1) (length t1)) as [L|L].
      + assert (X : exists l2', t1 = l1 ++ ECalled f b :: l2').
        { clear -E L. revert t1 E L. induction l1 as [|a l1 IH]; intros t1 E L; destruct t1 as [|c t1]; cbn in *; try lia.
          - injection E as -> _. eauto.
          - injection E as -> E. destruct (IH t1 E) as (l2' & ->); [lia|]. eauto. }
        destruct X as (l2' & X). apply (H1 (e' :: l1) f b l2'). now rewrite X.
      + assert (X : exists l1', l1 = t1 ++ l1' /\ t2 = l1' ++ ECalled f b :: l2).
        { clear -E L. revert t1 E L. induction l1 as [|a l1 IH]; intros t1 E L; destruct t1 as [|c t1]; cbn in *; try lia.
          - exists []. auto.
          - exists (a :: l1). auto.
          - injection E as -> E. destruct (IH t1 E) as (l1' & -> & ->); [lia|]. eauto. }
        destruct X as (l1' & -> & E2). destruct (H2 l1' f b l2 E2) as (l0 & x & m & c & -> & R).
        exists (e' :: t1 ++ l0), x, m, c. split; auto. cbn. now rewrite app_assoc.
  Qed.
  Lemma call_ok_nil P D : call_ok P D [].
  Proof. intros [|? ?] f b l2 E; discriminate. Qed.
  Lemma call_ok_valid P D x : call_ok P D [EValidated x].
  Proof. intros [|? [|? ?]] f b l2 E; discriminate. Qed.

  Lemma call_method_trace P D s tr s' tr' r : call_method P D s tr = (s', tr', r) ->
    exists ev, tr' = tr ++ ev /\ call_ok P D ev /\ calls ev <= 1.
  Proof.
    unfold call_method. destruct s as [w rq]. destruct (prepare_request P D rq) as [[rq' ev] u] eqn:Ep.
    apply prepare_spec in Ep. destruct u as [u|e].
    - destruct Ep as (h & x & m & b & h' & -> & C & V & VH & F & Ph & Pi & ->). cbn [rq_method rq_body].
      destruct (m_fn m) as [f|] eqn:Ef.
      + destruct (sv_fns (sv D) f _ b) as [s1 r1]. intros [= <- <- <-]. eexists. split; [reflexivity|]. split; [|cbn; lia].
        intros [|e1 [|e2 l1]] f' b' l2 E; cbn in E; try discriminate.
        * injection E as <- <- <- <-. apply parse_input_class in Pi as (c & Ic & Pc). exists [], x, m, c. repeat split; auto.
          eapply find_in, F.
        * injection E as _ _ E. destruct l1; discriminate.
      + intros [= <- <- <-]. eexists. split; [reflexivity|]. split; [apply call_ok_valid|cbn; lia].
    - intros [= <- <- <-]. eexists. split; [reflexivity|].
      destruct Ep as [-> | (h & x & -> & _)]; (split; [apply call_ok_nil || apply call_ok_valid|cbn; lia]).
  Qed.

  Definition good_comp P D (next : comp W) : Prop := forall s tr s' tr' r, next s tr = (s', tr', r) ->
    exists ev, tr' = tr ++ ev /\ call_ok P D ev.
  Lemma run_trace P D next : good_comp P D next -> forall p tr s' tr' r, run_middleware next p tr = (s', tr', r) ->
    exists ev, tr' = tr ++ ev /\ call_ok P D ev.
  Proof.
    intros G. induction p as [s r|s k IH]; intros tr s' tr' r'; cbn [run_middleware].
    - intros [= <- <- <-]. exists []. rewrite app_nil_r. split; auto. apply call_ok_nil.
    - destruct (next s tr) as [[s1 tr1] r1] eqn:En. intros H. destruct (G _ _ _ _ _ En) as (ev1 & -> & C1).
      destruct (IH s1 r1 _ _ _ _ H) as (ev2 & -> & C2). exists (ev1 ++ ev2). split; [now rewrite app_assoc|]. now apply call_ok_app.
  Qed.
  Lemma stack_trace P D l : good_comp P D (stack P D l).
  Proof.
    induction l as [|m l IH]; cbn [stack].
    - intros s tr s' tr' r H. destruct (call_method_trace _ _ _ _ _ _ _ H) as (ev & E & C & _). eauto.
    - intros s tr s' tr' r H. eapply run_trace; eauto.
  Qed.

  Lemma calls_app a b : calls (a ++ b) = calls a + calls b.
  Proof. unfold calls. now rewrite filter_app, app_length. Qed.
  Definition once_comp (next : comp W) : Prop := forall s tr s' tr' r, next s tr = (s', tr', r) ->
    exists ev, tr' = tr ++ ev /\ calls ev <= 1.
  Lemma run_once next : once_comp next -> forall p, at_most_once p -> forall tr s' tr' r, run_middleware next p tr = (s', tr', r) ->
    exists ev, tr' = tr ++ ev /\ calls ev <= 1.
  Proof.
    intros G p [s r|s k K] tr s' tr' r'; cbn [run_middleware].
    - intros [= <- <- <-]. exists []. rewrite app_nil_r. split; auto.
    - destruct (next s tr) as [[s1 tr1] r1] eqn:En. specialize (K s1 r1). destruct K. cbn [run_middleware].
      intros [= <- <- <-]. apply (G _ _ _ _ _ En).
  Qed.
  Lemma stack_once P D l : Forall well_behaved l -> once_comp (stack P D l).
  Proof.
    induction 1 as [|m l Hm Hl IH]; cbn [stack].
    - intros s tr s' tr' r H. destruct (call_method_trace _ _ _ _ _ _ _ H) as (ev & E & _ & C). eauto.
    - intros s tr s' tr' r H. eapply run_once; eauto.
  Qed.

  Lemma soap_trace P D w rq w' tr r (Q : list event -> Prop) : Q [] ->
    (forall s s' tr r, stack P D (d_middlewares D) s [] = (s', tr, r) -> Q tr) ->
    handle_soap_request P D w rq = (w', tr, r) -> Q tr.
  Proof.
    intros Q0 Qs. unfold handle_soap_request. destruct (request_hook _ _ _ _) as [w1 [rq1|e]]; [|intros [= <- <- <-]; auto].
    destruct (stack _ _ _ _ _) as [[[w2 rq2] tr2] r2] eqn:Es. apply Qs in Es.
    destruct (build_response _ _ _ _) as [rs|]; [|intros [= <- <- <-]; auto].
    destruct (response_hook _ _ _ _ _) as [w3 r3]. now intros [= <- <- <-].
  Qed.
  Lemma dispatch_trace P D w rq w' tr r (Q : list event -> Prop) : Q [] ->
    (forall s s' tr r, stack P D (d_middlewares D) s [] = (s', tr, r) -> Q tr) ->
    dispatch P D w rq = (w', tr, r) -> Q tr.
  Proof.
    intros Q0 Qs. unfold dispatch.
    destruct (_ && _)%bool. { destruct (handle_wsdl_request _ _ _). now intros [= <- <- <-]. }
    destruct (_ && _)%bool. { destruct (handle_xsd_request _ _ _). now intros [= <- <- <-]. }
    destruct (String.eqb _ _). { now apply soap_trace. }
    now intros [= <- <- <-].
  Qed.

  Lemma dispatch_calls P D w rq w' tr r : dispatch P D w rq = (w', tr, r) -> call_ok P D tr.
  Proof.
    intros H. eapply dispatch_trace; [apply call_ok_nil| |exact H].
    intros s s' t x E. destruct (stack_trace _ _ _ _ _ _ _ _ E) as (ev & -> & C). exact C.
  Qed.
  Lemma dispatch_once P D w rq w' tr r : Forall well_behaved (d_middlewares D) -> dispatch P D w rq = (w', tr, r) -> calls tr <= 1.
  Proof.
    intros F H. eapply (dispatch_trace P D w rq w' tr r (fun t => calls t <= 1)); [cbn; lia| |exact H].
    intros s s' t x E. destruct (stack_once _ _ _ F _ _ _ _ _ E) as (ev & -> & C). exact C.
  Qed.
End D.
