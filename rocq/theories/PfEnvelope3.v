(** Proofs for SpecEnvelope2.v. *)
From Coq Require Import String Ascii List ZArith NArith Bool Lia.
From Verif Require Import PyBase Xml PyVal XsdSimple XsdComplex XsdSchema PyHttp Soap Dispatch Client SpecParse SpecSoap SpecDispatch SpecEnvelope SpecEnvelope2
  PfBase PfParse PfSoap PfSoap2 PfPin PfEnvelope PfEnvelope2.
Import ListNotations.
Open Scope nat_scope.
Open Scope string_scope.
Open Scope list_scope.

Section P.
  Variable O : oracle.
  Variable U : string -> option classdef.
  Variable lim : nat.
  Notation E := (soap_env U lim).

  Definition absent_fault (v : soapver) (y : node) : pyval := VObj (fault_cls v) (Some y) (map (fun p => (p, VNone)) (fault_parts v)).
  Lemma bare_fault n v y : no_instructions y -> (forall p, In p (fault_parts v) -> children_called p y []) ->
    parse_obj (S n) O E (fault_cls v) y = Ok (absent_fault v y).
  Proof.
    intros N H. destruct v; cbn [fault_parts] in H.
    - change (fault_cls V11) with "soap11.Fault". rewrite (parse_three O U lim n "soap11.Fault" ["soap11.Fault"; "ComplexType"] CKPlain (str_field "faultcode" 1 (Some "")) (str_field "faultstring" 1 (Some ""))
        (str_field "faultactor" 0 (Some "")) (Some (env_si V11)) [("faultcode", VNone); ("faultstring", VNone); ("faultactor", VNone)]) by reflexivity.
      rewrite (sub_called (str_field "faultcode" 1 (Some "")) y [] N eq_refl) by (apply H; cbn; auto). cbn [bind foldM].
      rewrite (sub_called (str_field "faultstring" 1 (Some "")) y [] N eq_refl) by (apply H; cbn; auto). cbn [bind foldM].
      rewrite (sub_called (str_field "faultactor" 0 (Some "")) y [] N eq_refl) by (apply H; cbn; auto). reflexivity.
    - change (fault_cls V12) with "soap12.Fault". rewrite (parse_three O U lim n "soap12.Fault" ["soap12.Fault"; "ComplexType"] CKPlain code_field reason_field
        (str_field "Role" 0 None) (Some (env_si V12)) [("Code", VNone); ("Reason", VNone); ("Role", VNone)]) by reflexivity.
      rewrite (sub_called code_field y [] N eq_refl) by (apply H; cbn; auto). cbn [bind foldM].
      rewrite (sub_called reason_field y [] N eq_refl) by (apply H; cbn; auto). cbn [bind foldM].
      rewrite (sub_called (str_field "Role" 0 None) y [] N eq_refl) by (apply H; cbn; auto). reflexivity.
  Qed.
  Definition name_field : field := s_elem "name" string_type 1 false None.
  Definition value_field : field := s_elem "value" (TComplex "ComplexType") 1 false None.
  Lemma bare_named n y : no_instructions y -> children_called "name" y [] -> children_called "value" y [] ->
    parse_obj (S n) O E "NamedType" y = Ok (VObj "NamedType" (Some y) [("name", VNone); ("value", VNone)]).
  Proof.
    intros N H1 H2. erewrite (parse_two O U lim n "NamedType") with (f1 := name_field) (f2 := value_field) (fs0 := [("name", VNone); ("value", VNone)]); try reflexivity.
    rewrite (sub_called name_field y [] N eq_refl H1). cbn [bind foldM]. rewrite (sub_called value_field y [] N eq_refl H2). reflexivity.
  Qed.
  (** What the Body class makes of it. *)
  Definition fault_or_none (v : soapver) (body : node) (f : pyval) : Prop :=
    (children_called "Fault" body [] /\ f = VNone) \/
    exists y, children_called "Fault" body [y] /\ f = absent_fault v y.
  Lemma read_any n v body x : any_message v body x ->
    exists m f, parse_obj (S (S n)) O E (body_cls v) body = Ok (VObj (body_cls v) (Some body) [("message", m); ("Fault", f)]) /\ fault_or_none v body f.
  Proof.
    intros (N & M & F & _ & _). rewrite parse_body_eq.
    assert (A : exists m subs, find_sub message_field (el_children body) = Ok subs /\
      foldM (fun fs s => parse_field O E (parse_obj (S n) O E) (body_fields v) message_field fs s) [("message", VNone); ("Fault", VNone)] subs = Ok [("message", m); ("Fault", VNone)]).
    { destruct M as [M | (y & M & G & Ny & Hp)]; eexists _, _.
      - split; [exact (sub_called message_field _ _ N eq_refl M)|reflexivity].
      - split; [exact (sub_called message_field _ _ N eq_refl M)|]. cbn [foldM].
        unfold parse_field. cbn [message_field f_kind f_type]. unfold el_get. rewrite (nil_false _ G). cbn [parse_type].
        rewrite (bare_named n y Ny (Hp _ (or_introl eq_refl)) (Hp _ (or_intror (or_introl eq_refl)))). cbn [bind]. destruct v; reflexivity. }
    destruct A as (m & subs & -> & A). cbn [bind]. rewrite A. cbn [bind]. exists m.
    destruct F as [F | (y & F & G & Ny & Hp)].
    - exists VNone. split; [|now left]. rewrite (sub_called (fault_field v) _ _ N eq_refl F). reflexivity.
    - exists (absent_fault v y). split; [|right; eauto]. rewrite (sub_called (fault_field v) _ _ N eq_refl F). cbn [bind foldM].
      rewrite (parse_child O U lim _ (fault_field v) _ y (fault_cls v) (absent_fault v y) _ eq_refl eq_refl (bare_fault n v y Ny Hp) G). destruct v; reflexivity.
  Qed.
  Lemma first_any body x v fs : any_message v body x -> body_content (VObj (body_cls v) (Some body) fs) = Ok x.
  Proof.
    intros (_ & _ & _ & (t & a & k & ->) & texts & rest & K). unfold body_content. cbn [py_xmlelement bind]. unfold el_children. rewrite K.
    assert (Z : filter (fun n : node => negb (is_text n)) (map Text texts) = []) by (clear; induction texts as [|s l IH]; [reflexivity|exact IH]).
    rewrite filter_app, Z. reflexivity.
  Qed.
End P.

Section D.
  Variable W : Type.
  Implicit Types (P : platform) (D : dispatcher W) (w : W).
  Lemma any_carried P D rq doc header body x : soap_platform P -> pf_parse P (rq_content rq) = Ok doc ->
    envelope_of doc header body -> any_message (sv_version (d_service D)) body x ->
    carries P D rq (match header with Some y => VObj (header_cls (sv_version (d_service D))) (Some y) [] | None => VNone end) x.
  Proof.
    intros (U & lim & n & EE & En) Hp He Hm. set (v := sv_version (d_service D)) in *.
    destruct (read_any (pf_O P) U lim (S n) v body x Hm) as (m & f & R & _).
    exists doc. eexists. eexists. split; [exact Hp|]. rewrite EE, En. fold v. split.
    { exact (read_envelope (pf_O P) U lim (S (S n)) v doc header body _ He R). }
    split; [reflexivity|]. split; [reflexivity|]. split; [discriminate|]. exact (first_any body x v _ Hm).
  Qed.
  Lemma any_read P D rq doc header body x : soap_platform P -> pf_parse P (rq_content rq) = Ok doc ->
    envelope_of doc header body -> any_message (sv_version (d_service D)) body x ->
    (exists h, carries P D rq h x /\ header_from header h) /\
    forall h x', carries P D rq h x' -> x' = x /\ header_from header h.
  Proof.
    intros HP Hp He Hm. pose proof (any_carried P D rq doc header body x HP Hp He Hm) as C.
    assert (F : header_from header (match header with Some y => VObj (header_cls (sv_version (d_service D))) (Some y) [] | None => VNone end))
      by (destruct header; [eexists; reflexivity|reflexivity]).
    split; [eexists; split; [exact C|exact F]|]. intros h x' C'. destruct (carries_fun _ _ _ _ _ _ _ _ C C') as [<- <-]. now split.
  Qed.
End D.

Section C.
  Variables W T : Type.
  Implicit Types (P : platform) (S : service W).
  Lemma any_reply P S (post : transport T) w w' op m parameter header hs data content doc hd body x h :
    soap_platform P -> first_with (fun m => m_op m = op) (sv_methods S) m -> stub_request P S m parameter header = Ok (hs, data) ->
    post w hs data = (w', Ok content) -> pf_parse P content = Ok doc -> envelope_of doc hd body -> any_message (sv_version S) body x ->
    reply_header (pf_n P) (pf_O P) (pf_E P) (m_oh m) hd h ->
    (children_called "Fault" body [] -> forall name e c r,
      m_out m = IOName name -> find_element_by_name (pf_gn P) (pf_G P) (sv_schemas S) name = Ok (Some e) -> se_type e = TComplex c ->
      parse_obj (pf_n P) (pf_O P) (pf_E P) c x = Ok r ->
      stub_call P S post w op parameter header = (w', Ok (CReturned r h))) /\
    (~ children_called "Fault" body [] ->
      stub_call P S post w op parameter header =
      (w', match sv_version S with V11 => Ok (CRaised VNone VNone VNone) | V12 => Err AttributeError end)).
  Proof.
    intros (U & lim & n & EE & En) Hg0 Hs Hp Hx He Hm Hh. pose proof (op_method _ _ _ Hg0) as Hg.
    pose proof (response_header P m hd h Hh (sv_version S)) as Hh'.
    destruct (read_any (pf_O P) U lim (Datatypes.S n) _ body x Hm) as (mv & f & R & Hf).
    pose proof (read_envelope (pf_O P) U lim (Datatypes.S (Datatypes.S n)) _ doc hd body _ He R) as Re.
    assert (X : stub_call P S post w op parameter header = (w',
      match f with
      | VNone => t <- output_type P S m ;; r <- parse_output P (VObj (body_cls (sv_version S)) (Some body) [("message", mv); ("Fault", f)]) t ;; Ok (CReturned r h)
      | _ => p <- parse_fault_message (sv_version S) f ;; let '(code, message, actor) := p in Ok (CRaised code message actor)
      end)).
    { unfold stub_call. rewrite Hg, Hs, Hp. f_equal. rewrite response_eq', Hx. cbn [bind].
      replace (parse_obj (pf_n P) (pf_O P) (pf_E P) (envelope_cls (sv_version S)) doc) with
        (Ok (VObj (envelope_cls (sv_version S)) (Some doc)
            [("Header", match hd with Some y => VObj (header_cls (sv_version S)) (Some y) [] | None => VNone end);
             ("Body", VObj (body_cls (sv_version S)) (Some body) [("message", mv); ("Fault", f)])]))
        by (rewrite EE, En; symmetry; exact Re).
      cbn [bind].
      change (py_get (VObj (envelope_cls (sv_version S)) (Some doc) ?l) "Header") with (Ok (match hd with Some y => VObj (header_cls (sv_version S)) (Some y) [] | None => VNone end)).
      cbn [bind]. rewrite Hh'. cbn [bind].
      change (py_get (VObj (envelope_cls (sv_version S)) (Some doc) ?l) "Body") with (Ok (VObj (body_cls (sv_version S)) (Some body) [("message", mv); ("Fault", f)])).
      cbn [bind]. change (py_get (VObj (body_cls (sv_version S)) (Some body) ?l) "Fault") with (Ok f). cbn [bind]. reflexivity. }
    rewrite X. clear X. split.
    - intros F name e c r Ho Hfe Ht Hr. destruct Hf as [[_ ->] | (y & F' & _)].
      + f_equal. unfold output_type. rewrite Ho, Hfe. cbn [bind]. rewrite Ht. unfold parse_output, body_parse_as.
        rewrite (first_any body x (sv_version S) _ Hm). cbn [bind]. rewrite Hr. reflexivity.
      + unfold children_called in *. congruence.
    - intros F. destruct Hf as [[F' _] | (y & _ & ->)]; [contradiction|]. f_equal. unfold absent_fault. destruct (sv_version S); reflexivity.
  Qed.
End C.
