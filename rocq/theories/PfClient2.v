(** Calls from a client to a server, continued. *)
From Coq Require Import String Ascii List ZArith NArith Bool Lia.
From Verif Require Import PyBase Xml PyVal XsdSimple XsdComplex XsdSchema PyHttp Soap Dispatch Client
  SpecParse SpecRender SpecRound SpecSoap SpecDispatch SpecHttp SpecClient
  PfBase PfObject PfParse PfLayout PfRound PfMono PfSoap PfSoap2 PfSoap3 PfDispatch PfPin PfDispatch2 PfHttp PfClient.
Import ListNotations.
Open Scope string_scope.
Open Scope list_scope.

Lemma request_tagged m parameter tag : tagged_with m parameter tag -> request_tag m parameter = Ok tag.
Proof.
  unfold request_tag. intros [-> | (N & c & t & xe & fs & -> & H)]; [reflexivity|].
  assert (X : uncapitalize (String c t) = Ok tag).
  { unfold uncapitalize. destruct H as [[-> ->] | [Nq ->]]; [reflexivity|]. apply String.eqb_neq in Nq. now rewrite Nq. }
  destruct (m_in m) as [|s|k]; [exact X| |exact X]. destruct (N s eq_refl).
Qed.
Lemma output_typed {W} P (S : service W) m tag c : output_element P S m tag c -> output_type P S m = Ok (TComplex c) /\ m_out m = IOName tag.
Proof. intros [M (e & F & T)]. split; [|exact M]. unfold output_type. rewrite M, F. cbn [bind]. now rewrite T. Qed.

Section C.
  Variable P : platform.
  Variable Q : string -> Prop.
  Variables (U : string -> option classdef) (lim n : nat).
  Hypothesis HE : pf_E P = soap_env U lim.
  Hypothesis Hn : pf_n P = S (S (S (S n))).
  Hypothesis HQ : good_classes P Q.
  Notation O := (pf_O P).
  Notation E := (soap_env U lim).
  Let HQ' : rt_classes O E Q.
  Proof. unfold good_classes in HQ. now rewrite HE in HQ. Qed.

  Lemma header_delivered v cls h : header_for P Q cls h ->
    exists hx, header_nodes O U lim (S (S (S n))) v h = Ok hx /\ map wire hx = hx /\ one_header v hx /\
      forall hx', Forall2 layout hx hx' ->
        (read_header v hx' = VNone /\ h = VNone \/
         exists xe, read_header v hx' = VObj (header_cls v) (Some xe) [] /\
           (forall c, cls = Some c -> exists h', parse_obj (pf_n P) O (pf_E P) c xe = Ok h' /\ erase h' = erase h) /\
           (forall y', In y' (el_children xe) -> exists y, In y (flat_map el_kids hx) /\ layout y y')).
  Proof.
    intros [-> | (c & (Qc & (d & si & Hd & Hs & Hm) & Ht & Hv) & Hc)].
    - exists []. repeat split; [left; reflexivity|]. intros hx' F. inversion F; subst. left. split; reflexivity.
    - rewrite HE in Hd, Ht. rewrite Hn in Hv.
      destruct (header_sent O U lim Q HQ' (S (S n)) v c h Qc (ex_intro _ d (ex_intro _ si (conj Hd Hs))) Ht ltac:(lia))
        as (a & k & R & Wr & Nn & NT & Td & h' & P1 & P2).
      eexists. split; [exact R|]. split; [cbn [map]; now rewrite Wr|]. split; [right; eauto|].
      intros hx' F. inversion F as [|? xe ? r L Fr]; subst. inversion Fr; subst. right.
      destruct (layout_children _ _ _ _ NT L) as (k' & -> & Fk).
      assert (NL : is_nil (Elem (clark (envelope_ns v) "Header") a k') = false) by (unfold is_nil, el_get; cbn [el_attrs]; now rewrite Nn).
      eexists. split; [cbn [read_header]; rewrite NL; reflexivity|]. split.
      + intros c' Ec. destruct Hc as [Hc | Hc]; [|congruence]. rewrite Hc in Ec. injection Ec as <-.
        destruct (layout_agree O E _ _ _ (S (S (S (S n)))) L Td) as [_ Ag]. cbn [parse_type] in Ag. rewrite P1 in Ag. cbn [res_map] in Ag.
        rewrite Hn, HE. destruct (parse_obj (S (S (S (S n)))) O E c (Elem (clark (envelope_ns v) "Header") a k')) as [o|]; [|discriminate]. cbn [res_map] in Ag.
        exists o. split; [reflexivity|congruence].
      + intros y' Hy. cbn [flat_map el_kids]. rewrite app_nil_r. clear -Fk Hy.
        induction Fk as [|y z l l' Hl Fl IH]; [destruct Hy|]. destruct Hy as [<- | Hy]; [exists y; split; [now left|exact Hl]|].
        destruct (IH Hy) as (w & I & Lw). exists w. split; [now right|exact Lw].
  Qed.

  Lemma wire_envelope v hx b : map wire hx = hx -> one_header v hx -> wire b = b -> is_text b = false ->
    wire (soap_envelope (envelope_ns v) hx [b]) = soap_envelope (envelope_ns v) hx [b].
  Proof.
    intros Wh [-> | (a & k & ->)] Wb Nb; unfold soap_envelope; cbn [app wire map merge_text]; rewrite Wb.
    - destruct b; try discriminate; reflexivity.
    - cbn [map] in Wh. injection Wh as Wh. cbn [wire] in Wh. rewrite Wh. destruct b; try discriminate; reflexivity.
  Qed.

  (** A message arrives. *)
  Lemma delivered v cls h c val tag : header_for P Q cls h -> message P Q c val -> message_tag tag ->
    exists x, envelope_response (pf_n P) O (pf_E P) v tag val h = Ok x /\
    forall doc, layout (wire x) doc ->
    exists e hv b t a k, parse_obj (pf_n P) O (pf_E P) (envelope_cls v) doc = Ok e /\
      py_get e "Header" = Ok hv /\ py_get e "Body" = Ok b /\ b <> VNone /\ py_get b "Fault" = Ok VNone /\
      body_content b = Ok (Elem t a k) /\ local_name t = tag /\
      (exists val', parse_obj (pf_n P) O (pf_E P) c (Elem t a k) = Ok val' /\ erase val' = erase val) /\
      (hv = VNone /\ h = VNone \/
       exists xe, hv = VObj (header_cls v) (Some xe) [] /\
         (forall c, cls = Some c -> exists h', parse_obj (pf_n P) O (pf_E P) c xe = Ok h' /\ erase h' = erase h) /\
         (forall y', In y' (el_children xe) -> exists y, In y (blocks x) /\ layout y y')) /\
      exists y, In y (blocks x) /\ layout y (Elem t a k).
  Proof.
    intros Hh (Qc & (d & si & Hd & Hs & Hm) & Ht & Hv) Htag.
    destruct (header_delivered v cls h Hh) as (hx & Rh & Wh & Oh & Dh).
    rewrite HE in Hd, Ht. rewrite Hn in Hv.
    destruct (body_sent O U lim Q HQ' (S (S n)) c tag val d si Qc Hd Hs Htag Ht ltac:(lia)) as (t & a & k & X & Wx & Lt & Td & val' & P1 & P2).
    exists (soap_envelope (envelope_ns v) hx [Elem t a k]).
    inversion Ht as [|? ? xe fs ? ? ?]; subst val. split.
    { rewrite Hn, HE. rewrite (response_eq _ _ _ _ _ _ _ _ _ _ _ _ Hd Hs Hm), Rh. cbn [bind]. rewrite X. reflexivity. }
    intros doc L. rewrite (wire_envelope _ _ _ Wh Oh Wx eq_refl) in L.
    assert (NT : Forall (fun y => is_text y = false) [Elem t a k]) by (repeat constructor).
    destruct (envelope_laid v hx _ doc Oh NT L) as (hx' & ks' & Fh & Oh' & Ec & LB & Fb).
    inversion Fb as [|? y ? r Ly Fr Eb Ey]; subst. inversion Fr; subst.
    assert (T2 : exists k', y = Elem t a k') by (inversion Ly; subst; eauto). destruct T2 as (k' & ->).
    destruct Htag as (_ & N1 & N2).
    assert (PB : parse_obj (S (S (S n))) O E (body_cls v) (Elem (clark (envelope_ns v) "Body") [] ks') =
       Ok (VObj (body_cls v) (Some (Elem (clark (envelope_ns v) "Body") [] ks')) [("message", VNone); ("Fault", VNone)])).
    { apply parse_plain_body; rewrite <- Ey; apply not_sub; auto. }
    pose proof (parse_envelope_any O U lim _ v doc hx' ks' _ Oh' Ec PB) as PE.
    rewrite Hn, HE, PE. do 6 eexists. split; [reflexivity|]. split; [reflexivity|]. split; [reflexivity|]. split; [discriminate|].
    split; [reflexivity|]. split; [unfold body_content; cbn [py_xmlelement bind]; rewrite <- Ey; reflexivity|]. split; [reflexivity|]. split.
    { destruct (layout_agree O E _ _ _ (S (S (S (S n)))) Ly Td) as [_ Ag]. cbn [parse_type] in Ag. rewrite P1 in Ag. cbn [res_map] in Ag.
      destruct (parse_obj (S (S (S (S n)))) O E c (Elem t a k')) as [o|]; [|discriminate]. cbn [res_map] in Ag. exists o. split; [reflexivity|congruence]. }
    unfold blocks, soap_envelope. cbn [el_kids]. rewrite flat_map_app. cbn [flat_map el_kids app]. split.
    - specialize (Dh hx' Fh). rewrite Hn, HE in Dh. destruct Dh as [Dh | (xe' & R & Dc & Db)]; [left; exact Dh|right].
      exists xe'. split; [exact R|]. split; [exact Dc|]. intros y' Hy. destruct (Db _ Hy) as (y & I & Ly'). exists y. split; [|exact Ly'].
      apply in_app_iff. now left.
    - exists (Elem t a k). split; [|exact Ly]. apply in_app_iff. right. now left.
  Qed.

  (** A fault arrives. *)
  Lemma delivered_fault v cls h code msg : header_for P Q cls h -> text_good code -> text_good msg ->
    exists x, error_response (pf_n P) O (pf_E P) v code msg h None = Ok x /\
    forall doc, layout (wire x) doc ->
    exists e hv b f, parse_obj (pf_n P) O (pf_E P) (envelope_cls v) doc = Ok e /\
      py_get e "Header" = Ok hv /\ py_get e "Body" = Ok b /\ py_get b "Fault" = Ok f /\ f <> VNone /\
      parse_fault_message v f = Ok (VStr code, VStr msg, VNone) /\
      (hv = VNone /\ h = VNone \/
       exists xe, hv = VObj (header_cls v) (Some xe) [] /\
         (forall c, cls = Some c -> exists h', parse_obj (pf_n P) O (pf_E P) c xe = Ok h' /\ erase h' = erase h)).
  Proof.
    intros Hh [C1 C2] [M1 M2].
    destruct (header_delivered v cls h Hh) as (hx & Rh & Wh & Oh & Dh).
    exists (soap_envelope (envelope_ns v) hx [fault_node v code msg None]). split.
    { rewrite Hn, HE, error_eq, Rh. cbn [bind]. unfold texts_ok. now rewrite C2, M2. }
    intros doc L.
    assert (WF : wire (fault_node v code msg None) = fault_node v code msg None).
    { pose proof (wire_fault v code msg None C1 M1 ltac:(discriminate)) as X. destruct v; cbn [fault_node fault11 fault12 map] in *;
        unfold fault_node, fault11, fault12 in *; cbn [map merge_text app wire] in *; injection X; congruence. }
    rewrite (wire_envelope _ _ _ Wh Oh WF ltac:(destruct v; reflexivity)) in L.
    assert (NT : Forall (fun y => is_text y = false) [fault_node v code msg None]) by (repeat constructor; destruct v; reflexivity).
    destruct (envelope_laid v hx _ doc Oh NT L) as (hx' & ks' & Fh & Oh' & Ec & LB & Fb).
    destruct (parse_fault_laid O U lim n v code msg None _ C1 M1 ltac:(discriminate) LB) as (m & f & Pb & Pf & Nf).
    pose proof (parse_envelope_any O U lim _ v doc hx' ks' _ Oh' Ec Pb) as PE.
    rewrite Hn, HE, PE. do 4 eexists. split; [reflexivity|]. split; [reflexivity|]. split; [reflexivity|]. split; [reflexivity|].
    split; [exact Nf|]. split; [exact Pf|].
    specialize (Dh hx' Fh). rewrite Hn, HE in Dh. destruct Dh as [Dh | (xe' & R & Dc & _)]; [left; exact Dh|right]. eauto.
  Qed.

  Context {W : Type}.
  Variable D : dispatcher W.
  Notation S := (d_service D).
  Notation V := (sv_version (d_service D)).

  (** The request of a call gets to the function. *)
  Lemma call_reaches a base op m f tag parameter header :
    callable P Q D a base op m f tag parameter header ->
    exists data rq', stub_request P S m parameter header = Ok (request_headers V (m_action m), data) /\
      reaches_handler P D (new_request (seen a base (request_headers V (m_action m)) data) data) rq' f /\
      rq_method rq' = Some m /\
      erase (rq_body rq') = erase parameter /\ header_received (server_header S m) header (rq_header rq') /\ m_fn m = Some f.
  Proof.
    intros [Cm Cf Ct%request_tagged Cok (c & Ic & Cp) Ch Cs Cr].
    destruct (delivered V (server_header S m) header c parameter tag Ch Cp Cok) as (x & Rx & Dx).
    destruct (Cs x Rx) as ((doc & Pd & Ld) & Acc).
    destruct (Dx doc Ld) as (e & hv & b & t & at_ & k & Pe & Gh & Gb & Nb & _ & Bc & Lt & (val' & Pv & Ev) & Dh & (y & Iy & Ly)).
    rewrite Forall_forall in Acc. exists (pf_ser P x).
    assert (VB : pf_valid P (Elem t at_ k) = Ok tt) by (apply (Acc y Iy _ Ly)).
    assert (HH : exists h', parse_header_of P D m hv = Ok h' /\ header_received (server_header S m) header h' /\ validate_header P D hv = Ok tt).
    { destruct Dh as [[-> ->] | (xe & -> & Dc & Db)].
      - exists VNone. repeat split. unfold header_received. destruct (server_header S m); reflexivity.
      - assert (VH : validate_header P D (VObj (header_cls V) (Some xe) []) = Ok tt).
        { unfold validate_header. cbn [py_xmlelement bind].
          assert (G : forall l, (forall y', In y' l -> exists y, In y (blocks x) /\ layout y y') ->
             foldM (fun _ c0 => if is_wsa c0 then pf_wsa P c0
                 else match pf_valid P c0 with Ok _ => Ok tt | Err e0 => if is_lxml_error e0 && negb (d_strict D) then Ok tt else Err e0 end) tt l = Ok tt).
          { induction l as [|y' l IH]; intros Hl; [reflexivity|]. cbn [foldM].
            destruct (Hl y' (or_introl eq_refl)) as (y0 & I0 & L0). destruct (Acc y0 I0 _ L0) as [V0 V1].
            rewrite V0. rewrite <- is_wsa_spec in V1. destruct (is_wsa y'); [rewrite (V1 eq_refl)|]; cbn [bind]; apply IH; intros z Hz; apply Hl; now right. }
          apply (G _ Db). }
        unfold parse_header_of, server_header, header_received in *.
        destruct (m_ih m) as [ci|]; [|destruct (sv_ih S) as [ci|]].
        + destruct (Dc ci eq_refl) as (h' & Ph & Eh). exists h'. repeat split; auto. 
        + destruct (Dc ci eq_refl) as (h' & Ph & Eh). exists h'. repeat split; auto. 
        + exists VNone. repeat split; auto. }
    destruct HH as (h' & Ph & Hr & VH). apply header_as_spec in Ph. apply validate_ok in VH.
    exists (mkReq (seen a base (request_headers V (m_action m)) (pf_ser P x)) (pf_ser P x) h' val' (Some m)).
    split; [unfold stub_request; rewrite Ct; cbn [bind]; rewrite Rx; reflexivity|]. split.
    - exists (Elem t at_ k), hv, m, (TComplex c), h'. cbn [rq_header rq_body rq_method rq_environ rq_content new_request].
      split; [exists doc, e, b; repeat split; auto|]. split; [exact VH|]. split; [exact VB|].
      split; [apply (routed P D a base m tag _ t at_ k Cr Lt)|]. repeat split; auto.
    - repeat split; auto.
  Qed.

  Lemma got_method op m : first_with (fun m => m_op m = op) (sv_methods S) m -> get_method (sv_methods S) op = Ok m.
  Proof.
    intros F. unfold get_method. assert (Qm : forall m0 : method, String.eqb (m_op m0) op = true <-> m_op m0 = op) by (intros; apply String.eqb_eq).
    apply (find_first _ _ _ Qm) in F. now rewrite F.
  Qed.

  Lemma call_start a base op w m f tag parameter header s r : plain D ->
    callable P Q D a base op m f tag parameter header ->
    forall data rq', stub_request P S m parameter header = Ok (request_headers V (m_action m), data) ->
    reaches_handler P D (new_request (seen a base (request_headers V (m_action m)) data) data) rq' f ->
    sv_fns S f (w, rq') (rq_body rq') = (s, r) ->
    stub_call P S (post_through a P D base) w op parameter header =
    match build_response P D (snd s) (res_map (fun r => RResp (as_response r)) r) with
    | Ok rs => match rs_content rs with Some c => (fst s, handle_response P S m c) | None => (fst s, Err TypeError) end
    | Err e => (fst s, Err e)
    end.
  Proof.
    intros [Hk Mw] C data rq' Sr RH Hf. unfold stub_call. rewrite (got_method op m (ca_method _ _ _ _ _ _ _ _ _ _ _ C)), Sr.
    rewrite post_dispatch.
    assert (R : request_method (new_request (seen a base (request_headers V (m_action m)) data) data) "POST") by apply seen_post.
    rewrite (dispatch_soap _ _ _ _ _ R), (soap_no_hooks _ _ _ _ _ Hk), Mw. cbn [stack].
    destruct (reached_call _ _ _ _ _ _ _ _ _ RH Hf) as (x & ->). destruct s as [w2 rq2]. cbn [fst snd].
    destruct (build_response P D rq2 _) as [rs|er]; cbn [res_map answer bind]; [|reflexivity].
    destruct (rs_content rs); reflexivity.
  Qed.

  Lemma client_header (m : method) (h hv : pyval) v :
    (hv = VNone /\ h = VNone \/ exists xe, hv = VObj (header_cls v) (Some xe) [] /\
         (forall c, m_oh m = Some c -> exists h', parse_obj (pf_n P) O (pf_E P) c xe = Ok h' /\ erase h' = erase h)) ->
    exists h', (match hv, m_oh m with
          | VNone, _ => Ok VNone
          | _, None => Ok VNone
          | _, Some c => header_parse_as (pf_n P) (pf_O P) (pf_E P) hv c
          end) = Ok h' /\ header_received (m_oh m) h h'.
  Proof.
    intros [[-> ->] | (xe & -> & Dc)].
    - exists VNone. split; [reflexivity|]. unfold header_received. destruct (m_oh m); reflexivity.
    - destruct (m_oh m) as [c|]; [|exists VNone; split; reflexivity]. destruct (Dc c eq_refl) as (h' & Ph & Eh). exists h'. split; auto.
  Qed.

  Lemma call_returns a base op w m f tag parameter header : plain D ->
    callable P Q D a base op m f tag parameter header ->
    exists data rq', reaches_handler P D (new_request (seen a base (request_headers V (m_action m)) data) data) rq' f /\
      rq_method rq' = Some m /\ erase (rq_body rq') = erase parameter /\ header_received (server_header S m) header (rq_header rq') /\
      (forall w' rq2 r out hout, sv_fns S f (w, rq') (rq_body rq') = ((w', rq2), Ok r) ->
         rq_method rq2 = Some m -> rs_body (as_response r) = PVal out -> rs_header (as_response r) = hout ->
         returnable P Q D m out hout ->
         exists out' hout', stub_call P S (post_through a P D base) w op parameter header = (w', Ok (CReturned out' hout')) /\
           erase out' = erase out /\ header_received (m_oh m) hout hout') /\
      (forall w' rq2 r code msg actor hout, sv_fns S f (w, rq') (rq_body rq') = ((w', rq2), r) ->
         r = Err (SOAPError code msg actor) /\ hout = VNone \/
         (exists p, r = Ok p /\ rs_body (as_response p) = PErr code msg actor /\ rs_header (as_response p) = hout) ->
         text_good code -> text_good msg -> header_for P Q (m_oh m) hout ->
         (forall x, error_response (pf_n P) O (pf_E P) V code msg hout None = Ok x -> transmits P x) ->
         stub_call P S (post_through a P D base) w op parameter header = (w', Ok (CRaised (VStr code) (VStr msg) VNone))).
  Proof.
    intros PD C. destruct (call_reaches _ _ _ _ _ _ _ _ C) as (data & rq' & Sr & RH & Rm & Rb & Rh & Fn).
    exists data, rq'. split; [exact RH|]. split; [exact Rm|]. split; [exact Rb|]. split; [exact Rh|]. split.
    - intros w' rq2 r out hout Hf Hm Hb Hh [(co & tago & [Ot Mo]%output_typed & Tok & Mg) Hho Ts].
      rewrite (call_start _ _ _ _ _ _ _ _ _ _ _ PD C _ _ Sr RH Hf). cbn [fst snd res_map].
      destruct (delivered V (m_oh m) hout co out tago Hho Mg Tok) as (x & Rx & Dx).
      unfold build_response. cbn [bind as_response]. rewrite Hb, Hm. cbn [bind]. rewrite Mo, Hh, Rx. cbn [bind rs_content set_resp].
      destruct (Ts tago x Mo Rx) as (doc & Pd & Ld).
      destruct (Dx doc Ld) as (e & hv & b & t & at_ & k & Pe & Gh & Gb & Nb & Nf & Bc & Lt & (val' & Pv & Ev) & Dh & _).
      unfold handle_response. rewrite Pd. cbn [bind]. rewrite Pe. cbn [bind]. rewrite Gh. cbn [bind].
      destruct (client_header m hout hv V) as (h' & Eh & Hr).
      { destruct Dh as [Dh | (xe & R & Dc & _)]; [left; exact Dh|right; eauto]. }
      rewrite Eh. cbn [bind]. rewrite Gb. cbn [bind]. rewrite Nf. cbn [bind]. rewrite Ot. cbn [bind parse_output].
      unfold body_parse_as. rewrite Bc. cbn [bind]. rewrite Pv. cbn [bind]. exists val', h'. repeat split; auto.
    - intros w' rq2 r code msg actor hout Hf Hr Tc Tm Hho Ts.
      rewrite (call_start _ _ _ _ _ _ _ _ _ _ _ PD C _ _ Sr RH Hf). cbn [fst snd].
      destruct (delivered_fault V (m_oh m) hout code msg Hho Tc Tm) as (x & Rx & Dx).
      assert (B : exists rs, build_response P D rq2 (res_map (fun r => RResp (as_response r)) r) = Ok rs /\ rs_content rs = Some (pf_ser P x)).
      { destruct Hr as [[-> ->] | (p & -> & Hb & Hh)]; unfold build_response; cbn [bind res_map as_response rs_body new_response rs_header].
        - rewrite Rx. cbn [bind]. eexists. split; reflexivity.
        - rewrite Hb, Hh, Rx. cbn [bind]. eexists. split; reflexivity. }
      destruct B as (rs & -> & ->).
      destruct (Ts x Rx) as (doc & Pd & Ld).
      destruct (Dx doc Ld) as (e & hv & b & fo & Pe & Gh & Gb & Gf & Nf & Pf & Dh).
      unfold handle_response. rewrite Pd. cbn [bind]. rewrite Pe. cbn [bind]. rewrite Gh. cbn [bind].
      destruct (client_header m hout hv V Dh) as (h' & Eh & _).
      rewrite Eh. cbn [bind]. rewrite Gb. cbn [bind]. rewrite Gf. cbn [bind].
      destruct fo; try congruence; rewrite Pf; reflexivity.
  Qed.
End C.
