(** Proofs for C90 with SOAP headers. *)
From Coq Require Import String Ascii List ZArith Bool Lia.
From Verif Require Import PyBase PyRe Xml PyVal XsdSimple XsdComplex XsdSchema PyHttp Soap Dispatch Client LibClasses Py2Xsd Py2Wsdl Serve
  SpecXsd SpecSchema SpecParse SpecRender SpecRound SpecTotal SpecSoap SpecHttp SpecDispatch SpecClient SpecValid SpecGiven SpecRead SpecServe SpecContract SpecContract2
  PfBase PfObject PfParse PfLayout PfMono PfRender PfRound PfRead3 PfSoap PfSoap2 PfSoap3 PfHttp PfXsd2 PfDispatch PfPin PfDispatch2 PfDispatch3 PfClient PfClient2 PfClient3 PfValid2 PfValid3 PfValid4 PfValid5 PfContract.
Import ListNotations.
Open Scope nat_scope.
Open Scope string_scope.
Open Scope list_scope.

Lemma clark_ns a : forall b x y, ~ In "}"%char (to_l a) -> ~ In "}"%char (to_l b) -> clark a x = clark b y -> a = b.
Proof.
  unfold clark. intros b x y Na Nb [= H]. revert b Nb H. induction a as [|c a IH]; intros [|d b] Nb H; cbn in *.
  - reflexivity.
  - injection H as H _. destruct Nb. now left.
  - injection H as H _. destruct Na. now left.
  - injection H as -> H. f_equal. apply IH; auto.
Qed.

Section C.
  Variable P : platform.
  Variable Q : string -> Prop.
  Variables (U : string -> option classdef) (lim n : nat).
  Hypothesis HE : pf_E P = soap_env U lim.
  Hypothesis Hn : pf_n P = S (S (S (S n))).
  Hypothesis HQ : good_classes P Q.
  Notation O := (pf_O P).
  Notation E := (soap_env U lim).
  Let HQ' : rt_classes O E Q.
  Proof. unfold good_classes in HQ. now rewrite HE in HQ. Qed.

  Lemma header_delivered2 v cls h : header_for P Q cls h ->
    exists hx, header_nodes O U lim (S (S (S n))) v h = Ok hx /\ map wire hx = hx /\ one_header v hx /\
      forall hx', Forall2 layout hx hx' ->
        (read_header v hx' = VNone /\ h = VNone \/
         exists xe, read_header v hx' = VObj (header_cls v) (Some xe) [] /\
           (forall c, cls = Some c -> exists h', parse_obj (pf_n P) O (pf_E P) c xe = Ok h' /\ erase h' = erase h) /\
           Forall2 layout (flat_map el_kids hx) (el_children xe)).
  Proof.
    intros [-> | (c & (Qc & (d & si & Hd & Hs & Hm) & Ht & Hv) & Hc)].
    - exists []. repeat split; [left; reflexivity|]. intros hx' F. inversion F; subst. left. split; reflexivity.
    - rewrite HE in Hd, Ht. rewrite Hn in Hv.
      destruct (header_sent O U lim Q HQ' (S (S n)) v c h Qc (ex_intro _ d (ex_intro _ si (conj Hd Hs))) Ht ltac:(lia))
        as (a & k & R & Wr & Nn & NT & Td & h' & P1 & P2).
      eexists. split; [exact R|]. split; [cbn [map]; now rewrite Wr|]. split; [right; eauto|].
      intros hx' F. inversion F as [|? xe ? r L Fr]; subst. inversion Fr; subst. right.
      destruct (layout_children _ _ _ _ NT L) as (k' & -> & Fk).
      assert (NL : is_nil (Elem (clark (envelope_ns v) "Header") a k') = false) by (unfold is_nil, el_get; cbn [el_attrs]; now rewrite Nn).
      eexists. split; [cbn [read_header]; rewrite NL; reflexivity|]. split.
      + intros c' Ec. destruct Hc as [Hc | Hc]; [|congruence]. rewrite Hc in Ec. injection Ec as <-.
        destruct (layout_agree O E _ _ _ (S (S (S (S n)))) L Td) as [_ Ag]. cbn [parse_type] in Ag. rewrite P1 in Ag. cbn [res_map] in Ag.
        rewrite Hn, HE. destruct (parse_obj (S (S (S (S n)))) O E c (Elem (clark (envelope_ns v) "Header") a k')) as [o|]; [|discriminate]. cbn [res_map] in Ag.
        exists o. split; [reflexivity|congruence].
      + cbn [flat_map el_kids]. rewrite app_nil_r. exact Fk.
  Qed.

  (** A message arrives, with its header. *)
  Lemma delivered2 v cls h c val tag : header_for P Q cls h -> message P Q c val -> message_tag tag ->
    exists hx y0, envelope_response (pf_n P) O (pf_E P) v tag val h = Ok (soap_envelope (envelope_ns v) hx [y0]) /\ one_header v hx /\
    forall doc, layout (wire (soap_envelope (envelope_ns v) hx [y0])) doc ->
    exists e hv b t a k, parse_obj (pf_n P) O (pf_E P) (envelope_cls v) doc = Ok e /\
      py_get e "Header" = Ok hv /\ py_get e "Body" = Ok b /\ b <> VNone /\ py_get b "Fault" = Ok VNone /\
      body_content b = Ok (Elem t a k) /\ local_name t = tag /\
      (exists val', parse_obj (pf_n P) O (pf_E P) c (Elem t a k) = Ok val' /\ erase val' = erase val) /\
      (hv = VNone /\ h = VNone \/
       exists xe, hv = VObj (header_cls v) (Some xe) [] /\
         (forall c, cls = Some c -> exists h', parse_obj (pf_n P) O (pf_E P) c xe = Ok h' /\ erase h' = erase h) /\
         Forall2 layout (flat_map el_kids hx) (el_children xe)) /\
      layout y0 (Elem t a k).
  Proof.
    intros Hh (Qc & (d & si & Hd & Hs & Hm) & Ht & Hv) Htag.
    destruct (header_delivered2 v cls h Hh) as (hx & Rh & Wh & Oh & Dh).
    rewrite HE in Hd, Ht. rewrite Hn in Hv.
    destruct (body_sent O U lim Q HQ' (S (S n)) c tag val d si Qc Hd Hs Htag Ht ltac:(lia)) as (t & a & k & X & Wx & Lt & Td & val' & P1 & P2).
    exists hx, (Elem t a k).
    inversion Ht as [|? ? xe fs ? ? ?]; subst val. split; [|split; [exact Oh|]].
    { rewrite Hn, HE. rewrite (response_eq _ _ _ _ _ _ _ _ _ _ _ _ Hd Hs Hm), Rh. cbn [bind]. rewrite X. reflexivity. }
    intros doc L. rewrite (wire_envelope _ _ _ Wh Oh Wx eq_refl) in L.
    assert (NT : Forall (fun y => is_text y = false) [Elem t a k]) by (repeat constructor).
    destruct (envelope_laid v hx _ doc Oh NT L) as (hx' & ks' & Fh & Oh' & Ec & LB & Fb).
    inversion Fb as [|? y ? r Ly Fr Eb Ey]; subst. inversion Fr; subst.
    assert (T2 : exists k', y = Elem t a k') by (inversion Ly; subst; eauto). destruct T2 as (k' & ->).
    destruct Htag as (_ & N1 & N2).
    assert (PB : parse_obj (S (S (S n))) O E (body_cls v) (Elem (clark (envelope_ns v) "Body") [] ks') =
       Ok (VObj (body_cls v) (Some (Elem (clark (envelope_ns v) "Body") [] ks')) [("message", VNone); ("Fault", VNone)])).
    { apply parse_plain_body; rewrite <- Ey; apply not_sub; auto. }
    pose proof (parse_envelope_any O U lim _ v doc hx' ks' _ Oh' Ec PB) as PE.
    rewrite Hn, HE, PE. do 6 eexists. split; [reflexivity|]. split; [reflexivity|]. split; [reflexivity|]. split; [discriminate|].
    split; [reflexivity|]. split; [unfold body_content; cbn [py_xmlelement bind]; rewrite <- Ey; reflexivity|]. split; [reflexivity|]. split.
    { destruct (layout_agree O E _ _ _ (S (S (S (S n)))) Ly Td) as [_ Ag]. cbn [parse_type] in Ag. rewrite P1 in Ag. cbn [res_map] in Ag.
      destruct (parse_obj (S (S (S (S n)))) O E c (Elem t a k')) as [o|]; [|discriminate]. cbn [res_map] in Ag. exists o. split; [reflexivity|congruence]. }
    split; [|exact Ly].
    specialize (Dh hx' Fh). rewrite Hn, HE in Dh. destruct Dh as [Dh | (xe' & R & Dc & Db)]; [left; exact Dh|right].
    exists xe'. split; [exact R|]. split; [exact Dc|exact Db].
  Qed.

  (** The blocks of the header are in the namespace of the envelope. *)
  Lemma blocks_named v h c val tag hx y0 : plain_header P h -> header_for P Q None h \/ (exists k, header_for P Q (Some k) h) -> message P Q c val ->
    envelope_response (pf_n P) O (pf_E P) v tag val h = Ok (soap_envelope (envelope_ns v) hx [y0]) -> one_header v hx ->
    forall y, In y (flat_map el_kids hx) -> exists nm a k, y = Elem (clark (envelope_ns v) nm) a k.
  Proof.
    intros [-> | (ch & xe & fs & d & -> & Hd & HF)] Hh (Qc & (dc & si & Hdc & Hs & Hm) & Ht & Hv) Hx Oh y Iy.
    - inversion Ht as [|? ? xv fv ? ? ?]; subst val. rewrite HE in *. rewrite Hn in Hx.
      rewrite (response_eq _ _ _ _ _ _ _ _ _ _ _ _ Hdc Hs Hm) in Hx. change (header_nodes O U lim (S (S (S n))) v VNone) with (@Ok (list node) []) in Hx. cbn [bind] in Hx.
      apply bind_ok in Hx as (b & _ & Hx). injection Hx as Hx. destruct Oh as [-> | (a & k & ->)]; [destruct Iy|discriminate].
    - assert (Sh : exists sh, cd_schema d = Some sh).
      { assert (M : exists c', message P Q c' (VObj ch xe fs)) by (destruct Hh as [[H|(c' & H & _)] | (k & [H|(c' & H & _)])]; try discriminate; eauto).
        destruct M as (c' & _ & (d' & si' & Hd' & Hs' & _) & Ht' & _). inversion Ht'; subst. rewrite Hd in Hd'. injection Hd' as <-. eauto. }
      destruct Sh as (sh & Hsh). inversion Ht as [|? ? xv fv ? ? ?]; subst val. rewrite HE in *. rewrite Hn in Hx.
      destruct (header_blocks O U lim (S (S n)) v c xv fv dc si ch xe fs d sh tag _ Hdc Hs Hm Hd Hsh HF Hx) as (ks & b & Ex & Hk).
      assert (hx = [Elem (clark (envelope_ns v) "Header") [] ks]) as ->.
      { destruct Oh as [-> | (a & k & ->)]; [discriminate|]. unfold soap_envelope in Ex. cbn [app] in Ex. injection Ex as -> -> _. reflexivity. }
      cbn [flat_map el_kids] in Iy. rewrite app_nil_r in Iy. destruct (Hk y Iy) as (f & ay & ky & _ & ->). eauto.
  Qed.
End C.

Section Contract.
  Context {W : Type}.
  Variables (P : platform) (mean : string -> re) (G : decls) (parts : nat -> gschema) (F : full_service W) (s : gschema) (D : dispatcher W).
  Hypothesis C : contract P mean G parts F s D.
  Variable Q : string -> Prop.
  Hypothesis HQ : good_classes P Q.
  Notation doc := (xsd_document (pf_O P) (pf_E P) G s).
  Notation V := (sv_version (d_service D)).

  Lemma sent_valid2 v tag c val h hx y0 : element_of (pf_E P) s tag c -> proper P Q c val -> ncname_ok tag = true ->
    envelope_response (pf_n P) (pf_O P) (pf_E P) v tag val h = Ok (soap_envelope (envelope_ns v) hx [y0]) ->
    valid mean doc y0 /\ ~ In "}"%char (to_l (gs_tns s)).
  Proof.
    intros ((el & Hin & Ht) & d & si & Hd & Hs & He) ((Qc & (d' & si' & Hd' & Hs' & Hm) & Hrt & Hv) & Hc) Hn Hx.
    rewrite Hd in Hd'. injection Hd' as <-. rewrite Hs in Hs'. injection Hs' as <-.
    pose proof (class_si _ _ _ _ _ _ _ _ _ (co_ok _ _ _ _ _ _ _ C) Hin Ht Hd Hs) as Ht'.
    destruct (co_platform _ _ _ _ _ _ _ C) as (U & lim & n & HE & HN).
    inversion Hrt as [|? ? xe fs ? ? ?]; subst val. rewrite HN, HE in Hx.
    assert (Hd2 : e_cls (soap_env U lim) c = Some d) by (rewrite <- HE; exact Hd).
    cbn [Nat.add] in Hx. rewrite (response_eq (pf_O P) U lim (S (S n)) v tag c xe fs d si h Hd2 Hs Hm) in Hx.
    apply bind_ok in Hx as (hx1 & _ & Hx). apply bind_ok in Hx as (y & Hy & Hx). injection Hx as Hx.
    apply app_inj_tail in Hx as [_ Hx]. injection Hx as ->.
    rewrite <- HE, Ht', He in Hy. split.
    - exact (document_valid _ _ G s mean (co_describable _ _ _ _ _ _ _ C) (co_ok _ _ _ _ _ _ _ C) _ c tag el _ y0 Hin Ht Hn Hc Hy).
    - destruct (HQ c Qc) as (d2 & L & Ed & _ & _ & _ & Gd & _). rewrite Hd in Ed. injection Ed as <-. rewrite Hs, Ht' in Gd. exact Gd.
  Qed.
  Lemma block_foreign v nm a k : is_wsa (Elem (clark (envelope_ns v) nm) a k) = false.
  Proof. apply tag_ns; destruct v; try discriminate; cbn; intuition discriminate. Qed.
  Lemma laid_named v y y' : (exists nm a k, y = Elem (clark (envelope_ns v) nm) a k) -> layout y y' -> exists nm a k, y' = Elem (clark (envelope_ns v) nm) a k.
  Proof. intros (nm & a & k & ->) L. inversion L; subst; eauto. Qed.

  Lemma header_call_reaches a base op m f tag c parameter header : d_strict D = false -> fails_as_lxml P ->
    first_with (fun m => m_op m = op) (sv_methods (d_service D)) m -> m_fn m = Some f ->
    m_in m = IOName tag -> message_tag tag -> input_type P D m (TComplex c) -> element_of (pf_E P) s tag c -> proper P Q c parameter ->
    header_for P Q (server_header (d_service D) m) header -> plain_header P header ->
    (forall x, envelope_response (pf_n P) (pf_O P) (pf_E P) V tag parameter header = Ok x -> transmits P x) ->
    routable a (d_service D) base m tag ->
    exists data rq', stub_request P (d_service D) m parameter header = Ok (request_headers V (m_action m), data) /\
      reaches_handler P D (new_request (seen a base (request_headers V (m_action m)) data) data) rq' f /\
      rq_method rq' = Some m /\ erase (rq_body rq') = erase parameter /\ header_received (server_header (d_service D) m) header (rq_header rq').
  Proof.
    intros Lx Fl Cm Cf Mi Cok Ic He Hp Ch Ph Cs Cr. destruct (co_platform _ _ _ _ _ _ _ C) as (U & lim & n & HE & HN).
    destruct (delivered2 P Q U lim n HE HN HQ V (server_header (d_service D) m) header c parameter tag Ch (proj1 Hp) Cok) as (hx & y0 & Rx & Oh & Dx).
    destruct (Cs _ Rx) as (dc & Pd & Ld).
    destruct (Dx dc Ld) as (e & hv & b & t & at_ & k & Pe & Gh & Gb & Nb & _ & Bc & Lt & (val' & Pv & Ev) & Dh & Ly).
    destruct (sent_valid2 _ _ _ _ _ _ _ He Hp (proj1 Cok) Rx) as (Vy & Nt).
    assert (VB : pf_valid P (Elem t at_ k) = Ok tt).
    { destruct (contract_facts _ _ _ _ _ _ _ C) as (_ & _ & Ha). apply Ha. exact (valid_laid _ _ _ _ Vy Ly). }
    assert (Nm : forall y, In y (flat_map el_kids hx) -> exists nm a k, y = Elem (clark (envelope_ns V) nm) a k).
    { apply (blocks_named P Q U lim n HE HN V header c parameter tag hx y0 Ph); auto; [|apply Hp]. destruct (server_header (d_service D) m) as [ci|]; [right; exists ci|left]; exact Ch. }
    exists (pf_ser P (soap_envelope (envelope_ns V) hx [y0])).
    assert (HH : exists h', parse_header_of P D m hv = Ok h' /\ header_received (server_header (d_service D) m) header h' /\ validate_header P D hv = Ok tt).
    { destruct Dh as [[-> ->] | (xe & -> & Dc & Db)].
      - exists VNone. repeat split. unfold header_received. destruct (server_header (d_service D) m); reflexivity.
      - assert (VH : validate_header P D (VObj (header_cls V) (Some xe) []) = Ok tt).
        { unfold validate_header. cbn [py_xmlelement bind]. rewrite Lx. clear -Db Nm Fl. revert Nm. induction Db as [|y y' l l' Ll Fll IH]; intros Nm; [reflexivity|]. cbn [foldM].
          destruct (laid_named _ _ _ (Nm y (or_introl eq_refl)) Ll) as (nm & a & k & ->). rewrite block_foreign.
          destruct (Fl (Elem (clark (envelope_ns V) nm) a k)) as [-> | (e & (mm & He) & ->)]; cbn [bind]; [apply IH; intros; apply Nm; now right|].
          replace (is_lxml_error e) with true by (destruct He as [-> | ->]; reflexivity). cbn [andb negb bind]. apply IH; intros; apply Nm; now right. }
        unfold parse_header_of, server_header, header_received in *.
        destruct (m_ih m) as [ci|]; [|destruct (sv_ih (d_service D)) as [ci|]].
        + destruct (Dc ci eq_refl) as (h' & Phh & Eh). exists h'. repeat split; auto.
        + destruct (Dc ci eq_refl) as (h' & Phh & Eh). exists h'. repeat split; auto.
        + exists VNone. repeat split; auto. }
    destruct HH as (h' & Phh & Hr & VH). apply header_as_spec in Phh. apply validate_ok in VH.
    exists (mkReq (seen a base (request_headers V (m_action m)) (pf_ser P (soap_envelope (envelope_ns V) hx [y0]))) (pf_ser P (soap_envelope (envelope_ns V) hx [y0])) h' val' (Some m)).
    split; [unfold stub_request, request_tag; rewrite Mi; cbn [bind]; rewrite Rx; reflexivity|]. split.
    - exists (Elem t at_ k), hv, m, (TComplex c), h'. cbn [rq_header rq_body rq_method rq_environ rq_content new_request].
      split; [exists dc, e, b; repeat split; auto|]. split; [exact VH|]. split; [exact VB|].
      split; [apply (routed P D a base m tag _ t at_ k Cr Lt)|]. repeat split; auto.
    - repeat split; auto.
  Qed.
  Lemma call_start2 a base op w m f parameter header st r : plain D ->
    first_with (fun m => m_op m = op) (sv_methods (d_service D)) m ->
    forall data rq', stub_request P (d_service D) m parameter header = Ok (request_headers V (m_action m), data) ->
    reaches_handler P D (new_request (seen a base (request_headers V (m_action m)) data) data) rq' f ->
    sv_fns (d_service D) f (w, rq') (rq_body rq') = (st, r) ->
    stub_call P (d_service D) (post_through a P D base) w op parameter header =
    match build_response P D (snd st) (res_map (fun r => RResp (as_response r)) r) with
    | Ok rs => match rs_content rs with Some c => (fst st, handle_response P (d_service D) m c) | None => (fst st, Err TypeError) end
    | Err e => (fst st, Err e)
    end.
  Proof.
    intros [Hk Mw] Cm data rq' Sr RH Hf. unfold stub_call. rewrite (got_method D op m Cm), Sr.
    rewrite post_dispatch.
    assert (R : request_method (new_request (seen a base (request_headers V (m_action m)) data) data) "POST") by apply seen_post.
    rewrite (dispatch_soap _ _ _ _ _ R), (soap_no_hooks _ _ _ _ _ Hk), Mw. cbn [stack].
    destruct (reached_call _ _ _ _ _ _ _ _ _ RH Hf) as (x & ->). destruct st as [w2 rq2]. cbn [fst snd].
    destruct (build_response P D rq2 _) as [rs|er]; cbn [res_map answer bind]; [|reflexivity].
    destruct (rs_content rs); reflexivity.
  Qed.
  Lemma header_calls a base op w m f tag c parameter header : d_strict D = false -> fails_as_lxml P ->
    first_with (fun m => m_op m = op) (sv_methods (d_service D)) m -> m_fn m = Some f ->
    m_in m = IOName tag -> message_tag tag -> input_type P D m (TComplex c) -> element_of (pf_E P) s tag c -> proper P Q c parameter ->
    header_for P Q (server_header (d_service D) m) header -> plain_header P header ->
    (forall x, envelope_response (pf_n P) (pf_O P) (pf_E P) V tag parameter header = Ok x -> transmits P x) ->
    routable a (d_service D) base m tag ->
    exists data rq', reaches_handler P D (new_request (seen a base (request_headers V (m_action m)) data) data) rq' f /\
      rq_method rq' = Some m /\ erase (rq_body rq') = erase parameter /\ header_received (server_header (d_service D) m) header (rq_header rq') /\
      forall w' rq2 r out hout, sv_fns (d_service D) f (w, rq') (rq_body rq') = ((w', rq2), Ok r) ->
        rq_method rq2 = Some m -> rs_body (as_response r) = PVal out -> rs_header (as_response r) = hout -> returnable P Q D m out hout ->
        exists out' hout', stub_call P (d_service D) (post_through a P D base) w op parameter header = (w', Ok (CReturned out' hout')) /\
          erase out' = erase out /\ header_received (m_oh m) hout hout'.
  Proof.
    intros Lx Fl Cm Cf Mi Cok Ic He Hp Ch Ph Cs Cr.
    destruct (header_call_reaches a base op m f tag c parameter header Lx Fl Cm Cf Mi Cok Ic He Hp Ch Ph Cs Cr) as (data & rq' & Sr & RH & Rm & Rb & Rh).
    exists data, rq'. split; [exact RH|]. split; [exact Rm|]. split; [exact Rb|]. split; [exact Rh|].
    intros w' rq2 r out hout Hf Hm Hb Hh [(co & tago & [Ot Mo]%output_typed & Tok & Mg) Hho Ts].
    destruct (contract_facts _ _ _ _ _ _ _ C) as (_ & Pl & _). destruct (co_platform _ _ _ _ _ _ _ C) as (U & lim & n & HE & HN).
    rewrite (call_start2 _ _ _ _ _ _ _ _ _ _ Pl Cm _ _ Sr RH Hf). cbn [fst snd res_map].
    destruct (delivered P Q U lim n HE HN HQ V (m_oh m) hout co out tago Hho Mg Tok) as (x & Rx & Dx).
    unfold build_response. cbn [bind as_response]. rewrite Hb, Hm. cbn [bind]. rewrite Mo, Hh, Rx. cbn [bind rs_content set_resp].
    destruct (Ts tago x Mo Rx) as (dc & Pd & Ld).
    destruct (Dx dc Ld) as (e & hv & b & t & at_ & k & Pe & Gh & Gb & Nb & Nf & Bc & Lt & (val' & Pv & Ev) & Dh & _).
    unfold handle_response. rewrite Pd. cbn [bind]. rewrite Pe. cbn [bind]. rewrite Gh. cbn [bind].
    destruct (client_header P m hout hv V) as (h' & Eh & Hr).
    { destruct Dh as [Dh | (xe & R & Dc & _)]; [left; exact Dh|right; eauto]. }
    rewrite Eh. cbn [bind]. rewrite Gb. cbn [bind]. rewrite Nf. cbn [bind]. rewrite Ot. cbn [bind parse_output].
    unfold body_parse_as. rewrite Bc. cbn [bind]. rewrite Pv. cbn [bind]. exists val', h'. repeat split; auto.
  Qed.

  (** A strict dispatcher refuses the headers. *)
  Lemma header_refused a base w m f tag c parameter header x : d_strict D = true -> rejects_foreign P (gs_tns s) -> gs_tns s <> envelope_ns V ->
    m_fn m = Some f -> m_in m = IOName tag -> message_tag tag -> element_of (pf_E P) s tag c -> proper P Q c parameter ->
    header_for P Q (server_header (d_service D) m) header -> plain_header P header -> header <> VNone ->
    envelope_response (pf_n P) (pf_O P) (pf_E P) V tag parameter header = Ok x -> transmits P x -> 2 <= length (blocks x) ->
    exists data, stub_request P (d_service D) m parameter header = Ok (request_headers V (m_action m), data) /\
      forall w' tr r, dispatch P D w (new_request (seen a base (request_headers V (m_action m)) data) data) = (w', tr, r) -> calls tr = 0 /\ w' = w.
  Proof.
    intros Sx Rf Nn Cf Mi Cok He Hp Ch Ph Nh Rx0 Ts Len. destruct (co_platform _ _ _ _ _ _ _ C) as (U & lim & n & HE & HN).
    destruct (delivered2 P Q U lim n HE HN HQ V (server_header (d_service D) m) header c parameter tag Ch (proj1 Hp) Cok) as (hx & y0 & Rx & Oh & Dx).
    rewrite Rx0 in Rx. injection Rx as ->. destruct Ts as (dc & Pd & Ld).
    destruct (Dx dc Ld) as (e & hv & b & t & at_ & k & Pe & Gh & Gb & Nb & _ & Bc & Lt & (val' & Pv & Ev) & Dh & Ly).
    destruct (sent_valid2 _ _ _ _ _ _ _ He Hp (proj1 Cok) Rx0) as (Vy & Nt).
    assert (Nm : forall y, In y (flat_map el_kids hx) -> exists nm a k, y = Elem (clark (envelope_ns V) nm) a k).
    { apply (blocks_named P Q U lim n HE HN V header c parameter tag hx y0 Ph); auto; [|apply Hp]. destruct (server_header (d_service D) m) as [ci|]; [right; exists ci|left]; exact Ch. }
    destruct Dh as [[_ H] | (xe & -> & _ & Db)]; [contradiction|].
    assert (VH : validate_header P D (VObj (header_cls V) (Some xe) []) <> Ok tt).
    { unfold blocks, soap_envelope in Len. cbn [el_kids] in Len. rewrite flat_map_app, app_length in Len. cbn [flat_map el_kids app length] in Len.
      unfold validate_header. cbn [py_xmlelement bind]. rewrite Sx. destruct Db as [|y y' l l' Ll Fll]; [cbn in Len; lia|]. cbn [foldM].
      destruct (laid_named _ _ _ (Nm y (or_introl eq_refl)) Ll) as (nm & ay & ky & ->). rewrite block_foreign.
      destruct (Rf (Elem (clark (envelope_ns V) nm) ay ky)) as (mm & ->).
      { intros n0 H. cbn [el_tag] in H. apply Nn. symmetry. refine (clark_ns _ _ _ _ _ Nt H). destruct V; cbn; intuition discriminate. }
      cbn [is_lxml_error andb negb bind]. discriminate. }
    exists (pf_ser P (soap_envelope (envelope_ns V) hx [y0])). split; [unfold stub_request, request_tag; rewrite Mi; cbn [bind]; rewrite Rx0; reflexivity|].
    intros w' tr r. destruct (contract_facts _ _ _ _ _ _ _ C) as (_ & (Hk & Mw) & _).
    match goal with |- dispatch P D w ?q = _ -> _ => assert (R : request_method q "POST") by apply seen_post end.
    rewrite (dispatch_soap _ _ _ _ _ R), (soap_no_hooks _ _ _ _ _ Hk), Mw. cbn [stack].
    unfold call_method. destruct (prepare_request P D _) as [[rq1 ev] q] eqn:Ep. apply prepare_spec in Ep. destruct q as [u|er].
    - exfalso. destruct Ep as (h & x & m' & b' & h' & _ & (dc' & e' & b1 & P1 & P2 & P3 & _) & _ & VV & _).
      cbn [rq_content new_request] in P1. rewrite Pd in P1. injection P1 as <-. rewrite Pe in P2. injection P2 as <-. rewrite Gh in P3. injection P3 as <-. exact (VH VV).
    - intros [= <- <- <-]. split; [|reflexivity]. destruct Ep as [-> | (h & x & -> & _)]; reflexivity.
  Qed.
End Contract.
