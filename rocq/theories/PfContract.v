(** Proofs for C90. *)
From Coq Require Import String Ascii List ZArith Bool Lia.
From Verif Require Import PyBase PyRe Xml PyVal XsdSimple XsdComplex XsdSchema PyHttp Soap Dispatch Client LibClasses Py2Xsd Py2Wsdl Serve
  SpecXsd SpecSchema SpecParse SpecRound SpecTotal SpecSoap SpecHttp SpecDispatch SpecClient SpecValid SpecGiven SpecRead SpecServe SpecContract
  PfBase PfRender PfRound PfRead3 PfSoap PfXsd2 PfDispatch PfPin PfDispatch2 PfDispatch3 PfClient PfClient2 PfClient3 PfValid2 PfValid3 PfValid4 PfValid5.
Import ListNotations.
Open Scope nat_scope.
Open Scope string_scope.
Open Scope list_scope.

Lemma made {W} n O L E G graph parts show compile (F : full_service W) wsdl xsds strict D check root :
  new_dispatcher n O L E G graph parts show compile F None None wsdl xsds strict = Ok (D, check) -> sv_schemas (fs_service F) = [root] ->
  d_service D = fs_service F /\ plain D /\ exists r doc, generate_xsd n O L E G (Serve.schema_object graph parts root) = Ok doc /\ compile r doc = Ok check.
Proof.
  intros H R. unfold new_dispatcher in H. apply bind_ok in H as (v & Hv & H). cbv zeta in H. apply bind_ok in H as (u & _ & H). apply bind_ok in H as (w & _ & H).
  apply bind_ok in H as (xs & _ & H). injection H as <- ->. split; [reflexivity|]. split; [split; reflexivity|].
  unfold schema_validator in Hv. rewrite R in Hv. apply bind_ok in Hv as (lk & _ & Hv). apply bind_ok in Hv as (ds & Hd & Hv). apply bind_ok in Hv as (d & Hp & Hv).
  cbn [mapM] in Hd. apply bind_ok in Hd as (d1 & Hd & Hr). injection Hr as <-. cbn [parse_joined] in Hp. injection Hp as ->. eauto.
Qed.
Lemma contract_facts {W} P mean G parts (F : full_service W) s (D : dispatcher W) : contract P mean G parts F s D ->
  d_service D = fs_service F /\ plain D /\ forall x, valid mean (xsd_document (pf_O P) (pf_E P) G s) x -> pf_valid P x = Ok tt.
Proof.
  intros [_ (root & R & ->) Hd Ho _ (j & lim & show & compile & wsdl & xsds & strict & Ha & H)].
  destruct (made _ _ _ _ _ _ _ _ _ _ _ _ _ _ _ _ H R) as (E1 & E2 & r & doc & Hg & Hc). split; [exact E1|]. split; [exact E2|].
  rewrite (generate_ok _ lim _ _ j _ Hd) in Hg. injection Hg as <-. intros x Hx. exact (Ha _ _ _ Hc x Hx).
Qed.
Lemma valid_laid mean D x y : valid mean D x -> layout x y -> valid mean D y.
Proof.
  intros (ns & n & d & Hn & Hg & Ht & Hf) Hl. destruct (layout_kept mean D _ _ Hl) as (T & K). exists ns, n, d. repeat split; auto. congruence.
Qed.
Lemma tag_ns ns n a k : ns <> ns_wsa -> ~ In "}"%char (to_l ns) -> is_wsa (Elem (clark ns n) a k) = false.
Proof.
  intros N1 N2. unfold is_wsa, node_ns, clark_split, clark. rewrite str_partition_app by exact N2. destruct (ncname_ok n); [|reflexivity].
  destruct (String.eqb ns ""); [reflexivity|]. apply String.eqb_neq. exact N1.
Qed.
Lemma class_si mean E G s tag c el d si : schema_ok mean E G s -> In (tag, el) (gs_elements s) -> ge_type el = TComplex c ->
  e_cls E c = Some d -> cd_schema d = Some si -> si_tns si = Some (gs_tns s).
Proof.
  intros (_ & _ & Hc & He) Hin Ht Hd Hs. rewrite Forall_forall in Hc, He. specialize (He _ Hin c Ht). cbn [snd] in He.
  assert (C : class_ok mean E G s c) by (destruct (ge_class el); auto). destruct C as (d' & Ed & _ & Hsi & _). rewrite Hd in Ed. injection Ed as <-. auto.
Qed.

Section Contract.
  Context {W : Type}.
  Variables (P : platform) (mean : string -> re) (G : decls) (parts : nat -> gschema) (F : full_service W) (s : gschema) (D : dispatcher W).
  Hypothesis C : contract P mean G parts F s D.
  Variable Q : string -> Prop.
  Hypothesis HQ : good_classes P Q.
  Notation doc := (xsd_document (pf_O P) (pf_E P) G s).

  (** What is sent is valid. *)
  Lemma sent_valid v tag c val : element_of (pf_E P) s tag c -> proper P Q c val -> ncname_ok tag = true ->
    forall x, envelope_response (pf_n P) (pf_O P) (pf_E P) v tag val VNone = Ok x ->
    exists y, x = soap_envelope (envelope_ns v) [] [y] /\ valid mean doc y /\ ~ In "}"%char (to_l (gs_tns s)).
  Proof.
    intros ((el & Hin & Ht) & d & si & Hd & Hs & He) ((Qc & (d' & si' & Hd' & Hs' & Hm) & Hrt & Hv) & Hc) Hn x Hx.
    rewrite Hd in Hd'. injection Hd' as <-. rewrite Hs in Hs'. injection Hs' as <-.
    pose proof (class_si _ _ _ _ _ _ _ _ _ (co_ok _ _ _ _ _ _ _ C) Hin Ht Hd Hs) as Ht'.
    destruct (co_platform _ _ _ _ _ _ _ C) as (U & lim & n & HE & HN).
    inversion Hrt as [|? ? xe fs ? ? ?]; subst val. rewrite HN, HE in Hx.
    assert (Hd2 : e_cls (soap_env U lim) c = Some d) by (rewrite <- HE; exact Hd).
    cbn [Nat.add] in Hx. rewrite (response_eq (pf_O P) U lim (S (S n)) v tag c xe fs d si VNone Hd2 Hs Hm) in Hx.
    change (header_nodes (pf_O P) U lim (S (S (S n))) v VNone) with (@Ok (list node) []) in Hx. cbn [bind] in Hx.
    apply bind_ok in Hx as (y & Hy & Hx). injection Hx as <-. exists y. split; [reflexivity|].
    rewrite <- HE, Ht', He in Hy. split.
    - exact (document_valid _ _ G s mean (co_describable _ _ _ _ _ _ _ C) (co_ok _ _ _ _ _ _ _ C) _ c tag el _ y Hin Ht Hn Hc Hy).
    - destruct (HQ c Qc) as (d2 & L & Ed & _ & _ & _ & Gd & _). rewrite Hd in Ed. injection Ed as <-. rewrite Hs, Ht' in Gd. exact Gd.
  Qed.
  Lemma valid_accepted y : valid mean doc y -> ~ In "}"%char (to_l (gs_tns s)) -> accepted P y.
  Proof.
    intros Hv Hb y' Hl. pose proof (valid_laid _ _ _ _ Hv Hl) as Hv'. destruct (contract_facts _ _ _ _ _ _ _ C) as (_ & _ & Ha). split; [exact (Ha _ Hv')|].
    destruct Hv' as (ns & n & d & Hn & _ & Ht & _). assert (ns = gs_tns s) as -> by (unfold own_namespace in Hn; cbn in Hn; congruence).
    destruct y' as [t a k | | |]; cbn [el_tag] in Ht; try discriminate. subst t. rewrite <- is_wsa_spec, (tag_ns _ _ _ _ (co_foreign _ _ _ _ _ _ _ C) Hb). discriminate.
  Qed.
  Lemma contract_callable a base op m f tag c parameter :
    first_with (fun m => m_op m = op) (sv_methods (d_service D)) m -> m_fn m = Some f ->
    m_in m = IOName tag -> message_tag tag -> input_type P D m (TComplex c) -> element_of (pf_E P) s tag c -> proper P Q c parameter ->
    (forall x, envelope_response (pf_n P) (pf_O P) (pf_E P) (sv_version (d_service D)) tag parameter VNone = Ok x -> transmits P x) ->
    routable a (d_service D) base m tag -> callable P Q D a base op m f tag parameter VNone.
  Proof.
    intros H1 H2 H3 H4 H5 H6 H7 H8 H9. split; auto.
    - now left.
    - exists c. split; [exact H5|]. apply H7.
    - now left.
    - intros x Hx. split; [auto|]. destruct (sent_valid _ tag c parameter H6 H7 (proj1 H4) x Hx) as (y & -> & Hv & Hb).
      unfold blocks, soap_envelope. cbn [app el_kids flat_map]. apply Forall_cons; [|apply Forall_nil]. now apply valid_accepted.
  Qed.

  Lemma contract_calls a base op w m f tag c parameter :
    first_with (fun m => m_op m = op) (sv_methods (d_service D)) m -> m_fn m = Some f ->
    m_in m = IOName tag -> message_tag tag -> input_type P D m (TComplex c) -> element_of (pf_E P) s tag c -> proper P Q c parameter ->
    (forall x, envelope_response (pf_n P) (pf_O P) (pf_E P) (sv_version (d_service D)) tag parameter VNone = Ok x -> transmits P x) ->
    routable a (d_service D) base m tag ->
    exists data rq', reaches_handler P D (new_request (seen a base (request_headers (sv_version (d_service D)) (m_action m)) data) data) rq' f /\
      rq_method rq' = Some m /\ erase (rq_body rq') = erase parameter /\
      forall w' rq2 r out hout, sv_fns (d_service D) f (w, rq') (rq_body rq') = ((w', rq2), Ok r) ->
        rq_method rq2 = Some m -> rs_body (as_response r) = PVal out -> rs_header (as_response r) = hout -> returnable P Q D m out hout ->
        exists out' hout', stub_call P (d_service D) (post_through a P D base) w op parameter VNone = (w', Ok (CReturned out' hout')) /\
          erase out' = erase out /\ header_received (m_oh m) hout hout'.
  Proof.
    intros H1 H2 H3 H4 H5 H6 H7 H8 H9. pose proof (contract_callable a base op m f tag c parameter H1 H2 H3 H4 H5 H6 H7 H8 H9) as Ca.
    destruct (contract_facts _ _ _ _ _ _ _ C) as (_ & Pl & _).
    destruct (call_works P Q D a base op w m f tag parameter VNone (co_platform _ _ _ _ _ _ _ C) HQ Pl Ca) as (data & rq' & R1 & R2 & R3 & _ & R4 & _).
    exists data, rq'. auto.
  Qed.

  (** The answer is valid too. *)
  Lemma contract_answers w rq rq' f m tag c out w' :
    request_method rq "POST" -> reaches_handler P D rq rq' f -> m_out m = IOName tag -> message_tag tag ->
    element_of (pf_E P) s tag c -> proper P Q c out ->
    (exists rq2, sv_fns (d_service D) f (w, rq') (rq_body rq') = ((w', rq2), Ok (RPay (PVal out))) /\ rq_method rq2 = Some m) ->
    exists tr rs y, dispatch P D w rq = (w', tr, Ok rs) /\ rs_status rs = 200%Z /\
      rs_content rs = Some (pf_ser P (soap_envelope (envelope_ns (sv_version (d_service D))) [] [y])) /\
      forall y', layout (wire y) y' -> valid mean doc y'.
  Proof.
    intros R RH Ho Hn He Hp (rq2 & Hf & Hm). destruct (contract_facts _ _ _ _ _ _ _ C) as (_ & Pl & _). 
    destruct Pl as [Hk Mw]. rewrite (dispatch_soap _ _ _ _ _ R), (soap_no_hooks _ _ _ _ _ Hk), Mw. cbn [stack].
    destruct (reached_call _ _ _ _ _ _ _ _ _ RH Hf) as (x & ->). cbn [fst snd].
    unfold build_response. cbn [bind res_map as_response rs_body new_response rs_header rs_status]. rewrite Hm. cbn [bind]. rewrite Ho. cbn [bind].
    destruct (co_platform _ _ _ _ _ _ _ C) as (U & lim & n & HE & HN).
    assert (exists z, envelope_response (pf_n P) (pf_O P) (pf_E P) (sv_version (d_service D)) tag out VNone = Ok z) as (z & Hz).
    { destruct (delivered P Q U lim n HE HN HQ (sv_version (d_service D)) None VNone c out tag (or_introl eq_refl) (proj1 Hp) Hn) as (z & Hz & _). eauto. }
    rewrite Hz. cbn [bind]. destruct (sent_valid _ tag c out He Hp (proj1 Hn) z Hz) as (y & -> & Hv & _).
    do 3 eexists. split; [reflexivity|]. split; [reflexivity|]. split; [reflexivity|]. intros y' Hl. exact (valid_sent _ _ _ _ Hv Hl).
  Qed.

  (** A valid document of any client is read as what it says. *)
  Lemma contract_accepts rq x m f tag c : reads_numbers (pf_O P) -> schema_readable (pf_O P) (pf_E P) G s ->
    request_method rq "POST" -> carries P D rq VNone x -> valid mean doc x -> el_tag x = clark (gs_tns s) tag -> ncname_ok tag = true ->
    spelled (pf_E P) s (TComplex c) x -> height x < pf_n P -> input_type P D m (TComplex c) -> element_of (pf_E P) s tag c -> m_fn m = Some f ->
    (exists act, has_action D rq act /\ first_with (fun m => m_action m = act) (sv_methods (d_service D)) m) \/
    (no_action D rq /\ first_with (fun m => m_in m = IOName tag) (sv_methods (d_service D)) m) ->
    exists rq', reaches_handler P D rq rq' f /\ rq_method rq' = Some m /\ says (pf_O P) (pf_E P) s (TComplex c) x (rq_body rq') /\
      forall w st r, sv_fns (d_service D) f (w, rq') (rq_body rq') = (st, r) ->
        exists x' r', dispatch P D w rq = (fst st, [EValidated x'; ECalled f (rq_body rq')], r').
  Proof.
    intros HO HR R Hc Hv Ht Hn Hs Hh Hi ((el & Hin & Hty) & _) Hf Hm. destruct (contract_facts _ _ _ _ _ _ _ C) as (_ & Pl & Ha).
    destruct (valid_reads _ _ G s mean HO (co_ok _ _ _ _ _ _ _ C) HR tag el c x (pf_n P) Hin Hty Ht Hv Hs Hh) as (v & Hp & Hsay).
    assert (FH : find_handler P D rq x = Ok m).
    { destruct x as [t a k | | |]; cbn [el_tag] in Ht; try discriminate. subst t. destruct Hm as [(act & HA & FW) | (NA & FW)].
      - now apply (find_by_action _ P D rq (clark (gs_tns s) tag) a k act HA).
      - apply find_by_root; [exact NA|]. rewrite local_clark; auto. apply HR. }
    set (rq' := mkReq (rq_environ rq) (rq_content rq) VNone v (Some m)).
    assert (RH : reaches_handler P D rq rq' f).
    { exists x, VNone, m, (TComplex c), VNone. cbn [rq_header rq_body rq_method rq_environ rq_content rq'].
      split; [assumption|]. split; [now left|]. repeat (split; [first [assumption | reflexivity | left; split; reflexivity | exact (Ha _ Hv)]|]). auto. }
    exists rq'. split; [exact RH|]. split; [reflexivity|]. split; [exact Hsay|]. intros w st r Hfn. exact (chosen_called W P D w rq rq' f st r Pl R RH Hfn).
  Qed.
End Contract.
