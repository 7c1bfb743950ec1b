(** WS-Addressing headers. *)
From Coq Require Import String Ascii List ZArith Bool Lia.
From Verif Require Import PyBase Xml PyVal XsdSimple XsdComplex XsdSchema PyHttp Soap Dispatch Client Wsa
  SpecParse SpecRound SpecSimple SpecSoap SpecDispatch SpecHttp SpecClient SpecWsa PfBase PfObject PfParse PfRound PfMono PfObject PfLeaf PfSoap PfClient PfClient3.
Import ListNotations.
Open Scope nat_scope.
Open Scope string_scope.
Open Scope list_scope.

Lemma header_parts fs : map fst fs = ["Action"; "MessageID"; "To"; "ReplyTo"; "RelatesTo"] ->
  exists a i t r l, fs = [("Action", a); ("MessageID", i); ("To", t); ("ReplyTo", r); ("RelatesTo", l)] :> list (string * pyval).
Proof.
  intros H. destruct fs as [|[k1 a] [|[k2 i] [|[k3 t] [|[k4 r] [|[k5 l] [|]]]]]]; try discriminate H. cbn in H. injection H as -> -> -> -> ->. now exists a, i, t, r, l.
Qed.
Lemma fill_reply O E uuid dst src act id : has_wsa E -> wsa_header dst -> attribute src "Action" (VStr act) -> attribute src "MessageID" (VStr id) ->
  exists dst', fill_header O E uuid dst src = (dst', Ok tt) /\ wsa_header dst' /\
    attribute dst' "Action" (VStr (act ++ "Response")) /\ attribute dst' "RelatesTo" (VStr id) /\
    attribute dst' "MessageID" (VStr uuid) /\ attribute dst' "To" (VStr anonymous) /\
    py_get dst' "ReplyTo" = py_get dst "ReplyTo".
Proof.
  intros HE (xe & fs & -> & Hfs) Ha Hi. apply header_parts in Hfs as (a & i & t & r & l & ->). unfold attribute in *.
  assert (Hd : get_class E "wsa.Header" = Ok cd_wsa_header) by (unfold get_class; rewrite (HE "wsa.Header" cd_wsa_header ltac:(cbn; tauto)); reflexivity).
  unfold fill_header. destruct src; try discriminate Ha. rewrite Ha, Hi. cbn [bind add_response]. unfold put. cbn [bind py_set]. rewrite Hd.
  eexists. split; [cbn; rewrite Hd; cbn; rewrite Hd; cbn; rewrite Hd; cbn; reflexivity|].
  split; [eexists _, _; split; [reflexivity|reflexivity]|]. repeat split.
Qed.
Lemma fill_first O E uuid dst : has_wsa E -> wsa_header dst ->
  exists dst', fill_header O E uuid dst VNone = (dst', Ok tt) /\ wsa_header dst' /\ attribute dst' "MessageID" (VStr uuid) /\ attribute dst' "To" (VStr anonymous) /\
    forall name, In name ["Action"; "ReplyTo"; "RelatesTo"] -> py_get dst' name = py_get dst name.
Proof.
  intros HE (xe & fs & -> & Hfs). apply header_parts in Hfs as (a & i & t & r & l & ->).
  assert (Hd : get_class E "wsa.Header" = Ok cd_wsa_header) by (unfold get_class; rewrite (HE "wsa.Header" cd_wsa_header ltac:(cbn; tauto)); reflexivity).
  unfold fill_header, put. cbn [bind py_set]. rewrite Hd. eexists. split; [cbn; rewrite Hd; cbn; reflexivity|]. split; [eexists _, _; split; reflexivity|].
  repeat split. intros name [<- | [<- | [<- | []]]]; reflexivity.
Qed.
Lemma fill_no_action O E uuid dst src : wsa_header src -> attribute src "Action" VNone -> fill_header O E uuid dst src = (dst, Err TypeError).
Proof. intros (xe & fs & -> & _) Ha. unfold attribute in Ha. unfold fill_header. rewrite Ha. reflexivity. Qed.

(** ** What is sent *)
Lemma made name : In name ["Action"; "MessageID"; "To"; "ReplyTo"; "RelatesTo"; "Address"] -> mk_element (clark ns_wsa name) = Ok (Elem (clark ns_wsa name) [] []).
Proof. intros H. repeat (destruct H as [<- | H]; [vm_compute; reflexivity|]). destruct H. Qed.
Lemma string_block O E rec name tag mn t a k s ns : In name ["Action"; "MessageID"; "To"; "RelatesTo"; "Address"] -> tag = None \/ tag = Some name -> text_good s ->
  render_field O E rec (wsa_elem name string_type tag mn) (Elem t a k) (VStr s) ns (Some qualified) = Ok (Elem t a (k ++ [block name s])).
Proof.
  intros Hn Ht (Hs & Hx). unfold render_field, wsa_elem, render_element. cbn [f_kind f_type f_ns eff_ns].
  assert (Hq : qualify (Some ns_wsa) (Some qualified) (tag_or_name (mkField name KElement string_type tag (Some mn) ONone false VNone (Some ns_wsa))) = clark ns_wsa name).
  { destruct Ht as [-> | ->]; cbn in Hn; repeat (destruct Hn as [<- | Hn]; [vm_compute; reflexivity|]); destruct Hn. }
  rewrite Hq, made by (cbn in *; tauto). cbn [bind render_type string_type render_simple st_xmlvalue set_text_val]. unfold render_simple. cbn [st_xmlvalue bind set_text_val].
  unfold el_set_text. rewrite Hx. reflexivity.
Qed.
Lemma wsa_blocks O U lim n v ci xei fsi di si tag reply action id to related xe x : has_wsa (soap_env U lim) ->
  e_cls (soap_env U lim) ci = Some di -> cd_schema di = Some si -> In "ComplexType" (cd_mro di) ->
  text_good action -> text_good id -> text_good to -> text_good related -> opt_good reply ->
  envelope_response (3 + n) O (soap_env U lim) v tag (VObj ci xei fsi) (written_header reply action id to related xe) = Ok x ->
  exists body, x = soap_envelope (envelope_ns v)
    [Elem (clark (envelope_ns v) "Header") []
       ([block "Action" action; block "MessageID" id; block "To" to] ++ match reply with Some r => [reply_block r] | None => [] end ++ [block "RelatesTo" related])] [body].
Proof.
  intros HE Hci Hsi Hm Ha Hi Ht Hr Hrep H. change (3 + n) with (S (S (S n))) in H. rewrite (response_eq _ _ _ _ _ _ _ _ _ _ _ _ Hci Hsi Hm) in H.
  apply bind_ok in H as (hx & Hh & H). apply bind_ok in H as (b & _ & H). injection H as <-. exists b. f_equal.
  unfold written_header in Hh. cbn [header_nodes] in Hh. apply bind_ok in Hh as (h & Hren & Hh). injection Hh as <-. f_equal.
  rewrite render_obj_S in Hren.
  assert (G : exists mro, get_class (soap_env U lim) (header_cls v) = Ok (mkClass mro CKHeader [] ISequence (Some (env_si v)))) by (destruct v; eexists; reflexivity).
  destruct G as (mro & G). rewrite G in Hren. cbn [bind cd_kind obj_parts fst] in Hren.
  assert (Hd : get_class (soap_env U lim) "wsa.Header" = Ok cd_wsa_header) by (unfold get_class; rewrite (HE "wsa.Header" cd_wsa_header ltac:(cbn; tauto)); reflexivity).
  assert (Hd2 : get_class (soap_env U lim) "wsa.ReplyTo" = Ok cd_reply_to) by (unfold get_class; rewrite (HE "wsa.ReplyTo" cd_reply_to ltac:(cbn; tauto)); reflexivity).
  rewrite Hd in Hren. cbn [bind cd_wsa_header cd_schema wsa_si si_tns] in Hren. cbn [cd_schema env_si si_tns snd cd_fields wsa_fields foldM] in Hren.
  change (cd_fields cd_wsa_header) with wsa_fields in Hren. unfold wsa_fields in Hren. cbn [foldM] in Hren. unfold getattr in Hren.
  change (f_name (wsa_elem "Action" string_type (Some "Action") 1)) with "Action" in Hren. change (f_name (wsa_elem "MessageID" string_type (Some "MessageID") 1)) with "MessageID" in Hren.
  change (f_name (wsa_elem "To" string_type (Some "To") 1)) with "To" in Hren. change (f_name (wsa_elem "ReplyTo" (TComplex "wsa.ReplyTo") (Some "ReplyTo") 0)) with "ReplyTo" in Hren.
  change (f_name (wsa_elem "RelatesTo" string_type None 0)) with "RelatesTo" in Hren.
  cbn [assoc String.eqb Ascii.eqb Bool.eqb bind] in Hren. unfold header_elem in Hren.
  do 3 (rewrite string_block in Hren by (auto; cbn; tauto); cbn [bind] in Hren).
  assert (X : exists y, render_field O (soap_env U lim) (render_obj (S n) O (soap_env U lim)) (wsa_elem "ReplyTo" (TComplex "wsa.ReplyTo") (Some "ReplyTo") 0) (Elem (clark (envelope_ns v) "Header") [] ((([] ++ [block "Action" action]) ++ [block "MessageID" id]) ++ [block "To" to]))
      match reply with Some a => VObj "wsa.ReplyTo" None [("Address", VStr a)] | None => VNone end (Some (envelope_ns v)) (Some qualified) = Ok y /\
      y = Elem (clark (envelope_ns v) "Header") [] ([block "Action" action; block "MessageID" id; block "To" to] ++ match reply with Some r => [reply_block r] | None => [] end)).
  { destruct reply as [r|]; eexists; (split; [|reflexivity]); unfold render_field; change (f_kind (wsa_elem "ReplyTo" (TComplex "wsa.ReplyTo") (Some "ReplyTo") 0)) with KElement; cbv iota; unfold render_element.
    - change (mk_element _) with (mk_element (clark ns_wsa "ReplyTo")). rewrite made by (cbn; tauto). cbn [bind].
      change (f_type (wsa_elem "ReplyTo" (TComplex "wsa.ReplyTo") (Some "ReplyTo") 0)) with (TComplex "wsa.ReplyTo"). cbn [render_type].
      rewrite render_obj_S, Hd2. cbn [bind cd_kind cd_reply_to obj_parts fst snd]. rewrite Hd2. cbn [bind cd_schema cd_reply_to cd_fields foldM].
      unfold getattr. change (f_name (wsa_elem "Address" string_type (Some "Address") 1)) with "Address". cbn [assoc String.eqb Ascii.eqb Bool.eqb bind].
      rewrite string_block by (auto; cbn; tauto). reflexivity.
    - reflexivity. }
  destruct X as (y & Hy & Ey). destruct reply as [r|]; rewrite Hy in Hren; cbn [bind] in Hren; subst y; rewrite string_block in Hren by (auto; cbn; tauto); injection Hren as <-; reflexivity.
Qed.

(** ** Requests and replies *)
Definition blank_header : pyval := VObj "wsa.Header" None [("Action", VNone); ("MessageID", VNone); ("To", VNone); ("ReplyTo", VNone); ("RelatesTo", VNone)].
Lemma blank_made O U lim : has_wsa (soap_env U lim) -> construct O (soap_env U lim) "wsa.Header" [] = Ok blank_header.
Proof.
  intros HE.
  assert (Hd : get_class (soap_env U lim) "wsa.Header" = Ok cd_wsa_header) by (unfold get_class; rewrite (HE "wsa.Header" cd_wsa_header ltac:(cbn; tauto)); reflexivity).
  assert (Hd2 : get_class (soap_env U lim) "wsa.ReplyTo" = Ok cd_reply_to) by (unfold get_class; rewrite (HE "wsa.ReplyTo" cd_reply_to ltac:(cbn; tauto)); reflexivity).
  unfold construct. rewrite Hd. cbn [bind]. unfold new_instance. change (e_limit (soap_env U lim)) with (S (S (8 + lim))). rewrite new_inst_S, Hd. cbn [bind].
  assert (X : new_inst (S (8 + lim)) O (soap_env U lim) "wsa.ReplyTo" = Ok [("Address", VNone)]).
  { rewrite new_inst_S, Hd2. reflexivity. }
  assert (Y : empty_value (S (8 + lim)) O (soap_env U lim) (wsa_elem "ReplyTo" (TComplex "wsa.ReplyTo") (Some "ReplyTo") 0) = Ok VNone).
  { unfold empty_value. cbn [f_kind f_type wsa_elem]. rewrite X. reflexivity. }
  change (cd_fields cd_wsa_header) with wsa_fields. unfold wsa_fields. cbn [foldM]. rewrite Y.
  assert (Z : forall fs, setattr O (soap_env U lim) wsa_fields fs "ReplyTo" VNone = Ok (assoc_set "ReplyTo" VNone fs)).
  { intros fs. change (setattr O (soap_env U lim) wsa_fields fs "ReplyTo" VNone) with (v' <- complex_accept (soap_env U lim) "wsa.ReplyTo" VNone ;; Ok (assoc_set "ReplyTo" v' fs)).
    unfold complex_accept. rewrite Hd2. reflexivity. }
  fold wsa_fields. change (f_name (wsa_elem "ReplyTo" (TComplex "wsa.ReplyTo") (Some "ReplyTo") 0)) with "ReplyTo". cbn [bind]. 
  change (empty_value (S (8 + lim)) O (soap_env U lim) (wsa_elem "Action" string_type (Some "Action") 1)) with (Ok VNone). 
  change (empty_value (S (8 + lim)) O (soap_env U lim) (wsa_elem "MessageID" string_type (Some "MessageID") 1)) with (Ok VNone). 
  change (empty_value (S (8 + lim)) O (soap_env U lim) (wsa_elem "To" string_type (Some "To") 1)) with (Ok VNone). 
  change (empty_value (S (8 + lim)) O (soap_env U lim) (wsa_elem "RelatesTo" string_type None 0)) with (Ok VNone). cbn [bind].
  change (setattr O (soap_env U lim) wsa_fields [] (f_name (wsa_elem "Action" string_type (Some "Action") 1)) VNone) with (Ok [("Action", VNone)]). cbn [bind].
  change (setattr O (soap_env U lim) wsa_fields [("Action", VNone)] (f_name (wsa_elem "MessageID" string_type (Some "MessageID") 1)) VNone) with (Ok [("Action", VNone); ("MessageID", VNone)]). cbn [bind].
  change (setattr O (soap_env U lim) wsa_fields [("Action", VNone); ("MessageID", VNone)] (f_name (wsa_elem "To" string_type (Some "To") 1)) VNone) with (Ok [("Action", VNone); ("MessageID", VNone); ("To", VNone)]). cbn [bind].
  rewrite Z. reflexivity.
Qed.
Lemma wsa_string O E s : text_good s -> rt_typed O E string_type (VStr s).
Proof.
  intros (H1 & H2). constructor. apply everyday_leaf. constructor; auto.
  - split; [|split; [|split; [|split]]]; cbn; try easy.
  - repeat split; cbn; easy.
  - reflexivity.
Qed.
Lemma rt_text O E d xe fs f s : rt_typed O E (TComplex "wsa.Header") (VObj "wsa.Header" xe fs) -> e_cls E "wsa.Header" = Some d -> In f (cd_fields d) -> f_type f = string_type ->
  f_kind f = KElement -> assoc (f_name f) fs = Some (VStr s) -> text_good s.
Proof.
  intros H Hd Hf Ht Hk Ha. inversion H as [|c d' xe' fs' Hd' _ Hall]; subst. rewrite Hd in Hd'. injection Hd' as <-. specialize (Hall f (VStr s) Hf Ha).
  inversion Hall as [| |f' v' _ _ _ Hv | | | |]; subst; try congruence. rewrite Ht in Hv. inversion Hv as [u w Hl|]; subst.
  destruct Hl as (_ & _ & text & Hx & Hne & Hok & _). cbn in Hx. injection Hx as <-. now split.
Qed.
Lemma text_response s : text_good s -> text_good (s ++ "Response").
Proof.
  intros (H1 & H2). split; [destruct s; [now destruct H1|discriminate]|]. unfold xml_text_ok in *. rewrite to_l_app, forallb_app, H2. reflexivity.
Qed.
Lemma wsa_answer {W} P Q (D : dispatcher W) a base op w m f tag parameter header act id uuid :
  soap_platform P -> good_classes P Q -> has_wsa (pf_E P) -> plain D -> callable P Q D a base op m f tag parameter header ->
  server_header (d_service D) m = Some "wsa.Header" -> m_oh m = Some "wsa.Header" ->
  attribute header "Action" (VStr act) -> attribute header "MessageID" (VStr id) -> text_good uuid ->
  exists data rq' reply hout,
    reaches_handler P D (new_request (seen a base (request_headers (sv_version (d_service D)) (m_action m)) data) data) rq' f /\ rq_method rq' = Some m /\
    construct (pf_O P) (pf_E P) "wsa.Header" [] = Ok reply /\ fill_header (pf_O P) (pf_E P) uuid reply (rq_header rq') = (hout, Ok tt) /\
    (forall w' rq2 r out c otag, sv_fns (d_service D) f (w, rq') (rq_body rq') = ((w', rq2), Ok r) -> rq_method rq2 = Some m ->
       rs_body (as_response r) = PVal out -> rs_header (as_response r) = hout ->
       output_element P (d_service D) m otag c -> message_tag otag -> message P Q c out ->
       (forall x, envelope_response (pf_n P) (pf_O P) (pf_E P) (sv_version (d_service D)) otag out hout = Ok x -> transmits P x) ->
       exists out' h', stub_call P (d_service D) (post_through a P D base) w op parameter header = (w', Ok (CReturned out' h')) /\ erase out' = erase out /\
         attribute h' "Action" (VStr (act ++ "Response")) /\ attribute h' "RelatesTo" (VStr id) /\ attribute h' "MessageID" (VStr uuid) /\ attribute h' "To" (VStr anonymous)).
Proof.
  intros HP HQ HE PD C Hsh Hoh Ha Hi Hu.
  destruct (call_works P Q D a base op w m f tag parameter header HP HQ PD C) as (data & rq' & Hreach & Hm & _ & Hrec & Hret & _).
  unfold header_received in Hrec. rewrite Hsh in Hrec.
  assert (Ha' : attribute (rq_header rq') "Action" (VStr act)).
  { destruct (py_get_as header (rq_header rq') "Action" _ (eq_sym Hrec) Ha) as (w1 & H1 & H2). apply erase_str in H2. subst w1. exact H1. }
  assert (Hi' : attribute (rq_header rq') "MessageID" (VStr id)).
  { destruct (py_get_as header (rq_header rq') "MessageID" _ (eq_sym Hrec) Hi) as (w1 & H1 & H2). apply erase_str in H2. subst w1. exact H1. }
  assert (Hblank : construct (pf_O P) (pf_E P) "wsa.Header" [] = Ok blank_header).
  { destruct HP as (U & lim & n & Hpe & _). rewrite Hpe in HE |- *. now apply blank_made. }
  assert (Hwb : wsa_header blank_header) by (eexists _, _; split; reflexivity).
  destruct (fill_reply (pf_O P) (pf_E P) uuid blank_header (rq_header rq') act id HE Hwb Ha' Hi') as (hout & Hfill & (xe & fs & -> & Hfs) & A1 & A2 & A3 & A4 & A5).
  exists data, rq', blank_header, (VObj "wsa.Header" xe fs). split; [exact Hreach|]. split; [exact Hm|]. split; [exact Hblank|]. split; [exact Hfill|].
  intros w' rq2 r out c otag Hf Hm2 Hb Hh Hout Htag Hmsg Hsent.
  pose proof (HE "wsa.Header" cd_wsa_header ltac:(cbn; tauto)) as Hd.
  assert (Hmh : message P Q "wsa.Header" header /\ text_good act /\ text_good id).
  { destruct (ca_header _ _ _ _ _ _ _ _ _ _ _ C) as [-> | (ch & Hmh & Hcls)]; [discriminate Ha|]. rewrite Hsh in Hcls. destruct Hcls as [[= <-] | Hcls]; [|discriminate Hcls].
    split; [exact Hmh|]. destruct Hmh as (_ & _ & Hrt & _). inversion Hrt as [|c' d' xe' fs' Hd' Hn' Hall]; subst header.
    unfold attribute, py_get in Ha, Hi. cbn [obj_parts bind snd] in Ha, Hi. unfold getattr in Ha, Hi.
    split; [apply (rt_text _ _ cd_wsa_header xe' fs' (wsa_elem "Action" string_type (Some "Action") 1) act Hrt Hd) | apply (rt_text _ _ cd_wsa_header xe' fs' (wsa_elem "MessageID" string_type (Some "MessageID") 1) id Hrt Hd)];
      try reflexivity; try (cbn; tauto).
    - cbn [f_name wsa_elem]. destruct (assoc "Action" fs'); [congruence|discriminate Ha].
    - cbn [f_name wsa_elem]. destruct (assoc "MessageID" fs'); [congruence|discriminate Hi]. }
  destruct Hmh as ((HQh & Hcl & Hrt & _) & Hact & Hid).
  apply header_parts in Hfs as (va & vi & vt & vr & vl & ->). unfold attribute in A1, A2, A3, A4. cbn in A1, A2, A3, A4, A5.
  injection A1 as ->. injection A2 as ->. injection A3 as ->. injection A4 as ->. injection A5 as ->.
  assert (Hmr : message P Q "wsa.Header" (VObj "wsa.Header" xe [("Action", VStr (act ++ "Response")); ("MessageID", VStr uuid); ("To", VStr anonymous); ("ReplyTo", VNone); ("RelatesTo", VStr id)])).
  { split; [exact HQh|]. split; [exact Hcl|]. split.
    - apply (rt_obj _ _ _ cd_wsa_header); [exact Hd|reflexivity|]. intros g v Hg Hv. cbn in Hg.
      destruct Hg as [<- | [<- | [<- | [<- | [<- | []]]]]]; cbn in Hv; injection Hv as <-; try (apply rf_val; [reflexivity|discriminate|discriminate|]; apply wsa_string).
      + now apply text_response.
      + exact Hu.
      + split; [discriminate|reflexivity].
      + now apply rf_none.
      + exact Hid.
    - destruct HP as (U & lim & n & _ & ->). cbn. lia. }
  destruct (Hret w' rq2 r out _ Hf Hm2 Hb Hh) as (out' & hout' & Hcall & Ho & Hho).
  { split; [now exists c, otag|right; exists "wsa.Header"; split; [exact Hmr|now left]|].
    intros t x Ht Hx. destruct Hout as (Hout & _). rewrite Hout in Ht. injection Ht as <-. now apply Hsent. }
  exists out', hout'. split; [exact Hcall|]. split; [exact Ho|]. unfold header_received in Hho. rewrite Hoh in Hho.
  assert (X : forall name s, py_get (VObj "wsa.Header" xe [("Action", VStr (act ++ "Response")); ("MessageID", VStr uuid); ("To", VStr anonymous); ("ReplyTo", VNone); ("RelatesTo", VStr id)]) name = Ok (VStr s) ->
    attribute hout' name (VStr s)).
  { intros name s Hs. destruct (py_get_as _ hout' name _ (eq_sym Hho) Hs) as (w1 & H1 & H2). apply erase_str in H2. subst w1. exact H1. }
  repeat split; apply X; reflexivity.
Qed.
Lemma use_wsa_fails input_header output_header : input_header = None \/ output_header = None -> service_headers true input_header output_header = Err AttributeError.
Proof. intros [-> | ->]; [reflexivity|]. destruct input_header; reflexivity. Qed.
