(** Proofs about calls with header blocks between generated clients and servers (C92). *)
From Coq Require Import String Ascii List ZArith NArith Bool Lia.
From Verif Require Import PyBase PfBase Xml PyVal XsdSimple XsdComplex XsdMeta XsdSchema PyHttp Soap Dispatch Client LibClasses Wsdl2Py PyLoad PyService PyInterop
  SpecMeta SpecParse SpecRound SpecSoap SpecDispatch SpecHttp SpecClient SpecGenCode SpecUrl SpecService SpecInterop SpecHeaders PfClient3 PfService PfService2 PfService3 PfService4
  PfService5 PfInterop PfHeaders PfHeaders2 PfHeaders3.
Import ListNotations.
Open Scope nat_scope.
Open Scope string_scope.
Open Scope list_scope.

(** ** The Method for an operation *)
Lemma first_placed {A B K} (key : A -> K) (key' : B -> K) (R : A -> B -> Prop) ops ms o :
  (forall o m, R o m -> key' m = key o) -> Forall2 R ops ms -> NoDup ops -> In o ops -> (forall o', In o' ops -> key o' = key o -> o' = o) ->
  exists m, R o m /\ first_with (fun m' => key' m' = key o) ms m.
Proof.
  intros Hk F. induction F as [|x m ops ms H F IH]; intros N I U; [contradiction|]. inversion N as [|? ? Na Nl]; subst.
  destruct I as [->|I].
  - exists m. split; [exact H|]. exists [], ms. split; [reflexivity|]. split; [now apply Hk|]. intros b [].
  - destruct (IH Nl I) as (m' & R' & (l1 & l2 & -> & E & L)); [intros o' J; apply U; now right|]. exists m'. split; [exact R'|].
    exists (m :: l1), l2. split; [reflexivity|]. split; [exact E|]. intros b [<-|J]; [|now apply L].
    rewrite (Hk _ _ H). intros Eq. rewrite (U x (or_introl eq_refl) Eq) in Na. contradiction.
Qed.
Lemma first_get l op m : first_with (fun m => m_op m = op) l m -> get_method l op = Ok m.
Proof.
  intros (l1 & l2 & -> & E & L). unfold get_method. induction l1 as [|x l1 IH]; cbn [app find].
  - now rewrite E, String.eqb_refl.
  - destruct (String.eqb_spec (m_op x) op) as [Ex|Ex]; [elim (L x); [now left|exact Ex]|]. apply IH. intros b J. apply L. now right.
Qed.

Definition fits (server : bool) (o : hop) (m : method) : Prop :=
  m_op m = op_name (ho_op o) /\ m_action m = action_text (ho_op o) /\ m_in m = IOName (pp_element (op_in (ho_op o))) /\
  m_out m = out_spec (op_out (ho_op o)) /\ m_fn m = if server then Some (op_name (ho_op o)) else None.
Lemma good_fits schemas els server w cls o m : good_method schemas els server w o m -> fits server o (as_method cls m).
Proof. intros (ih & oh & -> & _). unfold fits. cbn. destruct server; auto. Qed.

Lemma fits_place server ops ms o x y p q : NoDup (map (fun o => op_name (ho_op o)) ops) -> Forall2 (fits server) ops ms ->
  fits server o x -> fits server o y -> first_with p ms x -> first_with q ms y -> x = y.
Proof.
  intros Nd F Fx Fy (l1 & l2 & E1 & _) (k1 & k2 & E2 & _).
  assert (Ix : In x ms) by (rewrite E1; apply in_or_app; right; now left). assert (Iy : In y ms) by (rewrite E2; apply in_or_app; right; now left).
  assert (E : m_op x = m_op y) by (rewrite (proj1 Fx); symmetry; apply Fy). clear E1 E2 Fx Fy. induction F as [|o' m l l' H F IH]; [contradiction|].
  cbn [map] in Nd. inversion Nd as [|? ? Na Nl]; subst.
  assert (Z : forall z, In z l' -> m_op z <> m_op m).
  { intros z Iz Ez. apply Na. rewrite <- (proj1 H), <- Ez. clear - F Iz. induction F as [|o2 m2 l l' H2 F IH]; [contradiction|]. cbn [map].
    destruct Iz as [<-|Iz]; [left; symmetry; apply H2|right; now apply IH]. }
  destruct Ix as [<-|Ix], Iy as [<-|Iy]; auto.
  - now elim (Z y Iy).
  - now elim (Z x Ix).
Qed.

(** ** The call *)
Lemma hgenerated_call {W} (P : platform) Q (D : dispatcher W) (C : service W) a env v p numbers o mc ms w parameter header :
  usable_port (bare p) -> In o (hp_ops p) -> soap_platform P -> good_classes P Q -> plain D ->
  sv_version (d_service D) = v -> sv_schemas (d_service D) = numbers -> sv_ih (d_service D) = None ->
  Forall2 (fits true) (hp_ops p) (sv_methods (d_service D)) ->
  sv_version C = v -> sv_schemas C = numbers -> Forall2 (fits false) (hp_ops p) (sv_methods C) ->
  get_method (sv_methods C) (op_name (ho_op o)) = Ok mc -> get_method (sv_methods (d_service D)) (op_name (ho_op o)) = Ok ms -> m_oh mc = m_oh ms ->
  (forall o', In o' (hp_ops p) -> op_action (ho_op o') <> None) ->
  distinguished a v env (bare p) (ho_op o) ->
  sendable P Q numbers (pp_element (op_in (ho_op o))) parameter ->
  header_for P Q (m_ih ms) header ->
  (forall x, envelope_response (pf_n P) (pf_O P) (pf_E P) v (pp_element (op_in (ho_op o))) parameter header = Ok x -> transmits P x /\ Forall (accepted P) (blocks x)) ->
  let call := stub_call P C (post_through a P D env) w (op_name (ho_op o)) parameter header in
  exists act data rq', op_action (ho_op o) = Some act /\
    reaches_handler P D (new_request (seen a env (request_headers v act) data) data) rq' (op_name (ho_op o)) /\
    erase (rq_body rq') = erase parameter /\ header_received (m_ih ms) header (rq_header rq') /\
    (forall w' rq2 r out hout po, sv_fns (d_service D) (op_name (ho_op o)) (w, rq') (rq_body rq') = ((w', rq2), Ok r) -> rq_method rq2 = rq_method rq' ->
       rs_body (as_response r) = PVal out -> rs_header (as_response r) = hout ->
       op_out (ho_op o) = Some po -> sendable P Q numbers (pp_element po) out -> header_for P Q (m_oh ms) hout ->
       (forall x, envelope_response (pf_n P) (pf_O P) (pf_E P) v (pp_element po) out hout = Ok x -> transmits P x) ->
       exists out' hout', call = (w', Ok (CReturned out' hout')) /\ erase out' = erase out /\ header_received (m_oh ms) hout hout') /\
    (forall w' rq2 code msg actor, sv_fns (d_service D) (op_name (ho_op o)) (w, rq') (rq_body rq') = ((w', rq2), Err (SOAPError code msg actor)) ->
       text_good code -> text_good msg ->
       (forall x, error_response (pf_n P) (pf_O P) (pf_E P) v code msg VNone None = Ok x -> transmits P x) ->
       call = (w', Ok (CRaised (VStr code) (VStr msg) VNone))).
Proof.
  intros (_ & _ & _ & _ & Uo & Nd) I SP GC PD Ev Es Ei Fs Cv Cs Fc Gc Gs Eoh Ha Hd (c & (e & Fe & Te) & Mp & Mt) Hh Hs call.
  cbn [bare po_ops] in Uo, Nd. rewrite map_map in Nd.
  destruct (op_action (ho_op o)) as [act|] eqn:Ea; [|now elim (Ha o I)].
  assert (No : NoDup (hp_ops p)) by (eapply NoDup_map_inv; exact Nd).
  assert (Un : forall o', In o' (hp_ops p) -> op_name (ho_op o') = op_name (ho_op o) -> o' = o).
  { clear - Nd I. intros o' J E. revert o o' I J E. induction (hp_ops p) as [|x l IH]; intros o o' I J E; [contradiction|]. cbn [map] in Nd.
    inversion Nd as [|? ? Na Nl]; subst. destruct I as [<-|I], J as [<-|J]; auto.
    - elim Na. rewrite <- E. now apply (in_map (fun o => op_name (ho_op o))).
    - elim Na. rewrite E. now apply (in_map (fun o => op_name (ho_op o))). }
  assert (Uop : forall o', In o' (hp_ops p) -> ho_op o' = ho_op o -> o' = o) by (intros o' J E; apply Un; [exact J|now rewrite E]).
  destruct (first_placed (fun o => op_name (ho_op o)) m_op (fits true) (hp_ops p) _ o (fun _ _ H => proj1 H) Fs No I Un) as (ms' & Fm & Fi).
  rewrite (first_get _ _ _ Fi) in Gs. injection Gs as ->.
  destruct (first_placed (fun o => op_name (ho_op o)) m_op (fits false) (hp_ops p) _ o (fun _ _ H => proj1 H) Fc No I Un) as (mc' & Fmc & Fic).
  rewrite (first_get _ _ _ Fic) in Gc. injection Gc as ->.
  assert (Act : forall o', In o' (hp_ops p) -> op_action (ho_op o') = Some (action_text (ho_op o'))).
  { intros o' J. unfold action_text. destruct (op_action (ho_op o')) eqn:E; [reflexivity|]. now elim (Ha o' J). }
  pose proof Fm as (Mo & Ma & Mi & Mout & Mf).
  assert (Ma' : m_action ms = act) by (rewrite Ma; unfold action_text; now rewrite Ea).
  assert (By : (exists act0, Some act = Some act0 /\ act0 <> "" /\ ~ char_in quote_c act0 /\ (v = V12 -> ~ double_backslash act0) /\
                 forall o', In o' (map ho_op (hp_ops p)) -> op_action o' = Some act0 -> o' = ho_op o) ->
               (act <> "" /\ ~ char_in quote_c act /\ first_with (fun m' => m_action m' = act) (sv_methods (d_service D)) ms) /\
               (v = V12 -> ~ double_backslash act)).
  { intros (act0 & [= <-] & A1 & A2 & A3 & A4). split; [|exact A3]. split; [exact A1|]. split; [exact A2|].
    assert (Eo : action_text (ho_op o) = act) by (unfold action_text; now rewrite Ea).
    assert (Ua : forall o', In o' (hp_ops p) -> action_text (ho_op o') = action_text (ho_op o) -> o' = o).
    { intros o' J E. apply Uop; [exact J|]. apply A4; [now apply in_map|]. rewrite (Act o' J), E. now rewrite Eo. }
    destruct (first_placed (fun o => action_text (ho_op o)) m_action (fits true) (hp_ops p) _ o (fun _ _ H => proj1 (proj2 H)) Fs No I Ua) as (m2 & F2 & Fi2).
    rewrite Eo in Fi2. replace ms with m2; [exact Fi2|]. exact (fits_place true _ _ o m2 ms _ _ Nd Fs F2 Fm Fi2 Fi). }
  assert (C0 : callable P Q D a env (op_name (ho_op o)) ms (op_name (ho_op o)) (pp_element (op_in (ho_op o))) parameter header).
  { constructor.
    - exact Fi.
    - exact Mf.
    - left. exact Mi.
    - exact Mt.
    - exists c. split; [|exact Mp]. right. exists (pp_element (op_in (ho_op o))), e. split; [exact Mi|]. split; [exact Te|]. now rewrite Es.
    - unfold server_header. rewrite Ei. destruct (m_ih ms); exact Hh.
    - rewrite Ev. exact Hs.
    - unfold routable. rewrite Ev, Ma'. unfold distinguished in Hd. rewrite Ea in Hd. cbn [bare po_ops] in Hd. destruct v.
      + assert (Xe : (forall o', In o' (map ho_op (hp_ops p)) -> pp_element (op_in o') = pp_element (op_in (ho_op o)) -> o' = ho_op o) ->
                 first_with (fun m' => m_in m' = IOName (pp_element (op_in (ho_op o)))) (sv_methods (d_service D)) ms).
        { intros X. assert (Ue : forall o', In o' (hp_ops p) -> IOName (pp_element (op_in (ho_op o'))) = IOName (pp_element (op_in (ho_op o))) -> o' = o).
          { intros o' J [= E]. apply Uop; [exact J|]. apply X; [now apply in_map|exact E]. }
          destruct (first_placed (fun o => IOName (pp_element (op_in (ho_op o)))) m_in (fits true) (hp_ops p) _ o (fun _ _ H => proj1 (proj2 (proj2 H))) Fs No I Ue) as (m2 & F2 & Fi2).
          replace ms with m2; [exact Fi2|]. exact (fits_place true _ _ o m2 ms _ _ Nd Fs F2 Fm Fi2 Fi). }
        destruct a.
        * destruct Hd as (X & Ce). split; [exact Ce|now apply Xe].
        * destruct Hd as (X & Ce). split; [now apply By|exact Ce].
        * destruct Hd as (X & Ce). split; [exact Ce|now apply Xe].
      + destruct (By Hd) as (X1 & X2). split; [exact X1|now apply X2]. }
  destruct (call_works P Q D a env (op_name (ho_op o)) w ms (op_name (ho_op o)) (pp_element (op_in (ho_op o))) parameter header SP GC PD C0)
    as (data & rq' & R & Rm & Rb & Rh & Ret & Flt).
  exists act, data, rq'. split; [reflexivity|]. split; [rewrite Ev, Ma' in R; exact R|]. split; [exact Rb|].
  split. { unfold server_header in Rh. rewrite Ei in Rh. destruct (m_ih ms); exact Rh. }
  assert (Sc : call = stub_call P (d_service D) (post_through a P D env) w (op_name (ho_op o)) parameter header).
  { unfold call, stub_call. rewrite (first_get _ _ _ Fic), (first_get _ _ _ Fi).
    destruct Fmc as (C1 & C2 & C3 & C4 & _). assert (Q1 : stub_request P C mc parameter header = stub_request P (d_service D) ms parameter header).
    { unfold stub_request, request_tag. rewrite Cv, Ev, C2, Ma, C3, Mi. reflexivity. }
    rewrite Q1. destruct (stub_request P (d_service D) ms parameter header) as [[hs dt]|]; [|reflexivity].
    destruct (post_through a P D env w hs dt) as [w' [content|]]; [|reflexivity]. f_equal.
    unfold handle_response, output_type. rewrite Cv, Ev, Cs, Es, C4, Mout, Eoh. reflexivity. }
  split.
  - intros w' rq2 r out hout po Hf Hm Hb Hhd Eo (c2 & (e2 & F2 & T2) & M2 & Mt2) Hho Tr.
    destruct (Ret w' rq2 r out hout Hf) as (out' & hout' & St & Eout & Hr); [now rewrite Hm|exact Hb|exact Hhd| |].
    + constructor.
      * exists c2, (pp_element po). split; [|split; assumption]. split; [rewrite Mout, Eo; reflexivity|]. exists e2. split; [now rewrite Es|exact T2].
      * exact Hho.
      * intros tag x Et. rewrite Mout, Eo in Et. injection Et as <-. rewrite Ev. apply Tr.
    + exists out', hout'. split; [|split; [exact Eout|exact Hr]]. rewrite Sc. exact St.
  - intros w' rq2 code msg actor Hf G1 G2 Tr. rewrite Sc. apply (Flt w' rq2 (Err (SOAPError code msg actor)) code msg actor VNone Hf).
    + left. now split.
    + exact G1.
    + exact G2.
    + now left.
    + rewrite Ev. exact Tr.
Qed.

(** ** The document *)
Lemma himported n O L md5 checked rt base server root d tns schemas els plan st st' :
  parse_obj n O L (wn (version_from_xml root) "Definitions") root = Ok d ->
  states_hdocument d tns schemas plan -> quotable tns -> (forall s, In s schemas -> hex5 (md5 (sp_tns s))) ->
  schemas_bound md5 st (map sp_tns schemas) els -> reached (st_world st) -> plain_base (st_world st) base -> elements_there (st_world st) els ->
  Forall (fun p => usable_port (bare p) /\ Forall (usable_hop schemas els) (hp_ops p)) (soap_hports plan) ->
  (server = false -> Forall (fun p => Forall client_op (map ho_op (hp_ops p))) (soap_hports plan)) ->
  (server = true -> Forall (fun p => Forall (fun o => server_op (ho_op o) /\ server_hop o) (hp_ops p)) (soap_hports plan) /\ hsoap_first plan) ->
  NoDup (map hp_name (soap_hports plan)) -> imported n O L md5 checked rt base server root st st' ->
  forall p, In p (soap_hports plan) -> port_at schemas els server (version_from_xml root) tns st' p.
Proof.
  intros Ep Hd Ht Hh Hb Hr Hp He Hu Hc Hs Hn (code & Ec & Er) p I. set (v := version_from_xml root) in *.
  assert (Hu' : Forall (ok_port schemas els server (now_named (st_world st) schemas els plan)) (soap_hports plan)).
  { apply Forall_forall. intros q Iq. rewrite Forall_forall in Hu. destruct (Hu q Iq) as (A & B). split; [exact A|].
    split; [apply Forall_forall; intros o Io; rewrite Forall_forall in B; split; [now apply B|eapply plan_follows; eauto]|]. split.
    - apply Forall_forall. intros o Io E. destruct (Hs E) as (X & _). rewrite Forall_forall in X. specialize (X q Iq). rewrite Forall_forall in X. now apply X.
    - intros E. specialize (Hc E). rewrite Forall_forall in Hc. now apply Hc. }
  destruct (exec_hports rt base md5 schemas els server (now_named (st_world st) schemas els plan) Hh v tns Ht (soap_hports plan) st) as (st2 & E & _ & _ & F & _);
    [now apply ready_okst|exact Hu'|exact Hn|].
  unfold code_from_wsdl in Ec. fold v in Ec. rewrite Ep in Ec. cbn [bind] in Ec.
  rewrite (hdocument_code md5 checked server v d tns schemas els plan Hd _ Hu' (fun E => proj2 (Hs E))) in Ec. injection Ec as <-.
  unfold exec_service in Er. rewrite E in Er. injection Er as <-. rewrite Forall_forall in F. now apply F.
Qed.
Lemma method_of_get {W} s numbers cls (fns : string -> handler W) name m : method_of s name = Some m ->
  get_method (sv_methods (as_service s numbers cls fns)) name = Ok (as_method cls m).
Proof.
  unfold method_of, get_method. cbn [as_service sv_methods]. induction (gv_methods s) as [|x l IH]; cbn [find map]; [discriminate|].
  cbn [as_method m_op]. destruct (String.eqb (gm_op x) name); [intros [= ->]; reflexivity|exact IH].
Qed.

Lemma hinterop :
  forall n O L md5 checked rt base root d tns schemas elsc elss plan stc sts stc' sts' p,
  parse_obj n O L (wn (version_from_xml root) "Definitions") root = Ok d ->
  states_hdocument d tns schemas plan -> quotable tns -> (forall s, In s schemas -> hex5 (md5 (sp_tns s))) ->
  schemas_bound md5 stc (map sp_tns schemas) elsc -> reached (st_world stc) -> plain_base (st_world stc) base -> elements_there (st_world stc) elsc ->
  schemas_bound md5 sts (map sp_tns schemas) elss -> reached (st_world sts) -> plain_base (st_world sts) base -> elements_there (st_world sts) elss ->
  Forall (fun p => usable_port (bare p) /\ Forall (usable_hop schemas elsc) (hp_ops p)) (soap_hports plan) ->
  Forall (fun p => usable_port (bare p) /\ Forall (usable_hop schemas elss) (hp_ops p)) (soap_hports plan) ->
  Forall (fun p => Forall client_op (map ho_op (hp_ops p))) (soap_hports plan) ->
  Forall (fun p => Forall (fun o => server_op (ho_op o) /\ server_hop o) (hp_ops p)) (soap_hports plan) -> hsoap_first plan ->
  NoDup (map hp_name (soap_hports plan)) ->
  imported n O L md5 checked rt base false root stc stc' -> imported n O L md5 checked rt base true root sts sts' -> In p (soap_hports plan) ->
  let v := version_from_xml root in
  exists sc t ss, holds_hservice stc' v tns schemas elsc p sc /\ holds_stub stc' (bare p) t /\ gt_service t = sc /\ holds_hservice sts' v tns schemas elss p ss /\
  forall o, In o (hp_ops p) -> exists mc ms, method_of sc (op_name (ho_op o)) = Some mc /\ method_with (st_world stc') schemas elsc o mc /\
    method_of ss (op_name (ho_op o)) = Some ms /\ method_with (st_world sts') schemas elss o ms /\
  forall (W : Type) P Q (D : dispatcher W) a env numbers clsc clss fns (fns' : string -> handler W) w parameter header,
  soap_platform P -> good_classes P Q -> plain D -> d_service D = as_service ss numbers clss fns ->
  option_map clsc (gm_oh mc) = option_map clss (gm_oh ms) ->
  (forall o', In o' (hp_ops p) -> op_action (ho_op o') <> None) -> distinguished a v env (bare p) (ho_op o) ->
  sendable P Q numbers (pp_element (op_in (ho_op o))) parameter -> header_for P Q (option_map clss (gm_ih ms)) header ->
  (forall x, envelope_response (pf_n P) (pf_O P) (pf_E P) v (pp_element (op_in (ho_op o))) parameter header = Ok x ->
     transmits P x /\ Forall (accepted P) (blocks x)) ->
  let call := stub_call P (as_service sc numbers clsc fns') (post_through a P D env) w (op_name (ho_op o)) parameter header in
  exists act data rq', op_action (ho_op o) = Some act /\
    reaches_handler P D (new_request (seen a env (request_headers v act) data) data) rq' (op_name (ho_op o)) /\
    erase (rq_body rq') = erase parameter /\ header_received (option_map clss (gm_ih ms)) header (rq_header rq') /\
    (forall w' rq2 r out hout po, fns (op_name (ho_op o)) (w, rq') (rq_body rq') = ((w', rq2), Ok r) -> rq_method rq2 = rq_method rq' ->
       rs_body (as_response r) = PVal out -> rs_header (as_response r) = hout ->
       op_out (ho_op o) = Some po -> sendable P Q numbers (pp_element po) out -> header_for P Q (option_map clss (gm_oh ms)) hout ->
       (forall x, envelope_response (pf_n P) (pf_O P) (pf_E P) v (pp_element po) out hout = Ok x -> transmits P x) ->
       exists out' hout', call = (w', Ok (CReturned out' hout')) /\ erase out' = erase out /\ header_received (option_map clsc (gm_oh mc)) hout hout') /\
    (forall w' rq2 code msg actor, fns (op_name (ho_op o)) (w, rq') (rq_body rq') = ((w', rq2), Err (SOAPError code msg actor)) ->
       text_good code -> text_good msg ->
       (forall x, error_response (pf_n P) (pf_O P) (pf_E P) v code msg VNone None = Ok x -> transmits P x) ->
       call = (w', Ok (CRaised (VStr code) (VStr msg) VNone))).
Proof.
  intros n O L md5 checked rt base root d tns schemas elsc elss plan stc sts stc' sts' p Ep Hd Ht Hh Hbc Rc Pc Ec Hbs Rs Ps Es Huc Hus Hcl Hsv Hf Hn Ic Is I v.
  destruct (himported n O L md5 checked rt base false root d tns schemas elsc plan stc stc' Ep Hd Ht Hh Hbc Rc Pc Ec Huc (fun _ => Hcl)) with (p := p) as (msc & Ac & Bc & Gc);
    [discriminate|exact Hn|exact Ic|exact I|]. fold v in Ac, Bc.
  destruct (himported n O L md5 checked rt base true root d tns schemas elss plan sts sts' Ep Hd Ht Hh Hbs Rs Ps Es Hus) with (p := p) as (mss & As & Bs & Gs);
    [discriminate|intros _; now split|exact Hn|exact Is|exact I|]. fold v in As, Bs.
  rewrite Forall_forall in Huc. destruct (Huc p I) as (U & _). pose proof U as (_ & _ & _ & _ & _ & Nd). cbn [bare po_ops] in Nd.
  exists (hservice_of elsc v tns p msc), (hstub_of elsc v tns p msc), (hservice_of elss v tns p mss).
  split. { split; [exact Ac|]. repeat (split; [reflexivity|]). cbn [hservice_of gv_methods]. clear - Gc. induction Gc; constructor; [now apply (good_method_with _ _ _ false)|assumption]. }
  split; [now apply Bc|]. split; [reflexivity|].
  split. { split; [exact As|]. repeat (split; [reflexivity|]). cbn [hservice_of gv_methods]. clear - Gs. induction Gs; constructor; [now apply (good_method_with _ _ _ true)|assumption]. }
  intros o J. destruct (good_method_of _ _ _ _ _ _ o Nd Gc J) as (mc & Emc & Gmc). destruct (good_method_of _ _ _ _ _ _ o Nd Gs J) as (ms & Ems & Gms).
  exists mc, ms. split; [exact Emc|]. split; [now apply (good_method_with _ _ _ false)|]. split; [exact Ems|]. split; [now apply (good_method_with _ _ _ true)|].
  intros W P Q D a env numbers clsc clss fns fns' w parameter header SP GC PD ED Eoh Ha Hdi Sp Hhd Sn call.
  assert (Em : sv_methods (d_service D) = map (as_method clss) mss) by (rewrite ED; reflexivity).
  destruct (hgenerated_call P Q D (as_service (hservice_of elsc v tns p msc) numbers clsc fns') a env v p numbers o (as_method clsc mc) (as_method clss ms) w parameter header)
    as (act & data & rq' & R); try assumption; try reflexivity.
  - now rewrite ED.
  - now rewrite ED.
  - now rewrite ED.
  - rewrite Em. clear - Gs. induction Gs; constructor; [eapply good_fits; eauto|assumption].
  - cbn [as_service sv_methods hservice_of gv_methods]. clear - Gc. induction Gc; constructor; [eapply good_fits; eauto|assumption].
  - now apply method_of_get.
  - rewrite ED. now apply method_of_get.
  - exists act, data, rq'. assert (Ef : sv_fns (d_service D) = fns) by now rewrite ED. rewrite Ef in R. cbn [as_method m_ih m_oh] in R. rewrite Eoh. exact R.
Qed.
