(** Proofs about calls between generated clients and servers (C75). *)
From Coq Require Import String Ascii List ZArith NArith Bool Lia.
From Verif Require Import PyBase PfBase Xml PyVal XsdSimple XsdComplex XsdSchema PyHttp Soap Dispatch Client LibClasses Wsdl2Py PyLoad PyService PyInterop
  SpecParse SpecRound SpecSoap SpecDispatch SpecHttp SpecClient SpecUrl SpecService SpecInterop PfClient3 PfService PfService2 PfService3 PfService4 PfService5.
Import ListNotations.
Open Scope nat_scope.
Open Scope string_scope.
Open Scope list_scope.

Definition live (cls : nat -> string) (server : bool) (o : op_plan) : method := as_method cls (plan_method server o).

Lemma first_mapped {K} (key : op_plan -> K) (key' : method -> K) (f : op_plan -> method) ops o : NoDup ops -> In o ops ->
  (forall o, key' (f o) = key o) -> (forall o', In o' ops -> key o' = key o -> o' = o) ->
  first_with (fun m => key' m = key o) (map f ops) (f o).
Proof.
  intros N I E U. destruct (in_split _ _ I) as (l1 & l2 & ->). exists (map f l1), (map f l2). split; [now rewrite map_app|]. split; [apply E|].
  intros b J. apply in_map_iff in J. destruct J as (o' & <- & J). rewrite E. intros Eq. rewrite (U o') in J; [|apply in_or_app; now left|exact Eq].
  apply NoDup_remove_2 in N. apply N, in_or_app. now left.
Qed.
Lemma nodup_of_names ops : NoDup (map op_name ops) -> NoDup ops.
Proof. apply NoDup_map_inv. Qed.
Lemma same_name ops o o' : NoDup (map op_name ops) -> In o ops -> In o' ops -> op_name o' = op_name o -> o' = o.
Proof.
  intros N. revert o o'. induction ops as [|a l IH]; intros o o' I J E; [contradiction|].
  inversion N as [|? ? Na Nl]; subst. destruct I as [<-|I], J as [<-|J]; auto.
  - elim Na. rewrite <- E. now apply in_map.
  - elim Na. rewrite E. now apply in_map.
Qed.

Lemma live_method cls server ops o : NoDup (map op_name ops) -> In o ops -> get_method (map (live cls server) ops) (op_name o) = Ok (live cls server o).
Proof.
  intros N I. unfold get_method. induction ops as [|a l IH]; [contradiction|]. inversion N as [|? ? Na Nl]; subst. cbn [map find].
  change (m_op (live cls server a)) with (op_name a). destruct I as [->|I]; [now rewrite String.eqb_refl|].
  destruct (String.eqb_spec (op_name a) (op_name o)) as [E|E]; [elim Na; rewrite E; now apply in_map|]. now apply IH.
Qed.
Lemma methods_live {W} server v tns els p numbers cls (fns : string -> handler W) :
  sv_methods (as_service (plan_service server v tns els p) numbers cls fns) = map (live cls server) (po_ops p).
Proof. cbn [as_service sv_methods plan_service gv_methods]. now rewrite map_map. Qed.

(** The client calls as the server's own stub would. *)
Lemma same_call {W T} (P : platform) v tns els els' p numbers cls (fns fns' : string -> handler W) (post : transport T) w o parameter header :
  NoDup (map op_name (po_ops p)) -> In o (po_ops p) ->
  stub_call P (as_service (plan_service false v tns els p) numbers cls fns) post w (op_name o) parameter header =
  stub_call P (as_service (plan_service true v tns els' p) numbers cls fns') post w (op_name o) parameter header.
Proof.
  intros N I. unfold stub_call. rewrite !methods_live, !live_method by assumption. reflexivity.
Qed.

Lemma generated_call {W} (P : platform) Q (D : dispatcher W) a env v tns els els' p numbers cls fns (fns' : string -> handler W) o w parameter header :
  usable_port p -> In o (po_ops p) -> soap_platform P -> good_classes P Q -> plain D ->
  d_service D = as_service (plan_service true v tns els p) numbers cls fns ->
  (forall o', In o' (po_ops p) -> op_action o' <> None) ->
  distinguished a v env p o ->
  sendable P Q numbers (pp_element (op_in o)) parameter ->
  (header = VNone \/ exists c, message P Q c header) ->
  (forall x, envelope_response (pf_n P) (pf_O P) (pf_E P) v (pp_element (op_in o)) parameter header = Ok x -> transmits P x /\ Forall (accepted P) (blocks x)) ->
  exists act data rq', op_action o = Some act /\
    reaches_handler P D (new_request (seen a env (request_headers v act) data) data) rq' (op_name o) /\
    erase (rq_body rq') = erase parameter /\ rq_header rq' = VNone /\
    (forall w' rq2 r out po, fns (op_name o) (w, rq') (rq_body rq') = ((w', rq2), Ok r) -> rq_method rq2 = rq_method rq' ->
       rs_body (as_response r) = PVal out -> rs_header (as_response r) = VNone ->
       op_out o = Some po -> sendable P Q numbers (pp_element po) out ->
       (forall x, envelope_response (pf_n P) (pf_O P) (pf_E P) v (pp_element po) out VNone = Ok x -> transmits P x) ->
       exists out', stub_call P (as_service (plan_service false v tns els' p) numbers cls fns') (post_through a P D env) w (op_name o) parameter header =
           (w', Ok (CReturned out' VNone)) /\ erase out' = erase out) /\
    (forall w' rq2 code msg actor, fns (op_name o) (w, rq') (rq_body rq') = ((w', rq2), Err (SOAPError code msg actor)) ->
       text_good code -> text_good msg ->
       (forall x, error_response (pf_n P) (pf_O P) (pf_E P) v code msg VNone None = Ok x -> transmits P x) ->
       stub_call P (as_service (plan_service false v tns els' p) numbers cls fns') (post_through a P D env) w (op_name o) parameter header =
         (w', Ok (CRaised (VStr code) (VStr msg) VNone))).
Proof.
  intros (_ & _ & _ & _ & Uo & Nd) I SP GC PD ED Ha Hd (c & (e & Fe & Te) & Mp & Mt) Hh Hs.
  destruct (op_action o) as [act|] eqn:Ea; [|now elim (Ha o I)].
  assert (Em : sv_methods (d_service D) = map (live cls true) (po_ops p)) by (rewrite ED; apply methods_live).
  assert (Ev : sv_version (d_service D) = v) by now rewrite ED.
  assert (Es : sv_schemas (d_service D) = numbers) by now rewrite ED.
  assert (Ei : sv_ih (d_service D) = None) by now rewrite ED.
  pose proof (nodup_of_names _ Nd) as No.
  assert (Act : forall o', In o' (po_ops p) -> op_action o' = Some (action_text o')).
  { intros o' J. unfold action_text. destruct (op_action o') eqn:E; [reflexivity|]. now elim (Ha o' J). }
  assert (Ma : m_action (live cls true o) = act) by (cbn; unfold action_text; now rewrite Ea).
  assert (By : (exists act0, Some act = Some act0 /\ act0 <> "" /\ ~ char_in quote_c act0 /\ (v = V12 -> ~ double_backslash act0) /\
                 forall o', In o' (po_ops p) -> op_action o' = Some act0 -> o' = o) ->
               (act <> "" /\ ~ char_in quote_c act /\ first_with (fun m' => m_action m' = act) (map (live cls true) (po_ops p)) (live cls true o)) /\
               (v = V12 -> ~ double_backslash act)).
  { intros (act0 & [= <-] & A1 & A2 & A3 & A4). split; [|exact A3]. split; [exact A1|]. split; [exact A2|].
    assert (X := first_mapped action_text m_action (live cls true) (po_ops p) o No I (fun _ => eq_refl)).
    assert (Eo : action_text o = act) by (unfold action_text; now rewrite Ea). rewrite Eo in X. apply X.
    intros o' J E. apply A4; [exact J|]. now rewrite (Act o' J), E. }
  assert (C : callable P Q D a env (op_name o) (live cls true o) (op_name o) (pp_element (op_in o)) parameter header).
  { constructor.
    - rewrite Em. apply (first_mapped op_name m_op); [exact No|exact I|reflexivity|]. intros o' J E. eapply same_name; eauto.
    - reflexivity.
    - left. reflexivity.
    - exact Mt.
    - exists c. split; [|exact Mp]. right. exists (pp_element (op_in o)), e. split; [reflexivity|]. split; [exact Te|]. now rewrite Es.
    - unfold server_header. cbn [live as_method plan_method m_ih gm_ih option_map]. rewrite Ei. destruct Hh as [-> | (c' & M)]; [now left|]. right. exists c'. split; [exact M|now right].
    - rewrite Ev. exact Hs.
    - unfold routable. rewrite Ev, Em, Ma. unfold distinguished in Hd. rewrite Ea in Hd. destruct v.
      + assert (Xe : (forall o', In o' (po_ops p) -> pp_element (op_in o') = pp_element (op_in o) -> o' = o) ->
                 first_with (fun m' => m_in m' = IOName (pp_element (op_in o))) (map (live cls true) (po_ops p)) (live cls true o)).
        { intros X. apply (first_mapped (fun o => IOName (pp_element (op_in o))) m_in (live cls true) (po_ops p) o No I (fun _ => eq_refl)).
          intros o' J [= E]. now apply X. }
        destruct a.
        * destruct Hd as (X & Ce). split; [exact Ce|now apply Xe].
        * destruct Hd as (X & Ce). split; [now apply By|exact Ce].
        * destruct Hd as (X & Ce). split; [exact Ce|now apply Xe].
      + destruct (By Hd) as (X1 & X2). split; [exact X1|now apply X2]. }
  destruct (call_works P Q D a env (op_name o) w (live cls true o) (op_name o) (pp_element (op_in o)) parameter header SP GC PD C)
    as (data & rq' & R & Rm & Rb & Rh & Ret & Flt).
  exists act, data, rq'. split; [reflexivity|]. split; [rewrite Ev, Ma in R; exact R|]. split; [exact Rb|].
  split. { unfold server_header, header_received in Rh. cbn [live as_method plan_method m_ih gm_ih option_map] in Rh. now rewrite Ei in Rh. }
  assert (Ef : sv_fns (d_service D) = fns) by now rewrite ED. rewrite Ef in Ret, Flt.
  assert (Sc : forall T (post : transport T) w0, stub_call P (as_service (plan_service false v tns els' p) numbers cls fns') post w0 (op_name o) parameter header =
             stub_call P (d_service D) post w0 (op_name o) parameter header) by (intros; rewrite ED; now apply same_call).
  rewrite !Sc. split.
  - intros w' rq2 r out po Hf Hm Hb Hhd Eo (c2 & (e2 & F2 & T2) & M2 & Mt2) Tr.
    destruct (Ret w' rq2 r out VNone Hf) as (out' & hout' & St & Eout & Hr); [now rewrite Hm|exact Hb|exact Hhd| |].
    + constructor.
      * exists c2, (pp_element po). split; [|split; assumption]. split; [cbn; now rewrite Eo|]. exists e2. split; [now rewrite Es|exact T2].
      * now left.
      * intros tag x Et. cbn in Et. rewrite Eo in Et. injection Et as <-. rewrite Ev. apply Tr.
    + exists out'. split; [|exact Eout]. rewrite St. unfold header_received in Hr. cbn [live as_method plan_method m_oh gm_oh option_map] in Hr. now rewrite Hr.
  - intros w' rq2 code msg actor Hf G1 G2 Tr. apply (Flt w' rq2 (Err (SOAPError code msg actor)) code msg actor VNone Hf).
    + left. now split.
    + exact G1.
    + exact G2.
    + now left.
    + rewrite Ev. exact Tr.
Qed.

Lemma interop :
  forall n O L md5 checked rt base root d tns schemas elsc elss plan stc sts stc' sts' p,
  parse_obj n O L (wn (version_from_xml root) "Definitions") root = Ok d ->
  states_document d tns schemas plan -> quotable tns -> (forall s, In s schemas -> hex5 (md5 s)) ->
  schemas_bound md5 stc schemas elsc -> schemas_bound md5 sts schemas elss ->
  Forall usable_port (soap_ports plan) -> Forall (fun p => Forall client_op (po_ops p)) (soap_ports plan) ->
  Forall (fun p => Forall server_op (po_ops p)) (soap_ports plan) -> soap_first plan -> NoDup (map po_name (soap_ports plan)) ->
  imported n O L md5 checked rt base false root stc stc' -> imported n O L md5 checked rt base true root sts sts' -> In p (soap_ports plan) ->
  let v := version_from_xml root in
  exists sc t ss, holds_service stc' v tns elsc p sc /\ holds_stub stc' p t /\ gt_service t = sc /\ holds_service sts' v tns elss p ss /\
  forall (W : Type) P Q (D : dispatcher W) a env numbers cls fns (fns' : string -> handler W) o w parameter header,
  In o (po_ops p) -> soap_platform P -> good_classes P Q -> plain D -> d_service D = as_service ss numbers cls fns ->
  (forall o', In o' (po_ops p) -> op_action o' <> None) -> distinguished a v env p o ->
  sendable P Q numbers (pp_element (op_in o)) parameter -> (header = VNone \/ exists c, message P Q c header) ->
  (forall x, envelope_response (pf_n P) (pf_O P) (pf_E P) v (pp_element (op_in o)) parameter header = Ok x ->
     transmits P x /\ Forall (accepted P) (blocks x)) ->
  let call := stub_call P (as_service sc numbers cls fns') (post_through a P D env) w (op_name o) parameter header in
  exists act data rq', op_action o = Some act /\
    reaches_handler P D (new_request (seen a env (request_headers v act) data) data) rq' (op_name o) /\
    erase (rq_body rq') = erase parameter /\ rq_header rq' = VNone /\
    (forall w' rq2 r out po, fns (op_name o) (w, rq') (rq_body rq') = ((w', rq2), Ok r) -> rq_method rq2 = rq_method rq' ->
       rs_body (as_response r) = PVal out -> rs_header (as_response r) = VNone ->
       op_out o = Some po -> sendable P Q numbers (pp_element po) out ->
       (forall x, envelope_response (pf_n P) (pf_O P) (pf_E P) v (pp_element po) out VNone = Ok x -> transmits P x) ->
       exists out', call = (w', Ok (CReturned out' VNone)) /\ erase out' = erase out) /\
    (forall w' rq2 code msg actor, fns (op_name o) (w, rq') (rq_body rq') = ((w', rq2), Err (SOAPError code msg actor)) ->
       text_good code -> text_good msg ->
       (forall x, error_response (pf_n P) (pf_O P) (pf_E P) v code msg VNone None = Ok x -> transmits P x) ->
       call = (w', Ok (CRaised (VStr code) (VStr msg) VNone))).
Proof.
  intros n O L md5 checked rt base root d tns schemas elsc elss plan stc sts stc' sts' p Ep Hd Ht Hh Hbc Hbs Hu Hc Hs Hf Hn (cc & Cc & Ec) (cs & Cs & Es) I v.
  assert (Hso0 : false = true -> Forall (fun p => Forall server_op (po_ops p)) (soap_ports plan) /\ soap_first plan) by discriminate.
  assert (Hso1 : true = true -> Forall (fun p => Forall server_op (po_ops p)) (soap_ports plan) /\ soap_first plan) by (intros _; now split).
  assert (Hcl1 : true = false -> Forall (fun p => Forall client_op (po_ops p)) (soap_ports plan)) by discriminate.
  unfold code_from_wsdl in Cc, Cs. fold v in Cc, Cs, Ep. rewrite Ep in Cc, Cs. cbn [bind] in Cc, Cs.
  rewrite (document_code md5 checked false v d tns schemas plan Hd Hu Hso0) in Cc.
  rewrite (document_code md5 checked true v d tns schemas plan Hd Hu Hso1) in Cs.
  injection Cc as <-. injection Cs as <-.
  rewrite (document_run md5 false v tns schemas plan Hu Hso0 rt base elsc stc Ht Hh Hbc (fun _ => Hc)) in Ec.
  rewrite (document_run md5 true v tns schemas plan Hu Hso1 rt base elss sts Ht Hh Hbs Hcl1) in Es.
  injection Ec as <-. injection Es as <-.
  pose proof Hu as Hu'. rewrite Forall_forall in Hu'. pose proof (Hu' p I) as U.
  exists (plan_service false v tns elsc p), (plan_stub v tns elsc p), (plan_service true v tns elss p).
  split. { split; [exact (service_held false v tns plan Hso0 elsc stc (fun _ => Hc) Hn p I)|]. repeat (split; [reflexivity|]). apply all_method_for. }
  split; [exact (stub_held false v tns plan Hso0 elsc stc (fun _ => Hc) Hn p eq_refl I)|]. split; [reflexivity|].
  split. { split; [exact (service_held true v tns plan Hso1 elss sts Hcl1 Hn p I)|]. repeat (split; [reflexivity|]). apply all_method_for. }
  intros W P Q D a env numbers cls fns fns' o w parameter header J SP GC PD ED Ha Hdi Sp Hh' Sn call.
  exact (generated_call P Q D a env v tns elss elsc p numbers cls fns fns' o w parameter header U J SP GC PD ED Ha Hdi Sp Hh' Sn).
Qed.
