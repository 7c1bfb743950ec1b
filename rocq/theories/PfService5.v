(** Proofs about services generated from WSDL: the document (C73, C74). *)
From Coq Require Import String Ascii List ZArith NArith Bool Lia.
From Verif Require Import PyBase PfBase PyVal XsdSimple XsdComplex XsdMeta PyHttp Soap Client Dispatch LibClasses Py2Xsd Py2Wsdl GenNames
  Xsd2Py PyLoad PyUrl PfUrl SpecUrl Wsdl2Py PyService SpecNames SpecGenCode SpecService PfGenCode PfService PfService2 PfService3 PfService4.
Import ListNotations.
Open Scope nat_scope.
Open Scope string_scope.
Open Scope list_scope.

Section S.
  Variables (md5 : string -> string) (checked : string -> bool) (server : bool) (v : soapver) (d : pyval).
  Variables (tns : string) (schemas : list string) (plan : list (list (option port_plan))).
  Hypothesis Hd : states_document d tns schemas plan.
  Hypothesis Hu : Forall usable_port (soap_ports plan).
  Hypothesis Hso : server = true -> Forall (fun p => Forall server_op (po_ops p)) (soap_ports plan) /\ soap_first plan.

  Lemma urlparse_written p : usable_port p -> exists u, urlparse checked (written (po_address p)) = Ok u.
  Proof.
    intros U. destruct (address_ok p U checked) as (T & _). unfold url_template in T.
    destruct (urlparse checked (written (po_address p))) as [u|e]; [now exists u|discriminate].
  Qed.

  Definition plan_stmts (ps : list (option port_plan)) : list (list wstmt) :=
    map (fun p => match p with Some p => port_stmts md5 server v tns schemas p | None => [] end) ps.
  Lemma concat_plan : concat (concat (map plan_stmts plan)) = flat_map (port_stmts md5 server v tns schemas) (soap_ports plan).
  Proof.
    unfold soap_ports. clear. induction plan as [|ps l IH]; [reflexivity|]. cbn [map concat flat_map]. rewrite concat_app, IH, flat_map_app. f_equal.
    clear. induction ps as [|[p|] ps IH]; [reflexivity|..]; cbn [plan_stmts map concat flat_map app]; fold (plan_stmts ps); now rewrite IH.
  Qed.
  Lemma document_code : service_code md5 checked server v d = Ok (flat_map (port_stmts md5 server v tns schemas) (soap_ports plan)).
  Proof.
    destruct Hd as (T & S & f & services & Sv & F). unfold service_code. rewrite (has_get _ _ _ Sv). cbn [bind jlist].
    assert (M : mapM (fun s => ports <- py_get s "ports" ;; l <- jlist ports ;; mapM (port_code md5 checked server v d s) l) services = Ok (map plan_stmts plan)).
    { eapply mapM_forall2; [exact F|]. intros s ps I (g & ports & P & F2). rewrite (has_get _ _ _ P). cbn [bind jlist].
      unfold plan_stmts. eapply mapM_forall2; [exact F2|]. intros port p Ip Sp.
      destruct p as [p|]; [|now apply other_code].
      assert (Inp : In p (soap_ports plan)). { unfold soap_ports. apply in_flat_map. exists ps. split; [exact I|]. apply in_flat_map. exists (Some p). split; [exact Ip|now left]. }
      rewrite Forall_forall in Hu. apply soap_code; [exact T|exact S|exact Sp|now apply Hu| |].
      - intros Es. destruct (Hso Es) as (X & _). rewrite Forall_forall in X. now apply X.
      - intros Es. destruct (Hso Es) as (_ & Fs). specialize (Fs ps I).
        destruct ps as [|q ps]; [contradiction|]. cbn [hd_error] in Fs. destruct q as [q|]; [|congruence].
        inversion F2 as [|x y l l' Sq Fq]; subst. destruct Sq as (_ & (a & A & L) & _).
        assert (Inq : In q (soap_ports plan)). { unfold soap_ports. apply in_flat_map. exists (Some q :: ps). split; [exact I|now left]. }
        destruct (urlparse_written q (Hu q Inq)) as (u & Eu). exists g, x, l, a, (written (po_address q)), u. auto. }
    rewrite M. cbn [bind]. now rewrite concat_plan.
  Qed.

  Variables (rt : runtime) (base : nat) (els : list elements_of) (st : wstate).
  Hypothesis Htns : quotable tns.
  Hypothesis Hhex : forall s, In s schemas -> hex5 (md5 s).
  Hypothesis Hst : schemas_bound md5 st schemas els.
  Hypothesis Hcl : server = false -> Forall (fun p => Forall client_op (po_ops p)) (soap_ports plan).
  Hypothesis Hnd : NoDup (map po_name (soap_ports plan)).
  Let all := flat_map (port_binds server v tns els) (soap_ports plan).
  Lemma document_run : exec_service rt base st (flat_map (port_stmts md5 server v tns schemas) (soap_ports plan)) = Ok (binds st all).
  Proof.
    rewrite Forall_forall in Hu. unfold exec_service, all.
    apply (fold_binds_list rt base (ready md5 schemas els) (port_stmts md5 server v tns schemas) (port_binds server v tns els)); [exact Hst|].
    intros p s I R. apply exec_port; auto.
    - intros E. destruct (Hso E) as (X & _). rewrite Forall_forall in X. now apply X.
    - intros E. specialize (Hcl E). rewrite Forall_forall in Hcl. now apply Hcl.
  Qed.

  Lemma same_port p q : In p (soap_ports plan) -> In q (soap_ports plan) -> po_name p = po_name q -> p = q.
  Proof.
    revert Hnd. generalize (soap_ports plan). clear. intros l N. revert p q. induction l as [|a l IH]; intros p q I J E; [contradiction|].
    inversion N as [|? ? Na Nl]; subst. destruct I as [<-|I], J as [<-|J]; auto.
    - elim Na. rewrite E. now apply in_map.
    - elim Na. rewrite <- E. now apply in_map.
  Qed.
  Lemma in_port_binds n x p : In (n, x) (port_binds server v tns els p) ->
    (server = true /\ exists o, In o (po_ops p) /\ n = op_name o) \/
    (exists o, In o (po_ops p) /\ n = op_name o ++ "_method")%string \/
    (n, x) = service_bind server v tns els p \/
    (server = false /\ (n, x) = stub_bind v tns els p).
  Proof.
    unfold port_binds. intros I. apply in_app_or in I. destruct I as [I|I].
    - left. destruct server; [|contradiction]. split; [reflexivity|]. apply in_map_iff in I. destruct I as (o & E & I). injection E as <- _. eauto.
    - right. apply in_app_or in I. destruct I as [I|I].
      + left. apply in_map_iff in I. destruct I as (o & E & I). injection E as <- _. eauto.
      + right. cbn [app In] in I. destruct I as [I|I]; [now left|]. right. destruct server; [contradiction|]. destruct I as [I|[]]; auto.
  Qed.
  Lemma server_op_name p o : server = true -> In p (soap_ports plan) -> In o (po_ops p) -> server_op o.
  Proof.
    intros E I J. destruct (Hso E) as (X & _). rewrite Forall_forall in X. specialize (X p I). rewrite Forall_forall in X. auto.
  Qed.
  Lemma service_held p : In p (soap_ports plan) ->
    assoc (po_name p ++ "_SERVICE")%string (st_names (binds st all)) = Some (WvService (plan_service server v tns els p)).
  Proof.
    intros I. apply binds_in.
    - apply in_flat_map. exists p. split; [exact I|]. unfold port_binds. apply in_or_app. right. apply in_or_app. right. now left.
    - intros y J. apply in_flat_map in J. destruct J as (q & Q & J). apply in_port_binds in J.
      destruct J as [(E & o & Io & N)|[(o & Io & N)|[E|(E & E')]]].
      + destruct (server_op_name q o E Q Io) as (_ & _ & _ & X). destruct (X (po_name p)) as (_ & X' & _). now elim X'.
      + now elim (method_service (op_name o) (po_name p)).
      + injection E as E ->. apply app_inj_r in E. now rewrite (same_port p q I Q E).
      + injection E' as E' ->. now elim (service_stub (po_name p) (po_name q)).
  Qed.
  Lemma stub_held p : server = false -> In p (soap_ports plan) ->
    assoc (po_name p ++ "ServiceStub")%string (st_names (binds st all)) = Some (WvStub (plan_stub v tns els p)).
  Proof.
    intros Es I. apply binds_in.
    - apply in_flat_map. exists p. split; [exact I|]. unfold port_binds. rewrite Es. apply in_or_app. right. apply in_or_app. right. right. now left.
    - intros y J. apply in_flat_map in J. destruct J as (q & Q & J). apply in_port_binds in J.
      destruct J as [(E & o & Io & N)|[(o & Io & N)|[E|(E & E')]]].
      + congruence.
      + now elim (method_stub (op_name o) (po_name p)).
      + injection E as E _. now elim (service_stub (po_name q) (po_name p)).
      + injection E' as E' ->. apply app_inj_r in E'. now rewrite (same_port p q I Q E').
  Qed.
End S.

Lemma plan_method_for server o : method_for o (plan_method server o).
Proof. repeat split. cbn. intros p E. now rewrite E. Qed.
Lemma plan_method_of server v tns els p o : NoDup (map op_name (po_ops p)) -> In o (po_ops p) ->
  method_of (plan_service server v tns els p) (op_name o) = Some (plan_method server o).
Proof.
  intros N I. unfold method_of, plan_service, gv_methods. induction (po_ops p) as [|a l IH]; [contradiction|].
  inversion N as [|? ? Na Nl]; subst. cbn [map find]. cbn [plan_method gm_op] in *. destruct I as [->|I].
  - now rewrite String.eqb_refl.
  - destruct (String.eqb_spec (op_name a) (op_name o)) as [E|E]; [|now apply IH]. elim Na. rewrite E. now apply in_map.
Qed.
Lemma all_method_for server ops : Forall2 method_for ops (map (plan_method server) ops).
Proof. induction ops; constructor; [apply plan_method_for|assumption]. Qed.
Lemma plan_posts_to v tns els p : usable_port p -> stub_posts_to (plan_stub v tns els p) = Ok (written (po_address p)).
Proof.
  intros (_ & (A1 & A2 & A3 & A4 & A5 & A6 & A7 & A8 & A9) & E & W & _). unfold stub_posts_to, plan_stub, plan_service.
  cbn [gt_service gv_location gt_scheme gt_host]. unfold template_text, written. apply (substitute_written (fun _ => true)); try assumption.
  intros c Hc H. unfold holds in Hc. cbn in Hc. apply (W c); [unfold holds; cbn; tauto|].
  unfold written, at_host, holds in *. rewrite !to_l_app. apply in_or_app. right. apply in_or_app. right. apply in_or_app. now right.
Qed.
Lemma plan_operation v tns els p o : In o (po_ops p) -> callable_name (op_name o) -> ~ In "call" (map op_name (po_ops p)) ->
  stub_operation (plan_stub v tns els p) (op_name o) = Some (op_name o).
Proof.
  intros I C N. unfold stub_operation. destruct (str_in (op_name o) instance_attributes) eqn:E; [apply str_in_spec in E; elim C; exact E|].
  cbn [plan_stub gt_calls].
  assert (X : assoc "call" (map (fun o => (op_name o, op_name o)) (po_ops p)) = None).
  { apply assoc_none. rewrite map_map. cbn [fst]. exact N. }
  rewrite X. clear - I. induction (po_ops p) as [|a l IH]; [contradiction|]. cbn [map assoc].
  destruct (String.eqb_spec (op_name o) (op_name a)) as [E|E]; [now rewrite E|]. destruct I as [->|I]; [congruence|now apply IH].
Qed.

Lemma address_kept checked a : absolute a -> no_empty_part a -> without "$" (resource a) ->
  exists template, url_template checked (written a) = Ok template /\
    url_component checked (written a) "scheme" = Ok (a_scheme a) /\ url_component checked (written a) "netloc" = Ok (a_authority a) /\
    forall s h, stub_location template s h LNone = Ok (at_host s h a).
Proof.
  intros (A1 & A2 & A3 & A4 & A5 & A6 & A7 & A8 & A9) E D. eexists.
  assert (T : url_template checked (written a) = Ok ("${scheme}://${host}" ++ resource a)%string /\
    url_component checked (written a) "scheme" = Ok (a_scheme a) /\ url_component checked (written a) "netloc" = Ok (a_authority a)) by
    (apply template_written; assumption). destruct T as (T1 & T2 & T3). split; [exact T1|]. split; [exact T2|]. split; [exact T3|].
  intros s h. now apply (substitute_written checked).
Qed.

Lemma client_code n O L md5 checked rt base root d tns schemas els plan st :
  parse_obj n O L (wn (version_from_xml root) "Definitions") root = Ok d ->
  states_document d tns schemas plan -> quotable tns -> (forall s, In s schemas -> hex5 (md5 s)) -> schemas_bound md5 st schemas els ->
  Forall usable_port (soap_ports plan) -> Forall (fun p => Forall client_op (po_ops p)) (soap_ports plan) -> NoDup (map po_name (soap_ports plan)) ->
  exists code st', code_from_wsdl n O L md5 checked false root = Ok code /\ exec_service rt base st code = Ok st' /\
    forall p, In p (soap_ports plan) -> exists s t,
      holds_service st' (version_from_xml root) tns els p s /\ holds_stub st' p t /\ gt_service t = s /\
      stub_posts_to t = Ok (written (po_address p)) /\
      forall o, In o (po_ops p) -> exists m, method_of s (op_name o) = Some m /\ method_for o m /\
        (op_action o <> None -> has_action o m) /\
        (op_style o <> None \/ po_style p = "document" -> has_style p o m) /\
        (callable_name (op_name o) -> ~ In "call" (map op_name (po_ops p)) -> stub_operation t (op_name o) = Some (op_name o)).
Proof.
  intros Ep Hd Ht Hh Hb Hu Hc Hn. set (v := version_from_xml root) in *.
  assert (Hso : false = true -> Forall (fun p => Forall server_op (po_ops p)) (soap_ports plan) /\ soap_first plan) by discriminate.
  eexists _, _. split.
  { unfold code_from_wsdl. fold v. rewrite Ep. cbn [bind]. exact (document_code md5 checked false v d tns schemas plan Hd Hu Hso). }
  split. { exact (document_run md5 false v tns schemas plan Hu Hso rt base els st Ht Hh Hb (fun _ => Hc)). }
  intros p I. exists (plan_service false v tns els p), (plan_stub v tns els p).
  rewrite Forall_forall in Hu. pose proof (Hu p I) as U. destruct U as (Un & _ & _ & _ & Uo & Nd).
  split. { split; [exact (service_held false v tns plan Hso els st (fun _ => Hc) Hn p I)|]. repeat (split; [reflexivity|]). apply all_method_for. }
  split; [exact (stub_held false v tns plan Hso els st (fun _ => Hc) Hn p eq_refl I)|]. split; [reflexivity|]. split; [now apply plan_posts_to, Hu|].
  intros o J. exists (plan_method false o). split; [now apply plan_method_of|]. split; [apply plan_method_for|].
  split. { unfold has_action, plan_method, action_text. cbn [gm_action]. now destruct (op_action o). }
  split. { unfold has_style, plan_method, style_of. cbn [gm_style]. destruct (op_style o); [reflexivity|]. intros [X|X]; [congruence|now symmetry]. }
  intros C N. now apply plan_operation.
Qed.

Lemma server_code n O L md5 checked rt base root d tns schemas els plan st :
  parse_obj n O L (wn (version_from_xml root) "Definitions") root = Ok d ->
  states_document d tns schemas plan -> quotable tns -> (forall s, In s schemas -> hex5 (md5 s)) -> schemas_bound md5 st schemas els ->
  Forall usable_port (soap_ports plan) -> Forall (fun p => Forall server_op (po_ops p)) (soap_ports plan) -> soap_first plan ->
  NoDup (map po_name (soap_ports plan)) ->
  exists code st', code_from_wsdl n O L md5 checked true root = Ok code /\ exec_service rt base st code = Ok st' /\
    forall p, In p (soap_ports plan) -> exists s,
      holds_service st' (version_from_xml root) tns els p s /\
      forall o, In o (po_ops p) -> exists m, method_of s (op_name o) = Some m /\ method_for o m /\
        (op_action o <> None -> has_action o m) /\
        (op_style o <> None \/ po_style p = "document" -> has_style p o m) /\ implements o m.
Proof.
  intros Ep Hd Ht Hh Hb Hu Hs Hf Hn. set (v := version_from_xml root) in *.
  assert (Hso : true = true -> Forall (fun p => Forall server_op (po_ops p)) (soap_ports plan) /\ soap_first plan) by (intros _; now split).
  eexists _, _. split.
  { unfold code_from_wsdl. fold v. rewrite Ep. cbn [bind]. exact (document_code md5 checked true v d tns schemas plan Hd Hu Hso). }
  split. { refine (document_run md5 true v tns schemas plan Hu Hso rt base els st Ht Hh Hb _). discriminate. }
  intros p I. exists (plan_service true v tns els p).
  rewrite Forall_forall in Hu. pose proof (Hu p I) as U. destruct U as (Un & _ & _ & _ & Uo & Nd).
  split. { split; [refine (service_held true v tns plan Hso els st _ Hn p I); discriminate|]. repeat (split; [reflexivity|]). apply all_method_for. }
  intros o J. exists (plan_method true o). split; [now apply plan_method_of|]. split; [apply plan_method_for|].
  split. { unfold has_action, plan_method, action_text. cbn [gm_action]. now destruct (op_action o). }
  split. { unfold has_style, plan_method, style_of. cbn [gm_style]. destruct (op_style o); [reflexivity|]. intros [X|X]; [congruence|now symmetry]. }
  exists (plan_fn o). repeat split. cbn [plan_fn fn_result]. unfold out_text, out_spec. rewrite Forall_forall in Hs. specialize (Hs p I).
  rewrite Forall_forall in Hs. destruct (Hs o J) as (_ & X & _). now destruct (op_out o).
Qed.
Lemma location_given template s h : (forall url, stub_location template s h (LText url) = Ok url) /\
  (forall f, stub_location template s h (LCall f) = f template [("scheme", s); ("host", h)]) /\
  stub_location template s h LOther = Err TypeError.
Proof. repeat split. Qed.
