(** Proofs about the header blocks of generated services: the document (C91). *)
From Coq Require Import String Ascii List ZArith NArith Bool Lia.
From Verif Require Import PyBase PfBase PyVal XsdSimple XsdComplex XsdMeta PyHttp Soap Client Dispatch LibClasses Py2Xsd Py2Wsdl GenNames
  Xsd2Py PyLoad PyUrl PfUrl SpecUrl Wsdl2Py PyService SpecNames SpecGenCode SpecMeta SpecService SpecHeaders PfGenCode PfMeta PfMeta2
  PfService PfService2 PfService3 PfService4 PfService5 PfHeaders PfHeaders2.
Import ListNotations.
Open Scope nat_scope.
Open Scope string_scope.
Open Scope list_scope.

Lemma method_headers a b : (a ++ "_method" <> b ++ "Headers")%string.
Proof. apply not_eq_sym, not_eq_sym. intros H. symmetry in H. revert H. apply ends_differ; [cbn; lia|reflexivity]. Qed.
Lemma headers_service a b : (a ++ "Headers" <> b ++ "_SERVICE")%string.
Proof. apply ends_differ; [cbn; lia|reflexivity]. Qed.
Lemma headers_stub a b : (a ++ "Headers" <> b ++ "ServiceStub")%string.
Proof. apply ends_differ; [cbn; lia|reflexivity]. Qed.

Section R.
  Variables (rt : runtime) (base : nat) (md5 : string -> string) (schemas : list schema_plan) (els : list elements_of) (server : bool).
  Variable named : string -> nat -> Prop.
  Hypothesis Hhex : forall s, In s schemas -> hex5 (md5 (sp_tns s)).
  Notation okst := (okst base md5 schemas els named).
  Notation later := (later base md5 schemas els named).
  Notation follows := (follows schemas els named).

  Definition known_class (w : world) (oc : option nat) : Prop := forall c, oc = Some c -> c < length (w_classes w).
  Lemma heads_class_grows w w' hs oc : Inv w -> grows w w' -> known_class w oc -> heads_class w schemas els hs oc -> heads_class w' schemas els hs oc.
  Proof.
    intros I G K H. destruct hs as [|q qs]; [exact H|]. destruct H as (c & i & e & -> & F & N & H). exists c, i, e. split; [reflexivity|]. split; [exact F|]. split; [exact N|].
    destruct (grows_facts _ _ I G) as (_ & _ & _ & X). destruct (X c (K c eq_refl)) as (_ & _ & Y). intros name n. rewrite Y. apply H.
  Qed.
  Lemma known_grows w w' oc : Inv w -> grows w w' -> known_class w oc -> known_class w' oc.
  Proof. intros I G K c E. destruct (grows_facts _ _ I G) as (_ & _ & L & _). specialize (K c E). lia. Qed.

  Definition made (w : world) (h : heads) (oc : option nat) : Prop := heads_class w schemas els (hd_parts h) oc /\ known_class w oc.
  Lemma made_grows w w' h oc : Inv w -> grows w w' -> made w h oc -> made w' h oc.
  Proof. intros I G (A & B). split; [eapply heads_class_grows; eauto|eapply known_grows; eauto]. Qed.
  Lemma exec_heads_any st h : okst st -> usable_heads schemas els h -> follows h ->
    exists st' oc, foldM (exec_stmt rt base) st (heads_stmts md5 schemas h) = Ok st' /\
      later (fun n => hd_parts h <> [] /\ n = heads_name h) st st' /\ class_at st' h oc /\ made (st_world st') h oc.
  Proof.
    intros O U Fo. unfold heads_stmts, class_at, made. destruct (hd_parts h) as [|q qs] eqn:E.
    - exists st, None. split; [reflexivity|]. split; [now apply later_refl|]. split; [reflexivity|]. split; [reflexivity|]. intros c [=].
    - assert (NE : hd_parts h <> []) by congruence. destruct (exec_heads rt base md5 schemas els named Hhex st h O U Fo NE) as (st' & c & X & L & Lo & K & C).
      exists st', (Some c). cbn [foldM]. rewrite X. cbn [bind]. split; [reflexivity|]. split.
      { eapply later_mono; [|exact L]. intros n <-. split; [congruence|reflexivity]. }
      split; [eauto|]. split; [now rewrite <- E|]. intros x [= <-]. exact K.
  Qed.

  Definition hop_names (o : hop) (n : string) : Prop := n = (op_name (ho_op o) ++ "_method")%string \/ exists s, n = (s ++ "Headers")%string.
  Definition good_method (w : world) (o : hop) (m : gmethod) : Prop :=
    exists ih oh, m = hop_method server o ih oh /\ made w (ho_in o) ih /\ made w (ho_out o) oh.
  Lemma good_grows w w' o m : Inv w -> grows w w' -> good_method w o m -> good_method w' o m.
  Proof. intros I G (ih & oh & E & A & B). exists ih, oh. split; [exact E|]. split; eapply made_grows; eauto. Qed.
  Definition function_at (st : wstate) (o : hop) : Prop :=
    server = true -> assoc (op_name (ho_op o)) (st_names st) = Some (WvFunction (plan_fn (ho_op o))).
  Definition served_op (o : hop) : Prop := server = true -> server_op (ho_op o) /\ server_hop o.
  Lemma function_later st st' o (N : string -> Prop) : later N st st' -> (server = true -> ~ N (op_name (ho_op o))) -> function_at st o -> function_at st' o.
  Proof. intros L X F E. rewrite (la_names _ _ _ _ _ _ _ _ L) by auto. now apply F. Qed.
  Lemma hop_names_function o o' : served_op o' -> server = true -> ~ hop_names o (op_name (ho_op o')).
  Proof.
    intros S E [H|(s & H)].
    - destruct (S E) as ((_ & _ & _ & X) & _). now destruct (X (op_name (ho_op o))).
    - destruct (S E) as (_ & X). exact (X s H).
  Qed.

  Definition hop_follows (o : hop) : Prop := follows (ho_in o) /\ follows (ho_out o).
  Lemma exec_hop o st : okst st -> usable_op (ho_op o) -> usable_hop schemas els o -> hop_follows o -> served_op o -> function_at st o ->
    exists st' m, foldM (exec_stmt rt base) st (hop_stmts md5 schemas server o) = Ok st' /\ later (hop_names o) st st' /\
      assoc (op_name (ho_op o) ++ "_method")%string (st_names st') = Some (WvMethod m) /\ good_method (st_world st') o m.
  Proof.
    intros O U (Ui & Uo & D) (Fi & Fu) Sv F. unfold hop_stmts.
    destruct (exec_heads_any st (ho_in o) O Ui Fi) as (st1 & ih & E1 & L1 & C1 & M1). pose proof (la_ok _ _ _ _ _ _ _ _ L1) as O1.
    destruct (exec_heads_any st1 (ho_out o) O1 Uo Fu) as (st2 & oh & E2 & L2 & C2 & M2). pose proof (la_ok _ _ _ _ _ _ _ _ L2) as O2.
    assert (C1' : class_at st2 (ho_in o) ih).
    { unfold class_at in *. destruct (hd_parts (ho_in o)) as [|q qs] eqn:E; [exact C1|]. destruct C1 as (c & -> & Lc). exists c. split; [reflexivity|].
      unfold lookup in *. destruct (identifier (heads_name (ho_in o))); [|discriminate].
      rewrite (la_names _ _ _ _ _ _ _ _ L2); [exact Lc|]. intros (NE & H). unfold heads_name in H. apply app_inj_r in H. apply D; [discriminate|exact NE|exact H]. }
    assert (M1' : made (st_world st2) (ho_in o) ih) by (eapply made_grows; [apply O1|apply L2|exact M1]).
    assert (Ln : forall h n, hd_parts h <> [] /\ n = heads_name h -> hop_names o n) by (intros h n (_ & ->); right; eexists; reflexivity).
    assert (L12 : later (hop_names o) st st2).
    { eapply later_mono; [|exact (later_trans _ _ _ _ _ _ _ _ _ _ L1 L2)]. intros n [H|H]; eapply Ln; eauto. }
    assert (F2 : server = true -> assoc (op_name (ho_op o)) (st_names st2) = Some (WvFunction (plan_fn (ho_op o)))).
    { apply (function_later st st2 o _ L12); [|exact F]. intros E. now apply hop_names_function. }
    pose proof (exec_hmethod rt base server o st2 ih oh U F2 C1' C2) as X.
    eexists. exists (hop_method server o ih oh). split.
    { rewrite foldM_app, E1. cbn [bind]. rewrite foldM_app, E2. cbn [bind foldM]. rewrite X. reflexivity. }
    split; [|split].
    - eapply later_mono; [|exact (later_trans _ _ _ _ _ _ _ _ _ _ L12 (later_bind base md5 schemas els named Hhex st2 _ (WvMethod (hop_method server o ih oh)) O2 (method_not_schema (ho_op o))))].
      intros n [H|<-]; [exact H|]. now left.
    - apply binds_in; [now left|]. intros y [E|[]]. now injection E as <-.
    - rewrite binds_world. exists ih, oh. auto.
  Qed.

  Definition hops_names (ops : list hop) (n : string) : Prop := (exists o, In o ops /\ n = (op_name (ho_op o) ++ "_method")%string) \/ exists s, n = (s ++ "Headers")%string.
  Definition method_at (st : wstate) (o : hop) (m : gmethod) : Prop :=
    assoc (op_name (ho_op o) ++ "_method")%string (st_names st) = Some (WvMethod m) /\ good_method (st_world st) o m.
  Lemma exec_hops ops : forall st, okst st -> Forall (fun o => usable_op (ho_op o) /\ usable_hop schemas els o /\ hop_follows o /\ served_op o /\ function_at st o) ops ->
    NoDup (map (fun o => op_name (ho_op o)) ops) ->
    exists st' ms, foldM (exec_stmt rt base) st (flat_map (hop_stmts md5 schemas server) ops) = Ok st' /\ later (hops_names ops) st st' /\ Forall2 (method_at st') ops ms.
  Proof.
    induction ops as [|o ops IH]; intros st O U Nd.
    - exists st, []. split; [reflexivity|]. split; [now apply later_refl|constructor].
    - inversion U as [|? ? (U1 & U2 & U2f & U3 & U4) Us]; subst. cbn [map] in Nd. inversion Nd as [|? ? Na Nl]; subst.
      destruct (exec_hop o st O U1 U2 U2f U3 U4) as (st1 & m & E1 & L1 & A1 & G1). pose proof (la_ok _ _ _ _ _ _ _ _ L1) as O1.
      destruct (IH st1 O1) as (st2 & ms & E2 & L2 & F2); [|exact Nl|].
      { eapply Forall_impl; [|exact Us]. intros x (X1 & X2 & X2f & X3 & X4). repeat (split; [assumption|]). apply (function_later st st1 x _ L1); [|exact X4].
        intros E. now apply hop_names_function. }
      exists st2, (m :: ms). cbn [flat_map]. rewrite foldM_app, E1. cbn [bind]. split; [exact E2|]. split.
      + eapply later_mono; [|exact (later_trans _ _ _ _ _ _ _ _ _ _ L1 L2)]. intros n [[H|H]|[(x & Ix & H)|H]]; [left; exists o; split; [now left|exact H]|now right|left; exists x; split; [now right|exact H]|now right].
      + constructor; [|exact F2]. split; [|eapply good_grows; [apply O1|apply L2|exact G1]]. rewrite (la_names _ _ _ _ _ _ _ _ L2); [exact A1|].
        intros [(x & Ix & H)|(s & H)]; [|now apply method_headers in H]. apply app_inj_r in H. apply Na. rewrite H. now apply (in_map (fun o => op_name (ho_op o))).
  Qed.

  Lemma later_binds l : forall st, okst st -> (forall n, In n (map fst l) -> not_schema n) -> later (fun n => In n (map fst l)) st (binds st l).
  Proof.
    induction l as [|[n x] l IH]; intros st O N; [now apply later_refl|].
    pose proof (later_bind base md5 schemas els named Hhex st n x O (N n (or_introl eq_refl))) as L1.
    specialize (IH _ (la_ok _ _ _ _ _ _ _ _ L1) (fun m I => N m (or_intror I))).
    change (binds st ((n, x) :: l)) with (binds (binds st [(n, x)]) l).
    eapply later_mono; [|exact (later_trans _ _ _ _ _ _ _ _ _ _ L1 IH)]. intros m [<-|H]; [now left|now right].
  Qed.

  (** ** A port *)
  Variables (v : soapver) (tns : string).
  Hypothesis Htns : quotable tns.
  Definition hservice_of (p : hport) (ms : list gmethod) : gservice := mkGsv (hp_name p) tns (template_text (bare p)) els v ms.
  Definition hstub_of (p : hport) (ms : list gmethod) : gstub :=
    mkGst (hservice_of p ms) (a_scheme (hp_address p)) (a_authority (hp_address p)) (map (fun o => (op_name o, op_name o)) (map ho_op (hp_ops p))).
  Definition port_at (st : wstate) (p : hport) : Prop :=
    exists ms, assoc (hp_name p ++ "_SERVICE")%string (st_names st) = Some (WvService (hservice_of p ms)) /\
      (server = false -> assoc (hp_name p ++ "ServiceStub")%string (st_names st) = Some (WvStub (hstub_of p ms))) /\
      Forall2 (good_method (st_world st)) (hp_ops p) ms.
  Definition hport_names (p : hport) (n : string) : Prop :=
    (server = true /\ exists o, In o (hp_ops p) /\ n = op_name (ho_op o)) \/ hops_names (hp_ops p) n \/
    n = (hp_name p ++ "_SERVICE")%string \/ (server = false /\ n = (hp_name p ++ "ServiceStub")%string).
  Definition ok_port (p : hport) : Prop :=
    usable_port (bare p) /\ Forall (fun o => usable_hop schemas els o /\ hop_follows o) (hp_ops p) /\ Forall served_op (hp_ops p) /\
    (server = false -> Forall client_op (map ho_op (hp_ops p))).
  Lemma methods_at_found st ops ms : Forall (fun o => usable_op (ho_op o)) ops -> Forall2 (method_at st) ops ms ->
    mapM (fun m => x <- lookup st m ;; match x with WvMethod m => Ok m | _ => Err TypeError end)
      (map (fun o => op_name o ++ "_method")%string (map ho_op ops)) = Ok ms.
  Proof.
    intros U F. induction F as [|o m ops ms (H & _) F IH]; [reflexivity|]. inversion U; subst. cbn [map mapM]. unfold lookup at 1.
    rewrite method_ident by assumption. rewrite H. cbn [bind]. rewrite IH by assumption. reflexivity.
  Qed.
  Lemma exec_hport p st : okst st -> ok_port p ->
    exists st', foldM (exec_stmt rt base) st (hport_stmts md5 schemas server v tns p) = Ok st' /\ later (hport_names p) st st' /\ port_at st' p.
  Proof.
    intros O (U & Uh & Us & Uc). pose proof U as (Un & _ & _ & _ & Uo & Nd). cbn [bare po_ops po_name] in Un, Uo, Nd. rewrite map_map in Nd.
    assert (Uo' : Forall (fun o => usable_op (ho_op o)) (hp_ops p)) by (rewrite Forall_map in Uo; exact Uo).
    set (fs := if server then map fn_bind (map ho_op (hp_ops p)) else []).
    assert (F : foldM (exec_stmt rt base) st (if server then map fn_stmt (map ho_op (hp_ops p)) else []) = Ok (binds st fs)).
    { subst fs. destruct server eqn:Sv; [|reflexivity].
      apply (fold_binds rt base (fun _ => True) fn_stmt fn_bind (map ho_op (hp_ops p)) st I). intros o s Io _. split; [|exact Logic.I]. rewrite Forall_forall in Uo.
      apply exec_fn; [now apply Uo|]. apply in_map_iff in Io. destruct Io as (x & <- & Io). rewrite Forall_forall in Us.
      specialize (Us x Io). unfold served_op in Us. rewrite Sv in Us. now destruct (Us eq_refl). }
    assert (L0 : later (fun n => In n (map fst fs)) st (binds st fs)).
    { apply later_binds; [exact O|]. subst fs. destruct server eqn:Sv; [|intros n []]. intros n I h Hh E. rewrite map_map in I. apply in_map_iff in I.
      destruct I as (o & En & I). apply in_map_iff in I. destruct I as (x & <- & I). cbn [fn_bind fst] in En.
      rewrite Forall_forall in Us. specialize (Us x I). unfold served_op in Us. rewrite Sv in Us. destruct (Us eq_refl) as ((_ & _ & _ & X) & _).
      destruct (X h) as (_ & _ & X'). apply X'. now rewrite En. }
    pose proof (la_ok _ _ _ _ _ _ _ _ L0) as O0.
    assert (Fa : Forall (function_at (binds st fs)) (hp_ops p)).
    { apply Forall_forall. intros o Io Sv. subst fs. rewrite Sv. apply binds_in; [apply in_map_iff; exists (ho_op o); split; [reflexivity|now apply in_map]|].
      intros y J. apply in_map_iff in J. destruct J as (o' & E & J). apply in_map_iff in J. destruct J as (x & <- & J). injection E as E <-. f_equal. f_equal.
      clear - Nd Io J E. revert o x Io J E. induction (hp_ops p) as [|a l IH]; intros o x Io J E; [contradiction|].
      cbn [map] in Nd. inversion Nd as [|? ? Na Nl]; subst. destruct Io as [<-|Io], J as [<-|J]; auto.
      + elim Na. rewrite <- E. now apply (in_map (fun o => op_name (ho_op o))).
      + elim Na. rewrite E. now apply (in_map (fun o => op_name (ho_op o))). }
    destruct (exec_hops (hp_ops p) (binds st fs) O0) as (st2 & ms & E2 & L2 & F2); [|exact Nd|].
    { rewrite Forall_forall in *. intros o Io. split; [now apply Uo'|]. split; [now apply Uh|]. split; [now apply Uh|]. split; [now apply Us|now apply Fa]. }
    pose proof (la_ok _ _ _ _ _ _ _ _ L2) as O2.
    set (sb := ((hp_name p ++ "_SERVICE")%string, WvService (hservice_of p ms))).
    assert (Sx : exec_stmt rt base st2 (service_stmt md5 v tns (map sp_tns schemas) (bare p)) = Ok (binds st2 [sb])).
    { unfold service_stmt, exec_stmt. cbn [bare po_name po_ops]. rewrite suffix_ident; [|exact Un|vm_compute; reflexivity..]. cbn [negb].
      rewrite (usable_literal rt false _ Un). cbn [bind]. rewrite (quotable_literal rt false _ Htns). cbn [bind].
      rewrite (quotable_literal rt false _ (template_quotable (bare p) U)). cbn [bind].
      rewrite (schemas_found md5 (map sp_tns schemas) els (hex_nss md5 schemas Hhex) st2) by apply O2. cbn [bind].
      rewrite (methods_at_found st2 (hp_ops p) ms Uo' F2). reflexivity. }
    assert (L3 : later (eq (fst sb)) st2 (binds st2 [sb])).
    { apply later_bind; [exact Hhex|exact O2|]. intros h Hh E. now apply (hex_service h (hp_name p) Hh). }
    assert (G2 : Forall2 (good_method (st_world st2)) (hp_ops p) ms).
    { clear - F2. induction F2 as [|o m l l' (_ & H) F IH]; constructor; assumption. }
    unfold hport_stmts. rewrite foldM_app, F. cbn [bind]. rewrite foldM_app, E2. cbn [bind app foldM]. rewrite Sx. cbn [bind].
    assert (N2 : forall n, (In n (map fst fs) \/ hops_names (hp_ops p) n) \/ fst sb = n -> hport_names p n).
    { intros n [[H|H]|H].
      - left. subst fs. destruct server; [|destruct H]. split; [reflexivity|]. rewrite map_map in H. apply in_map_iff in H. destruct H as (o & <- & H).
        apply in_map_iff in H. destruct H as (x & <- & H). exists x. split; [exact H|reflexivity].
      - right. now left.
      - right. right. left. now symmetry. }
    pose proof (later_trans _ _ _ _ _ _ _ _ _ _ (later_trans _ _ _ _ _ _ _ _ _ _ L0 L2) L3) as L4.
    assert (Hs : assoc (hp_name p ++ "_SERVICE")%string (st_names (binds st2 [sb])) = Some (WvService (hservice_of p ms))).
    { apply binds_in; [now left|]. intros y [E|[]]. now injection E as <-. }
    destruct server eqn:Sv.
    - exists (binds st2 [sb]). split; [reflexivity|]. split; [eapply later_mono; [exact N2|exact L4]|]. exists ms. split; [exact Hs|]. split; [rewrite Sv; discriminate|].
      rewrite binds_world. exact G2.
    - set (tb := ((hp_name p ++ "ServiceStub")%string, WvStub (hstub_of p ms))). exists (binds (binds st2 [sb]) [tb]).
      assert (L5 : later (eq (fst tb)) (binds st2 [sb]) (binds (binds st2 [sb]) [tb])).
      { apply later_bind; [exact Hhex|apply L3|]. intros h Hh E. now apply (hex_stub h (hp_name p) Hh). }
      split; [|split].
      + cbn [foldM]. unfold stub_stmt, exec_stmt. cbn [bare po_name po_ops po_address]. rewrite suffix_ident; [|exact Un|vm_compute; reflexivity..]. cbn [negb].
        unfold lookup at 1. rewrite suffix_ident; [|exact Un|vm_compute; reflexivity..]. rewrite Hs.
        cbn [bind]. destruct (address_parts (bare p) U) as (Q1 & Q2 & _). cbn [bare po_address] in Q1, Q2. rewrite (quotable_literal rt false _ Q1). cbn [bind].
        rewrite (quotable_literal rt false _ Q2). cbn [bind]. rewrite calls_folded; [reflexivity|exact Uo|now apply Uc|]. cbn [map app]. now rewrite map_map.
      + eapply later_mono; [|exact (later_trans _ _ _ _ _ _ _ _ _ _ L4 L5)]. intros n [H|H]; [now apply N2|]. right. right. right. split; [exact Sv|now symmetry].
      + exists ms. split; [|split].
        * rewrite binds_other; [exact Hs|]. intros [E|[]]. now apply (service_stub (hp_name p) (hp_name p)).
        * intros _. apply binds_in; [now left|]. intros y [E|[]]. now injection E as <-.
        * rewrite !binds_world. exact G2.
  Qed.

  Lemma port_at_later st st' p q : okst st -> later (hport_names q) st st' -> Forall served_op (hp_ops q) -> hp_name p <> hp_name q -> port_at st p -> port_at st' p.
  Proof.
    intros O L Sq N (ms & A & B & C). exists ms.
    assert (Fn : server = true -> forall o s, In o (hp_ops q) -> op_name (ho_op o) <> (s ++ "_SERVICE")%string).
    { intros Sv o s Io. rewrite Forall_forall in Sq. destruct (Sq o Io Sv) as ((_ & _ & _ & X) & _). now destruct (X s) as (_ & Y & _). }
    split; [|split].
    - rewrite (la_names _ _ _ _ _ _ _ _ L); [exact A|]. intros [(Sv & o & Io & E)|[[(o & Io & E)|(s & E)]|[E|(_ & E)]]].
      + symmetry in E. now apply (Fn Sv o _ Io) in E.
      + symmetry in E. now apply method_service in E.
      + symmetry in E. now apply headers_service in E.
      + now apply app_inj_r in E.
      + now apply service_stub in E.
    - intros Sv. rewrite (la_names _ _ _ _ _ _ _ _ L); [now apply B|]. intros [(Sv' & _)|[[(o & Io & E)|(s & E)]|[E|(_ & E)]]].
      + congruence.
      + symmetry in E. now apply method_stub in E.
      + symmetry in E. now apply headers_stub in E.
      + symmetry in E. now apply service_stub in E.
      + now apply app_inj_r in E.
    - clear - O C L. induction C as [|o m l l' H F IH]; constructor; [|exact IH]. eapply good_grows; [apply O|apply L|exact H].
  Qed.
  Lemma exec_hports ps : forall st, okst st -> Forall ok_port ps -> NoDup (map hp_name ps) ->
    exists st', foldM (exec_stmt rt base) st (flat_map (hport_stmts md5 schemas server v tns) ps) = Ok st' /\ okst st' /\ grows (st_world st) (st_world st') /\
      Forall (port_at st') ps /\ forall p, ~ In (hp_name p) (map hp_name ps) -> port_at st p -> port_at st' p.
  Proof.
    induction ps as [|q ps IH]; intros st O U Nd.
    - exists st. split; [reflexivity|]. split; [exact O|]. split; [apply grows_refl|]. split; [constructor|auto].
    - inversion U as [|? ? Uq Us]; subst. cbn [map] in Nd. inversion Nd as [|? ? Na Nl]; subst.
      destruct (exec_hport q st O Uq) as (st1 & E1 & L1 & P1). pose proof (la_ok _ _ _ _ _ _ _ _ L1) as O1.
      destruct (IH st1 O1 Us Nl) as (st2 & E2 & O2 & G2 & F2 & K2). exists st2. cbn [flat_map]. rewrite foldM_app, E1. cbn [bind].
      split; [exact E2|]. split; [exact O2|]. split; [eapply grows_trans; [apply L1|exact G2]|]. split.
      + constructor; [|exact F2]. apply K2; [exact Na|exact P1].
      + intros p Np Pp. cbn [map In] in Np. apply K2; [tauto|]. destruct Uq as (_ & _ & Sq & _). eapply port_at_later; [exact O|exact L1|exact Sq| |exact Pp]. intros E. apply Np. now left.
  Qed.
End R.

(** ** The document *)
Section D.
  Variables (md5 : string -> string) (checked : string -> bool) (server : bool) (v : soapver) (d : pyval).
  Variables (tns : string) (schemas : list schema_plan) (els : list elements_of) (plan : list (list (option hport))).
  Hypothesis Hd : states_hdocument d tns schemas plan.
  Variable named : string -> nat -> Prop.
  Hypothesis Hu : Forall (ok_port schemas els server named) (soap_hports plan).
  Hypothesis Hf : server = true -> hsoap_first plan.
  Definition hplan_stmts (ps : list (option hport)) : list (list wstmt) :=
    map (fun p => match p with Some p => hport_stmts md5 schemas server v tns p | None => [] end) ps.
  Lemma concat_hplan : concat (concat (map hplan_stmts plan)) = flat_map (hport_stmts md5 schemas server v tns) (soap_hports plan).
  Proof.
    unfold soap_hports. clear. induction plan as [|ps l IH]; [reflexivity|]. cbn [map concat flat_map]. rewrite concat_app, IH, flat_map_app. f_equal.
    clear. induction ps as [|[p|] ps IH]; [reflexivity|..]; cbn [hplan_stmts map concat flat_map app]; fold (hplan_stmts ps); now rewrite IH.
  Qed.
  Lemma in_hports p ps : In ps plan -> In (Some p) ps -> In p (soap_hports plan).
  Proof. intros I J. unfold soap_hports. apply in_flat_map. exists ps. split; [exact I|]. apply in_flat_map. exists (Some p). split; [exact J|now left]. Qed.
  Lemma hdocument_code : service_code md5 checked server v d = Ok (flat_map (hport_stmts md5 schemas server v tns) (soap_hports plan)).
  Proof.
    destruct Hd as (T & S & f & services & Sv & F). unfold service_code. rewrite (has_get _ _ _ Sv). cbn [bind jlist]. rewrite Forall_forall in Hu.
    assert (M : mapM (fun s => ports <- py_get s "ports" ;; l <- jlist ports ;; mapM (port_code md5 checked server v d s) l) services = Ok (map hplan_stmts plan)).
    { eapply mapM_forall2; [exact F|]. intros s ps I (g & ports & P & F2). rewrite (has_get _ _ _ P). cbn [bind jlist].
      unfold hplan_stmts. eapply mapM_forall2; [exact F2|]. intros port p Ip Sp.
      destruct p as [p|]; [|now apply other_code].
      pose proof (in_hports p ps I Ip) as Inp. destruct (Hu p Inp) as (U & Uh & Us & Uc). apply hport_code; [exact S|exact T|exact Sp|exact U| | |].
      - intros Es. rewrite Forall_forall in *. intros o Io. destruct (Us o Io Es) as ((_ & X & _) & _). exact X.
      - rewrite Forall_forall in *. intros o Io. destruct (Uh o Io) as (((_ & _ & _ & W1) & (_ & _ & _ & W2) & _) & _). split; intros NE.
        + destruct (W1 NE) as (i & e & W & _). now exists i.
        + destruct (W2 NE) as (i & e & W & _). now exists i.
      - intros Es. specialize (Hf Es ps I). destruct ps as [|q ps]; [contradiction|]. cbn [hd_error] in Hf. destruct q as [q|]; [|congruence].
        inversion F2 as [|x y l l' Sq Fq]; subst. destruct Sq as (_ & (a & A & L) & _).
        pose proof (in_hports q _ I (or_introl eq_refl)) as Inq. destruct (Hu q Inq) as (Uq & _).
        destruct (urlparse_written checked (bare q) Uq) as (u & Eu). exists g, x, l, a, (written (hp_address q)), u. auto. }
    rewrite M. cbn [bind]. now rewrite concat_hplan.
  Qed.
End D.

Lemma good_method_with w schemas els server o m : good_method schemas els server w o m -> method_with w schemas els o m.
Proof. intros (ih & oh & -> & (A & _) & (B & _)). repeat split; try assumption. cbn. intros q E. now rewrite E. Qed.
Lemma good_method_of w schemas els server ops ms o : NoDup (map op_name (map ho_op ops)) -> Forall2 (good_method schemas els server w) ops ms -> In o ops ->
  exists m, find (fun m => String.eqb (gm_op m) (op_name (ho_op o))) ms = Some m /\ good_method schemas els server w o m.
Proof.
  rewrite map_map. intros N F. induction F as [|x m ops ms H F IH]; intros I; [contradiction|]. cbn [map] in N. inversion N as [|? ? Na Nl]; subst. cbn [find].
  assert (E : gm_op m = op_name (ho_op x)) by (destruct H as (ih & oh & -> & _); reflexivity). rewrite E. destruct I as [->|I].
  - rewrite String.eqb_refl. eauto.
  - destruct (String.eqb_spec (op_name (ho_op x)) (op_name (ho_op o))) as [E'|E']; [|now apply IH]. elim Na. rewrite E'. now apply (in_map (fun o => op_name (ho_op o))).
Qed.

Lemma ready_okst md5 schemas els base plan st : schemas_bound md5 st (map sp_tns schemas) els -> reached (st_world st) -> plain_base (st_world st) base ->
  elements_there (st_world st) els -> okst base md5 schemas els (now_named (st_world st) schemas els plan) st.
Proof. intros A (es & B) C D. split; [exact A|now apply (reachable_inv es)|exact C|exact D|]. intros c n d H. left. now exists c. Qed.
Lemma plan_follows w schemas els plan p o : In p (soap_hports plan) -> In o (hp_ops p) -> hop_follows schemas els (now_named w schemas els plan) o.
Proof. intros I J. split; intros i e q n Fw He Iq En; right; [exists p, o, (ho_in o), q, i, e|exists p, o, (ho_out o), q, i, e]; auto 12. Qed.

Lemma heads_client n O L md5 checked rt base root d tns schemas els plan st :
  parse_obj n O L (wn (version_from_xml root) "Definitions") root = Ok d ->
  states_hdocument d tns schemas plan -> quotable tns -> (forall s, In s schemas -> hex5 (md5 (sp_tns s))) ->
  schemas_bound md5 st (map sp_tns schemas) els -> reached (st_world st) -> plain_base (st_world st) base -> elements_there (st_world st) els ->
  Forall (fun p => usable_port (bare p) /\ Forall (usable_hop schemas els) (hp_ops p) /\ Forall client_op (map ho_op (hp_ops p))) (soap_hports plan) ->
  NoDup (map hp_name (soap_hports plan)) ->
  exists code st', code_from_wsdl n O L md5 checked false root = Ok code /\ exec_service rt base st code = Ok st' /\
    (exists es, exec_all (st_world st) es = Ok (st_world st')) /\
    (forall c name k, has_field (st_world st') c name k -> now_named (st_world st) schemas els plan name k) /\
    forall p, In p (soap_hports plan) -> exists s t,
      holds_hservice st' (version_from_xml root) tns schemas els p s /\ holds_stub st' (bare p) t /\ gt_service t = s /\
      stub_posts_to t = Ok (written (hp_address p)) /\
      forall o, In o (hp_ops p) -> exists m, method_of s (op_name (ho_op o)) = Some m /\ method_with (st_world st') schemas els o m /\
        (op_action (ho_op o) <> None -> has_action (ho_op o) m) /\
        (op_style (ho_op o) <> None \/ hp_style p = "document" -> has_style (bare p) (ho_op o) m) /\
        (callable_name (op_name (ho_op o)) -> ~ In "call" (map op_name (map ho_op (hp_ops p))) ->
         stub_operation t (op_name (ho_op o)) = Some (op_name (ho_op o))).
Proof.
  intros Ep Hd Ht Hh Hb Hr Hp He Hu Hn. set (v := version_from_xml root) in *.
  assert (Hu' : Forall (ok_port schemas els false (now_named (st_world st) schemas els plan)) (soap_hports plan)).
  { apply Forall_forall. intros p Ip. rewrite Forall_forall in Hu. destruct (Hu p Ip) as (A & B & C). split; [exact A|].
    split; [apply Forall_forall; intros o Io; rewrite Forall_forall in B; split; [now apply B|eapply plan_follows; eauto]|]. split; [|intros _; exact C]. apply Forall_forall. intros o _ [=]. }
  destruct (exec_hports rt base md5 schemas els false (now_named (st_world st) schemas els plan) Hh v tns Ht (soap_hports plan) st) as (st' & E & O' & G & F & _);
    [now apply ready_okst|exact Hu'|exact Hn|].
  eexists _, st'. split.
  { unfold code_from_wsdl. fold v. rewrite Ep. cbn [bind]. apply (hdocument_code md5 checked false v d tns schemas els plan Hd _ Hu'). discriminate. }
  split; [exact E|]. split; [exact G|]. split; [apply O'|]. intros p I. rewrite Forall_forall in F. destruct (F p I) as (ms & A & B & C).
  rewrite Forall_forall in Hu. destruct (Hu p I) as (U & Uh & Uc). pose proof U as (_ & _ & _ & _ & _ & Nd). cbn [bare po_ops] in Nd.
  exists (hservice_of els v tns p ms), (hstub_of els v tns p ms). split.
  { split; [exact A|]. repeat (split; [reflexivity|]). cbn [hservice_of gv_methods]. clear - C. induction C; constructor; [now apply (good_method_with _ _ _ false)|assumption]. }
  split; [now apply B|]. split; [reflexivity|]. split; [exact (plan_posts_to v tns els (bare p) U)|].
  intros o J. destruct (good_method_of _ _ _ _ _ _ o Nd C J) as (m & Em & Gm). exists m. split; [exact Em|]. split; [now apply (good_method_with _ _ _ false)|].
  destruct Gm as (ih & oh & -> & _). split. { unfold has_action, hop_method, action_text. cbn [gm_action]. now destruct (op_action (ho_op o)). }
  split. { unfold has_style, hop_method, style_of. cbn [gm_style bare po_style]. destruct (op_style (ho_op o)); [reflexivity|]. intros [X|X]; [congruence|now symmetry]. }
  intros Cn Nc. exact (plan_operation v tns els (bare p) (ho_op o) (in_map ho_op _ _ J) Cn Nc).
Qed.

Lemma heads_server n O L md5 checked rt base root d tns schemas els plan st :
  parse_obj n O L (wn (version_from_xml root) "Definitions") root = Ok d ->
  states_hdocument d tns schemas plan -> quotable tns -> (forall s, In s schemas -> hex5 (md5 (sp_tns s))) ->
  schemas_bound md5 st (map sp_tns schemas) els -> reached (st_world st) -> plain_base (st_world st) base -> elements_there (st_world st) els ->
  Forall (fun p => usable_port (bare p) /\ Forall (usable_hop schemas els) (hp_ops p) /\ Forall (fun o => server_op (ho_op o) /\ server_hop o) (hp_ops p))
    (soap_hports plan) -> hsoap_first plan ->
  NoDup (map hp_name (soap_hports plan)) ->
  exists code st', code_from_wsdl n O L md5 checked true root = Ok code /\ exec_service rt base st code = Ok st' /\
    (exists es, exec_all (st_world st) es = Ok (st_world st')) /\
    (forall c name k, has_field (st_world st') c name k -> now_named (st_world st) schemas els plan name k) /\
    forall p, In p (soap_hports plan) -> exists s,
      holds_hservice st' (version_from_xml root) tns schemas els p s /\
      forall o, In o (hp_ops p) -> exists m, method_of s (op_name (ho_op o)) = Some m /\ method_with (st_world st') schemas els o m /\
        (op_action (ho_op o) <> None -> has_action (ho_op o) m) /\
        (op_style (ho_op o) <> None \/ hp_style p = "document" -> has_style (bare p) (ho_op o) m) /\ implements (ho_op o) m.
Proof.
  intros Ep Hd Ht Hh Hb Hr Hp He Hu Hf Hn. set (v := version_from_xml root) in *.
  assert (Hu' : Forall (ok_port schemas els true (now_named (st_world st) schemas els plan)) (soap_hports plan)).
  { apply Forall_forall. intros p Ip. rewrite Forall_forall in Hu. destruct (Hu p Ip) as (A & B & C). split; [exact A|].
    split; [apply Forall_forall; intros o Io; rewrite Forall_forall in B; split; [now apply B|eapply plan_follows; eauto]|]. split; [|discriminate]. eapply Forall_impl; [|exact C]. intros o H _. exact H. }
  destruct (exec_hports rt base md5 schemas els true (now_named (st_world st) schemas els plan) Hh v tns Ht (soap_hports plan) st) as (st' & E & O' & G & F & _);
    [now apply ready_okst|exact Hu'|exact Hn|].
  eexists _, st'. split.
  { unfold code_from_wsdl. fold v. rewrite Ep. cbn [bind]. apply (hdocument_code md5 checked true v d tns schemas els plan Hd _ Hu'). intros _. exact Hf. }
  split; [exact E|]. split; [exact G|]. split; [apply O'|]. intros p I. rewrite Forall_forall in F. destruct (F p I) as (ms & A & B & C).
  rewrite Forall_forall in Hu. destruct (Hu p I) as (U & Uh & Us). pose proof U as (_ & _ & _ & _ & _ & Nd). cbn [bare po_ops] in Nd.
  exists (hservice_of els v tns p ms). split.
  { split; [exact A|]. repeat (split; [reflexivity|]). cbn [hservice_of gv_methods]. clear - C. induction C; constructor; [now apply (good_method_with _ _ _ true)|assumption]. }
  intros o J. destruct (good_method_of _ _ _ _ _ _ o Nd C J) as (m & Em & Gm). exists m. split; [exact Em|]. split; [now apply (good_method_with _ _ _ true)|].
  destruct Gm as (ih & oh & -> & _). split. { unfold has_action, hop_method, action_text. cbn [gm_action]. now destruct (op_action (ho_op o)). }
  split. { unfold has_style, hop_method, style_of. cbn [gm_style bare po_style]. destruct (op_style (ho_op o)); [reflexivity|]. intros [X|X]; [congruence|now symmetry]. }
  exists (plan_fn (ho_op o)). repeat split. cbn [plan_fn fn_result]. unfold out_text, out_spec. rewrite Forall_forall in Us. destruct (Us o J) as ((_ & X & _) & _).
  now destruct (op_out (ho_op o)).
Qed.
