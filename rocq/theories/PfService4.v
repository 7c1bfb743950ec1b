(** Proofs about services generated from WSDL: running the statements (C74). *)
From Coq Require Import String Ascii List ZArith NArith Bool Lia.
From Verif Require Import PyBase PfBase PyVal XsdSimple XsdComplex XsdMeta PyHttp Soap Client Dispatch LibClasses Py2Xsd Py2Wsdl GenNames
  Xsd2Py PyLoad PyUrl PfUrl SpecUrl Wsdl2Py PyService SpecNames SpecGenCode SpecService PfGenCode PfService PfService2 PfService3.
Import ListNotations.
Open Scope nat_scope.
Open Scope string_scope.
Open Scope list_scope.

Definition binds (st : wstate) (l : list (string * wval)) : wstate := fold_left (fun st p => bind_name st (fst p) (snd p)) l st.
Lemma binds_app st l l' : binds st (l ++ l') = binds (binds st l) l'.
Proof. apply fold_left_app. Qed.
Lemma binds_world st l : st_world (binds st l) = st_world st.
Proof. revert st. induction l as [|p l IH]; intros st; [reflexivity|]. exact (IH (bind_name st (fst p) (snd p))). Qed.
Lemma binds_other st l n : ~ In n (map fst l) -> assoc n (st_names (binds st l)) = assoc n (st_names st).
Proof.
  revert st. induction l as [|[m x] l IH]; intros st H; [reflexivity|]. cbn [map fst In] in H.
  change (assoc n (st_names (binds (bind_name st m x) l)) = assoc n (st_names st)). rewrite IH by tauto.
  cbn [bind_name st_names]. apply assoc_set_other. intuition congruence.
Qed.
Lemma binds_in st l n x : In (n, x) l -> (forall y, In (n, y) l -> y = x) -> assoc n (st_names (binds st l)) = Some x.
Proof.
  revert st. induction l as [|[m y] l IH]; intros st I U; [contradiction|]. change (assoc n (st_names (binds (bind_name st m y) l)) = Some x).
  destruct (in_dec string_dec n (map fst l)) as [J|J].
  - apply in_map_iff in J. destruct J as ([n' z] & E & J). cbn [fst] in E. subst n'. apply IH.
    + rewrite (U z (or_intror J)) in J. exact J.
    + intros w K. apply U. now right.
  - rewrite binds_other by exact J.
    destruct I as [E|I]; [injection E as -> ->; apply assoc_set_same|]. elim J. apply in_map_iff. now exists (n, x).
Qed.

Section E.
  Variables (rt : runtime) (base : nat).
  Lemma fold_binds {A} (I : wstate -> Prop) (f : A -> wstmt) (g : A -> string * wval) l st :
    I st ->
    (forall x st, In x l -> I st -> exec_stmt rt base st (f x) = Ok (binds st [g x]) /\ I (binds st [g x])) ->
    foldM (exec_stmt rt base) st (map f l) = Ok (binds st (map g l)) /\ I (binds st (map g l)).
  Proof.
    revert st. induction l as [|x l IH]; intros st H K; [split; [reflexivity|exact H]|].
    destruct (K x st (or_introl eq_refl) H) as (E & H'). cbn [map foldM]. rewrite E. cbn [bind].
    change (g x :: map g l) with ([g x] ++ map g l). rewrite binds_app. apply IH; [exact H'|]. intros y s J. apply K. now right.
  Qed.
  Lemma fold_binds_list {A} (I : wstate -> Prop) (f : A -> list wstmt) (g : A -> list (string * wval)) l st :
    I st ->
    (forall x st, In x l -> I st -> foldM (exec_stmt rt base) st (f x) = Ok (binds st (g x)) /\ I (binds st (g x))) ->
    foldM (exec_stmt rt base) st (flat_map f l) = Ok (binds st (flat_map g l)) /\ I (binds st (flat_map g l)).
  Proof.
    revert st. induction l as [|x l IH]; intros st H K; [split; [reflexivity|exact H]|].
    destruct (K x st (or_introl eq_refl) H) as (E & H'). cbn [flat_map]. rewrite foldM_app, E. cbn [bind]. rewrite binds_app.
    apply IH; [exact H'|]. intros y s J. apply K. now right.
  Qed.

  Definition plan_fn (o : op_plan) : gfunction := mkFn (op_name o) (pp_element (op_in o)) (out_text o).
  Definition plan_method (server : bool) (o : op_plan) : gmethod :=
    mkGm (op_name o) (action_text o) (IOName (pp_element (op_in o))) (out_spec (op_out o)) (pp_name (op_in o))
      (match op_out o with Some p => pp_name p | None => "body" end) None None
      (if server then Some (plan_fn o) else None) (match op_style o with Some s => s | None => "document" end).
  Definition plan_service (server : bool) (v : soapver) (tns : string) (els : list elements_of) (p : port_plan) : gservice :=
    mkGsv (po_name p) tns (template_text p) els v (map (plan_method server) (po_ops p)).
  Definition plan_stub (v : soapver) (tns : string) (els : list elements_of) (p : port_plan) : gstub :=
    mkGst (plan_service false v tns els p) (a_scheme (po_address p)) (a_authority (po_address p))
      (map (fun o => (op_name o, op_name o)) (po_ops p)).

  Definition fn_bind (o : op_plan) : string * wval := (op_name o, WvFunction (plan_fn o)).
  Definition method_bind (server : bool) (o : op_plan) : string * wval := (op_name o ++ "_method", WvMethod (plan_method server o))%string.
  Definition service_bind server v tns els (p : port_plan) : string * wval :=
    (po_name p ++ "_SERVICE", WvService (plan_service server v tns els p))%string.
  Definition stub_bind v tns els (p : port_plan) : string * wval := (po_name p ++ "ServiceStub", WvStub (plan_stub v tns els p))%string.
  Definition port_binds (server : bool) v tns els (p : port_plan) : list (string * wval) :=
    (if server then map fn_bind (po_ops p) else []) ++ map (method_bind server) (po_ops p) ++
    [service_bind server v tns els p] ++ (if server then [] else [stub_bind v tns els p]).

  Lemma exec_fn o st : usable_op o -> server_op o -> exec_stmt rt base st (fn_stmt o) = Ok (binds st [fn_bind o]).
  Proof.
    intros (N & (I & _) & O & _) (R & Oo & M & _). unfold fn_stmt, exec_stmt. rewrite (usable_ident _ N), (usable_ident _ I).
    destruct (String.eqb_spec (pp_element (op_in o)) "request"); [contradiction|]. cbn [andb negb].
    assert (K : identifier (out_text o) = true). { unfold out_text. destruct (op_out o) as [p|]; [|congruence]. destruct (O p eq_refl). now apply usable_ident. }
    rewrite K. cbn [orb]. destruct (str_in (op_name o) names_used) eqn:E; [|reflexivity]. apply str_in_spec in E. contradiction.
  Qed.
  Lemma method_ident o : usable_op o -> identifier (op_name o ++ "_method") = true.
  Proof. intros (N & _). apply suffix_ident; [exact N|vm_compute; reflexivity..]. Qed.
  Lemma exec_method server o st : usable_op o -> (server = true -> assoc (op_name o) (st_names st) = Some (WvFunction (plan_fn o))) ->
    exec_stmt rt base st (method_stmt server o) = Ok (binds st [method_bind server o]).
  Proof.
    intros U F. pose proof (method_ident _ U) as MI. destruct U as (N & (I & Ip) & O & A & S). unfold method_stmt, exec_stmt. rewrite MI. cbn [negb].
    assert (Qa : literal rt false (action_text o) = Ok (action_text o)).
    { apply quotable_literal. unfold action_text. destruct (op_action o) as [a|]; [now apply A|]. split.
      - intros c Hc Hd. cbn in Hc, Hd. unfold holds in *. cbn in *. intuition congruence.
      - split; intros H; cbn in H; intuition discriminate. }
    assert (Qi : literal rt false (pp_element (op_in o)) = Ok (pp_element (op_in o))) by now apply usable_literal.
    assert (Qp : literal rt false (pp_name (op_in o)) = Ok (pp_name (op_in o))) by now apply quotable_literal.
    assert (Qn : literal rt false (op_name o) = Ok (op_name o)) by now apply usable_literal.
    assert (Ff : function_value st (plan_kw server o) = Ok (if server then Some (plan_fn o) else None)).
    { unfold function_value, plan_kw. destruct server.
      - cbn [app assoc String.eqb Ascii.eqb Bool.eqb]. unfold lookup. rewrite (usable_ident _ N), (F eq_refl). reflexivity.
      - destruct (op_out o); destruct (op_style o); reflexivity. }
    unfold new_method. rewrite Ff. cbn [bind].
    assert (X : (if true then text_arg rt (plan_kw server o) "soapAction" "" else Ok "") = Ok (action_text o)) by
      (unfold text_arg, plan_kw; destruct server; cbn [app assoc String.eqb Ascii.eqb Bool.eqb]; exact Qa). cbn iota in X. rewrite X. cbn [bind].
    assert (X2 : io_arg rt st (plan_kw server o) "input" = Ok (IOName (pp_element (op_in o)))) by
      (unfold io_arg, plan_kw; destruct server; cbn [app assoc String.eqb Ascii.eqb Bool.eqb]; rewrite Qi; reflexivity). rewrite X2. cbn [bind].
    assert (X3 : text_arg rt (plan_kw server o) "inputPartName" "body" = Ok (pp_name (op_in o))) by
      (unfold text_arg, plan_kw; destruct server; cbn [app assoc String.eqb Ascii.eqb Bool.eqb]; exact Qp). rewrite X3. cbn [bind].
    assert (X4 : forall k, k = "input_header" \/ k = "output_header" -> header_value st (plan_kw server o) k = Ok None).
    { intros k [-> | ->]; unfold header_value, plan_kw; destruct server, (op_out o), (op_style o); reflexivity. }
    rewrite (X4 "input_header") by auto. cbn [bind].
    assert (X5 : io_arg rt st (plan_kw server o) "output" = Ok (out_spec (op_out o))).
    { unfold io_arg, plan_kw. destruct (op_out o) as [p|].
      - destruct (O p eq_refl) as (Pe & _). destruct server; cbn [app assoc String.eqb Ascii.eqb Bool.eqb]; rewrite (usable_literal rt false _ Pe); reflexivity.
      - destruct server, (op_style o); reflexivity. }
    rewrite X5. cbn [bind].
    assert (X6 : text_arg rt (plan_kw server o) "outputPartName" "body" = Ok (match op_out o with Some p => pp_name p | None => "body" end)).
    { unfold text_arg, plan_kw. destruct (op_out o) as [p|].
      - destruct (O p eq_refl) as (_ & Pn). destruct server; cbn [app assoc String.eqb Ascii.eqb Bool.eqb]; apply quotable_literal, Pn.
      - destruct server, (op_style o); reflexivity. }
    rewrite X6. cbn [bind]. rewrite (X4 "output_header") by auto. cbn [bind].
    assert (X7 : text_arg rt (plan_kw server o) "operationName" "" = Ok (op_name o)) by
      (unfold text_arg, plan_kw; destruct server, (op_out o); cbn [app assoc String.eqb Ascii.eqb Bool.eqb]; exact Qn). rewrite X7. cbn [bind].
    assert (X8 : text_arg rt (plan_kw server o) "style" "document" = Ok (match op_style o with Some s => s | None => "document" end)).
    { unfold text_arg, plan_kw. destruct (op_style o) as [s|].
      - destruct (S s eq_refl) as (Qs & _). destruct server, (op_out o); cbn [app assoc String.eqb Ascii.eqb Bool.eqb]; now apply quotable_literal.
      - destruct server, (op_out o); reflexivity. }
    rewrite X8. reflexivity.
  Qed.

  Variables (md5 : string -> string) (server : bool) (v : soapver) (tns : string) (schemas : list string) (els : list elements_of).
  Hypothesis Htns : quotable tns.
  Hypothesis Hhex : forall s, In s schemas -> hex5 (md5 s).

  Lemma quotable_app a b : quotable a -> quotable b -> quotable (a ++ b).
  Proof.
    intros (A & A') (B & B'). split.
    - intros c Hc H. unfold holds in *. rewrite to_l_app in H. apply in_app_or in H. destruct H; [eapply A|eapply B]; eauto.
    - destruct A', B'. split; fold (to_l (a ++ b)); rewrite to_l_app; intros H'; apply in_app_or in H'; tauto.
  Qed.

  Lemma quotable_part a b : quotable (a ++ b) -> quotable a /\ quotable b.
  Proof.
    intros (A & A'). unfold quotable, without, holds, no_break in *. fold (to_l (a ++ b)) in A'. rewrite to_l_app in A'. destruct A' as [A' A2]. split; split.
    - intros c Hc H. apply (A c Hc). rewrite to_l_app. apply in_or_app. now left.
    - split; intros H; [apply A', in_or_app|apply A2, in_or_app]; now left.
    - intros c Hc H. apply (A c Hc). rewrite to_l_app. apply in_or_app. now right.
    - split; intros H; [apply A', in_or_app|apply A2, in_or_app]; now right.
  Qed.
  Lemma address_quotable p : usable_port p -> quotable (written (po_address p)).
  Proof.
    intros (_ & (_ & _ & _ & _ & _ & _ & _ & _ & A9) & _ & W & _). split.
    - intros c Hc. apply W. unfold holds in *. cbn in *. tauto.
    - split; intros H; apply (A9 _ H); cbn; tauto.
  Qed.
  Lemma address_parts p : usable_port p -> quotable (a_scheme (po_address p)) /\ quotable (a_authority (po_address p)) /\ quotable (resource (po_address p)).
  Proof.
    intros U. pose proof (address_quotable _ U) as Q. unfold written, at_host in Q. apply quotable_part in Q. destruct Q as (Q1 & Q).
    apply quotable_part in Q. destruct Q as (_ & Q). now apply quotable_part in Q.
  Qed.
  Lemma template_quotable p : usable_port p -> quotable (template_text p).
  Proof.
    intros U. destruct (address_parts p U) as (_ & _ & Q). apply quotable_app; [|exact Q]. split.
    - intros c Hc H. unfold holds in *. cbn in Hc, H. intuition congruence.
    - split; cbn; intuition discriminate.
  Qed.

  (** What holds before every port. *)
  Definition ready (st : wstate) : Prop := schemas_bound md5 st schemas els.
  Definition not_schema (n : string) : Prop := forall s, hex5 s -> n <> ("Schema_" ++ s)%string.
  Lemma ready_binds st l : ready st -> (forall n, In n (map fst l) -> not_schema n) -> ready (binds st l).
  Proof.
    intros R H. unfold ready, schemas_bound in *. revert Hhex. induction R as [|ns e ss es E R IH]; intros Hh; [constructor|]. constructor.
    - rewrite binds_other; [exact E|]. intros I. apply (H _ I (md5 ns)); [apply Hh; now left|reflexivity].
    - apply IH. intros s I. apply Hh. now right.
  Qed.
  Lemma method_not_schema o : not_schema (op_name o ++ "_method").
  Proof. intros s H E. now apply (hex_method s (op_name o) H). Qed.
  Lemma schemas_found st : ready st ->
    mapM (fun s => x <- lookup st s ;; match x with WvSchema e => Ok e | _ => Err TypeError end) (map (fun ns => "Schema_" ++ md5 ns)%string schemas) = Ok els.
  Proof.
    intros R. unfold ready, schemas_bound in R. revert Hhex. induction R as [|ns e ss es E R IH]; intros Hh; [reflexivity|].
    cbn [map mapM]. unfold lookup at 1. rewrite (hex_ident (md5 ns)) by (apply Hh; now left). rewrite E. cbn [bind].
    rewrite IH by (intros s I; apply Hh; now right). reflexivity.
  Qed.

  Lemma calls_folded (ops : list op_plan) acc : Forall usable_op ops -> Forall client_op ops -> NoDup (map fst acc ++ map op_name ops) ->
    foldM (fun cs c => let '(op, p) := c in
             if identifier op && identifier p && negb (str_in p ["self"; "header"]) then Ok (assoc_set op op cs) else Err SyntaxError)
      acc (map (fun o => (op_name o, pp_element (op_in o))) ops) = Ok (acc ++ map (fun o => (op_name o, op_name o)) ops).
  Proof.
    revert acc. induction ops as [|o ops IH]; intros acc U C N; [now rewrite app_nil_r|]. cbn [map foldM].
    inversion U as [|? ? Uo Us]; subst. inversion C as [|? ? Co Cs]; subst.
    destruct Uo as (Un & (Ui & _) & _). rewrite (usable_ident _ Un), (usable_ident _ Ui). cbn [andb].
    destruct (str_in (pp_element (op_in o)) ["self"; "header"]) eqn:E; [apply str_in_spec in E; contradiction|]. cbn [negb bind].
    assert (K : assoc_set (op_name o) (op_name o) acc = acc ++ [(op_name o, op_name o)]).
    { assert (Nin : ~ In (op_name o) (map fst acc)).
      { cbn [map] in N. apply NoDup_remove_2 in N. intros I. apply N, in_or_app. now left. }
      clear - Nin. induction acc as [|[k x] acc IH]; [reflexivity|]. cbn [map fst In] in Nin. cbn [assoc_set app].
      destruct (String.eqb_spec (op_name o) k) as [E|E]; [elim Nin; now left|]. rewrite IH by tauto. reflexivity. }
    rewrite K. rewrite IH; [now rewrite <- app_assoc|exact Us|exact Cs|]. rewrite map_app, <- app_assoc. exact N.
  Qed.

  Lemma methods_found st ops : (forall o, In o ops -> lookup st (op_name o ++ "_method") = Ok (WvMethod (plan_method server o))) ->
    mapM (fun m => x <- lookup st m ;; match x with WvMethod m => Ok m | _ => Err TypeError end)
      (map (fun o => op_name o ++ "_method")%string ops) = Ok (map (plan_method server) ops).
  Proof.
    induction ops as [|o l IH]; intros L; [reflexivity|]. cbn [map mapM]. rewrite (L o (or_introl eq_refl)). cbn [bind].
    rewrite IH by (intros; apply L; now right). reflexivity.
  Qed.

  Lemma exec_port p st : usable_port p -> (server = true -> Forall server_op (po_ops p)) -> (server = false -> Forall client_op (po_ops p)) -> ready st ->
    foldM (exec_stmt rt base) st (port_stmts md5 server v tns schemas p) = Ok (binds st (port_binds server v tns els p)) /\
    ready (binds st (port_binds server v tns els p)).
  Proof.
    intros U So Co R. pose proof U as (Un & _ & _ & _ & Uo & Nd). rewrite Forall_forall in Uo.
    set (fs := if server then map fn_bind (po_ops p) else []).
    assert (F : foldM (exec_stmt rt base) st (if server then map fn_stmt (po_ops p) else []) = Ok (binds st fs) /\ ready (binds st fs)).
    { subst fs. destruct server; [|split; [reflexivity|exact R]]. specialize (So eq_refl). rewrite Forall_forall in So.
      apply fold_binds; [exact R|]. intros o s I Rs. split; [apply exec_fn; auto|]. apply ready_binds; [exact Rs|].
      intros n [<-|[]] h _. destruct (So o I) as (_ & _ & _ & X). now apply X. }
    destruct F as (F1 & F2).
    set (I := fun s => ready s /\ (server = true -> forall o, In o (po_ops p) -> assoc (op_name o) (st_names s) = Some (WvFunction (plan_fn o)))).
    assert (M : foldM (exec_stmt rt base) (binds st fs) (map (method_stmt server) (po_ops p)) = Ok (binds (binds st fs) (map (method_bind server) (po_ops p))) /\
                I (binds (binds st fs) (map (method_bind server) (po_ops p)))).
    { apply fold_binds.
      - split; [exact F2|]. intros Sv o Io. subst fs. rewrite Sv. apply binds_in; [apply in_map_iff; now exists o|].
        intros y J. apply in_map_iff in J. destruct J as (o' & E & J). injection E as E <-. f_equal. f_equal.
        clear - Nd Io J E. revert o o' Io J E. induction (po_ops p) as [|a l IH]; intros o o' Io J E; [contradiction|].
        inversion Nd as [|? ? Na Nl]; subst. destruct Io as [<-|Io], J as [<-|J]; auto.
        + elim Na. rewrite <- E. now apply in_map.
        + elim Na. rewrite E. now apply in_map.
      - intros o s J (Rs & Fs). split; [apply exec_method; auto|]. split.
        + apply ready_binds; [exact Rs|]. intros n [<-|[]]. apply method_not_schema.
        + intros Sv o' J'. rewrite binds_other; [auto|]. intros [E|[]]. cbn [method_bind fst] in E. specialize (So Sv). rewrite Forall_forall in So.
          destruct (So o' J') as (_ & _ & _ & X). destruct (X (op_name o)) as (X' & _). now apply X'. }
    destruct M as (M1 & M2 & _). set (st2 := binds (binds st fs) (map (method_bind server) (po_ops p))) in *.
    unfold port_stmts, port_binds. fold fs. rewrite foldM_app, F1. cbn [bind]. rewrite foldM_app, M1. cbn [bind]. rewrite !binds_app. fold st2.
    assert (Sx : exec_stmt rt base st2 (service_stmt md5 v tns schemas p) = Ok (binds st2 [service_bind server v tns els p])).
    { unfold service_stmt, exec_stmt. rewrite suffix_ident; [|exact Un|vm_compute; reflexivity..]. cbn [negb].
      rewrite (usable_literal rt false _ Un). cbn [bind]. rewrite (quotable_literal rt false _ Htns). cbn [bind].
      rewrite (quotable_literal rt false _ (template_quotable p U)). cbn [bind]. rewrite (schemas_found _ M2). cbn [bind].
      assert (Ms : mapM (fun m => x <- lookup st2 m ;; match x with WvMethod m => Ok m | _ => Err TypeError end)
                     (map (fun o => op_name o ++ "_method")%string (po_ops p)) = Ok (map (plan_method server) (po_ops p))).
      { assert (L : forall o, In o (po_ops p) -> lookup st2 (op_name o ++ "_method") = Ok (WvMethod (plan_method server o))).
        { intros o J. unfold lookup. rewrite (method_ident _ (Uo o J)). unfold st2. rewrite (binds_in _ _ _ (WvMethod (plan_method server o))); [reflexivity| |].
          - apply in_map_iff. now exists o.
          - intros y K. apply in_map_iff in K. destruct K as (o' & E & K). injection E as E <-. apply app_inj_r in E. f_equal. f_equal.
            clear - Nd J K E. revert o o' J K E. induction (po_ops p) as [|a l IH]; intros o o' Io J E; [contradiction|].
            inversion Nd as [|? ? Na Nl]; subst. destruct Io as [<-|Io], J as [<-|J]; auto.
            + elim Na. rewrite <- E. now apply in_map.
            + elim Na. rewrite E. now apply in_map. }
        exact (methods_found _ _ L). }
      rewrite Ms. reflexivity. }
    assert (Rs : ready (binds st2 [service_bind server v tns els p])).
    { apply ready_binds; [exact M2|]. intros n [<-|[]] h Hh E. now apply (hex_service h (po_name p) Hh). }
    cbn [app foldM]. rewrite Sx. cbn [bind]. clearbody st2. clear F1 F2 M1 Sx I.
    destruct server eqn:Sv.
    - split; [reflexivity|]. cbn [binds fold_left]. exact Rs.
    - split.
      + cbn [foldM]. unfold stub_stmt, exec_stmt. rewrite suffix_ident; [|exact Un|vm_compute; reflexivity..]. cbn [negb].
        unfold lookup at 1. rewrite suffix_ident; [|exact Un|vm_compute; reflexivity..].
        rewrite (binds_in _ _ _ (WvService (plan_service false v tns els p))); [|now left|intros y [E|[]]; now injection E as <-].
        cbn [bind]. destruct (address_parts p U) as (Q1 & Q2 & _). rewrite (quotable_literal rt false _ Q1). cbn [bind].
        rewrite (quotable_literal rt false _ Q2). cbn [bind]. rewrite calls_folded; [reflexivity|now apply Forall_forall|now apply Co|exact Nd].
      + apply ready_binds; [exact Rs|]. intros n [<-|[]] h Hh E. now apply (hex_stub h (po_name p) Hh).
  Qed.
End E.
