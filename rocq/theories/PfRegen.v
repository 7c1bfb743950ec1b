(** Proofs about services generated from the WSDL document of a service (C76): what the document states. *)
From Coq Require Import String Ascii List ZArith NArith Bool Lia.
From Verif Require Import PyBase PfBase Xml PyVal XsdSimple XsdComplex Soap Dispatch LibClasses Py2Xsd SpecXsd Py2Wsdl Wsdl2Py PyLoad PyService SpecParse SpecRound SpecNames SpecGenCode SpecGenWsdl SpecUrl SpecService SpecRegen
  PfXsd PfXsd2 PfGenWsdl PfGenWsdl2 PfGenWsdl3 PfGenWsdl4 PfGenWsdl6.
Import ListNotations.
Open Scope nat_scope.
Open Scope string_scope.
Open Scope list_scope.

(** ** What an object states does not depend on the elements it was read from *)
Lemma has_erase o k v' : has (erase o) k v' -> exists v, has o k v /\ erase v = v'.
Proof.
  intros (c & xe & fs & E & A). destruct o; try discriminate E. cbn [erase] in E. injection E as -> <- <-.
  assert (X : forall l, assoc k (map (fun p => (fst p, erase (snd p))) l) = Some v' -> exists v, assoc k l = Some v /\ erase v = v').
  { induction l as [|[k0 x] l IH]; [discriminate|]. cbn. destruct (String.eqb k k0); [intros [= <-]; eauto|exact IH]. }
  destruct (X _ A) as (v & V & Ev). exists v. split; [|exact Ev]. eexists _, _, _. split; [reflexivity|exact V].
Qed.
Lemma has_str o k t : has (erase o) k (VStr t) -> has o k (VStr t).
Proof. intros H. apply has_erase in H as (v & H & E). destruct v; try discriminate E. now injection E as ->. Qed.
Lemma has_none o k : has (erase o) k VNone -> has o k VNone.
Proof. intros H. apply has_erase in H as (v & H & E). destruct v; try discriminate E. exact H. Qed.
Lemma has_list o k b l' : has (erase o) k (VList b l') -> exists l, has o k (VList b l) /\ map erase l = l'.
Proof. intros H. apply has_erase in H as (v & H & E). destruct v; try discriminate E. injection E as -> <-. eauto. Qed.
Lemma has_maybe o k m : has (erase o) k (maybe m) -> has o k (maybe m).
Proof. destruct m; [apply has_str|apply has_none]. Qed.
Lemma forall2_erase {B} (R R' : pyval -> B -> Prop) l l' : (forall x y, R (erase x) y -> R' x y) -> Forall2 R (map erase l) l' -> Forall2 R' l l'.
Proof. intros H F. remember (map erase l) as el. revert l Heqel. induction F; intros [|z l0] E; try discriminate E; constructor; injection E as -> ->; auto. Qed.

Lemma called_erase o coll name x' : first_called (erase o) coll name x' -> exists x, first_called o coll name x /\ erase x = x'.
Proof.
  intros (b & be & af & H & N & F). apply has_list in H as (l & H & E). apply map_eq_app in E as (l1 & l2 & -> & <- & E).
  destruct l2 as [|x l2]; [discriminate|]. injection E as <- <-. exists x. split; [|reflexivity]. exists b, l1, l2. split; [exact H|].
  split; [now apply has_str|]. rewrite Forall_map in F. eapply Forall_impl; [|exact F]. intros y (n & Y & Ne). exists n. split; [now apply has_str|exact Ne].
Qed.
Lemma message_erase d pto x m' : message_at (erase d) (erase pto) x m' -> exists m, message_at d pto x m /\ erase m = m'.
Proof.
  intros (io & ref & name & H1 & H2 & H3 & H4). apply has_erase in H1 as (io0 & H1 & <-). apply has_str in H2. apply called_erase in H4 as (m & H4 & <-).
  exists m. split; [|reflexivity]. exists io0, ref, name. auto.
Qed.
Lemma takes_erase d pto x p : takes (erase d) (erase pto) x p -> takes d pto x p.
Proof.
  intros (m & b & part & eref & H1 & H2 & H3 & H4 & H5). apply message_erase in H1 as (m0 & H1 & <-). apply has_list in H2 as (l & H2 & E).
  destruct l as [|q [|]]; try discriminate E. injection E as <-. exists m0, b, q, eref. split; [exact H1|]. split; [exact H2|].
  split; [now apply has_str|]. split; [now apply has_str|exact H5].
Qed.
Lemma abstract_erase d b n pto' : abstract_op (erase d) (erase b) n pto' -> exists pto, abstract_op d b n pto /\ erase pto = pto'.
Proof.
  intros (ref & tn & pt & H1 & H2 & H3 & H4 & H5). apply has_str in H1. apply called_erase in H3 as (pt0 & H3 & <-). apply called_erase in H5 as (pto & H5 & <-).
  exists pto. split; [|reflexivity]. exists ref, tn, pt0. auto.
Qed.
Lemma operation_erase d b op o : states_operation (erase d) (erase b) (erase op) o -> states_operation d b op o.
Proof.
  intros (H1 & H2 & (so & H3 & H4 & H5) & pto & H6 & H7 & H8). split; [now apply has_str|]. split.
  { intros x Ix. destruct (H2 x Ix) as (io & Hi & Hd). apply has_erase in Hi as (io0 & Hi & <-). exists io0. split; [exact Hi|].
    destruct Hd as [E|(f & Hd)]; [left; destruct io0; try discriminate E; reflexivity|right; apply has_list in Hd as (l & Hd & E); exists f; destruct l; [exact Hd|discriminate E]]. }
  split. { apply has_erase in H3 as (so0 & H3 & <-). exists so0. split; [exact H3|]. split; now apply has_maybe. }
  apply abstract_erase in H6 as (pto0 & H6 & <-). exists pto0. split; [exact H6|]. split; [now apply takes_erase|].
  destruct (op_out o); [now apply takes_erase|now apply has_none].
Qed.
Lemma bound_erase d port b' : bound_to (erase d) (erase port) b' -> exists b, bound_to d port b /\ erase b = b'.
Proof. intros (ref & n & H1 & H2 & H3). apply has_str in H1. apply called_erase in H3 as (b & H3 & <-). exists b. split; [|reflexivity]. exists ref, n. auto. Qed.
Lemma port_erase d port p : states_port (erase d) (erase port) p -> states_port d port p.
Proof.
  intros (H1 & (a & H2 & H3) & b & bb & f & ops & H4 & H5 & H6 & H7 & H8 & H9). split; [now apply has_str|]. split.
  { apply has_erase in H2 as (a0 & H2 & <-). exists a0. split; [exact H2|now apply has_str]. }
  apply bound_erase in H4 as (b0 & H4 & <-). apply has_erase in H5 as (bb0 & H5 & <-). apply has_list in H8 as (l & H8 & <-).
  exists b0, bb0, f, l. split; [exact H4|]. split; [exact H5|]. split; [now apply has_str|]. split; [now apply has_str|]. split; [exact H8|].
  eapply forall2_erase; [|exact H9]. intros x y. apply operation_erase.
Qed.
Lemma other_erase d port : other_port (erase d) (erase port) -> other_port d port.
Proof.
  intros (b & bb & H1 & H2 & H3). apply bound_erase in H1 as (b0 & H1 & <-). apply has_erase in H2 as (bb0 & H2 & <-). exists b0, bb0.
  split; [exact H1|]. split; [exact H2|]. destruct H3 as [E|(t & H3 & N)]; [left; destruct bb0; try discriminate E; reflexivity|right; exists t; split; [now apply has_str|exact N]].
Qed.
Lemma document_erase d tns schemas plan : states_document (erase d) tns schemas plan -> states_document d tns schemas plan.
Proof.
  intros (H1 & (types & f & l & H2 & H3 & H4) & g & services & H5 & H6). split; [now apply has_str|]. split.
  - apply has_erase in H2 as (ty & H2 & <-). apply has_list in H3 as (l0 & H3 & <-). exists ty, f, l0. split; [exact H2|]. split; [exact H3|].
    eapply forall2_erase; [|exact H4]. intros x y. apply has_str.
  - apply has_list in H5 as (l0 & H5 & <-). exists g, l0. split; [exact H5|]. eapply forall2_erase; [|exact H6].
    intros x ps (f' & ports & P & F). apply has_list in P as (pl & P & <-). exists f', pl. split; [exact P|].
    eapply forall2_erase; [|exact F]. intros port [p|]; [apply port_erase|apply other_erase].
Qed.

(** ** What the objects built for a service state *)
Definition part_of (io : iospec) : part_plan := mkPp "body" match io with IOName e => e | _ => "" end.
Definition plan_op (m : wmethod) : op_plan := mkOp (wm_op m) (Some (wm_action m)) (part_of (wm_in m)) (Some (part_of (wm_out m))) (Some (wm_style m)).
Definition plan_of (s : wservice) (a : address) : port_plan := mkPort (ws_name s ++ "Port") a "document" (map plan_op (ws_methods s)).

Lemma refers_tns p n : colon_free n -> refers_to (p ++ ":" ++ n)%string n.
Proof. intros C. split; [exact C|]. right. now exists p. Qed.
Lemma has_ob o k v : match o with VObj _ _ fs => assoc k fs = Some v | _ => False end -> has o k v.
Proof. destruct o; try contradiction. intros H. eexists _, _, _. split; [reflexivity|exact H]. Qed.
Lemma called_map {A} o coll (f : A -> pyval) (nm : A -> string) b l a : has o coll (VList b (map f l)) -> (forall a, has (f a) "name" (VStr (nm a))) ->
  In a l -> NoDup (map nm l) -> first_called o coll (nm a) (f a).
Proof.
  intros H N I D. destruct (in_split _ _ I) as (l1 & l2 & ->). exists b, (map f l1), (map f l2). split; [now rewrite <- (map_cons f), <- map_app|].
  split; [apply N|]. rewrite Forall_map. apply Forall_forall. intros x Ix. exists (nm x). split; [apply N|]. intros E.
  rewrite map_app in D. cbn [map] in D. apply NoDup_remove_2 in D. apply D, in_or_app. left. rewrite <- E. now apply in_map.
Qed.

Section states.
  Variables (v : soapver) (s : wservice) (a : address) (objs : list pyval) (tnss : list string).
  Hypothesis (R : referable s) (G : Forall method_regenerable (ws_methods s)) (Ob : Forall2 (fun o t => has o "targetNamespace" (VStr t)) objs tnss).
  Hypothesis (La : ws_location s = written a).
  Let d := defs_of v true s objs.

  Ltac ho := apply has_ob; destruct v; reflexivity.
  Lemma d_messages : has d "messages" (VList true (map (fun p => o_message v true (fst p) (io_part v (snd p))) (msg_list (ws_methods s)))).
  Proof. rewrite <- msgs_map. ho. Qed.
  Lemma takes_ok m x io : In m (ws_methods s) -> In (x, io) [("input", wm_in m); ("output", wm_out m)] -> takes d (pt_op v m) x (part_of io).
  Proof.
    intros I J. destruct R as (_ & Rc & Rn). rewrite Forall_forall in Rc, G. destruct (G m I) as (_ & _ & i & o & Ei & Eo & Ui & Uo).
    assert (X : exists e, io = IOName e /\ usable_name e). { destruct J as [[= <- <-]|[[= <- <-]|[]]]; eauto. }
    destruct X as (e & -> & Ue).
    set (nm := (wm_op m ++ (if String.eqb x "input" then "Input" else "Output"))%string).
    assert (In (nm, IOName e) (msg_list (ws_methods s))).
    { unfold msg_list. apply in_flat_map. exists m. split; [exact I|]. unfold nm. destruct J as [[= <- E]|[[= <- E]|[]]]; rewrite <- E; cbn; tauto. }
    exists (o_message v true nm (io_part v (IOName e))), true, (io_part v (IOName e)), ("sns:" ++ e)%string. split.
    { exists (o_io v (if String.eqb x "input" then "Input" else "Output") (Some ("tns:" ++ nm)%string) VNone), ("tns:" ++ nm)%string, nm. split; [unfold nm; destruct J as [[= <- _]|[[= <- _]|[]]]; ho|]. split.
      { unfold nm. destruct J as [[= <- _]|[[= <- _]|[]]]; ho. }
      split. { apply (refers_tns "tns"). unfold nm. apply colon_app; [now apply Rc|]. destruct (String.eqb x "input"); vm_compute; intuition discriminate. }
      apply (called_map _ _ (fun p => o_message v true (fst p) (io_part v (snd p))) fst true (msg_list (ws_methods s)) (nm, IOName e) d_messages).
      - intros p. ho.
      - assumption.
      - now apply msg_names. }
    split; [ho|]. split; [ho|]. split; [ho|]. split.
    - apply (refers_tns "sns"). intros C. destruct Ue as (_ & Uc & _). destruct (Uc _ C) as [L|L]; vm_compute in L; intuition congruence.
    - destruct Ue as ((c & t & -> & _) & _). discriminate.
  Qed.
  Lemma document_states : states_document d (ws_tns s) tnss [[Some (plan_of s a)]].
  Proof.
    split; [ho|]. split. { eexists _, true, objs. split; [ho|]. split; [ho|]. exact Ob. }
    destruct R as (Rs & Rc & Rn). assert (CN : forall x, colon_free x -> colon_free (ws_name s ++ x)%string) by (intros; now apply colon_app).
    eexists true, [_]. split; [ho|]. constructor; [|constructor]. eexists true, [_]. split; [ho|]. constructor; [|constructor].
    split; [ho|]. split. { eexists. split; [ho|]. cbn [plan_of po_address]. rewrite <- La. ho. }
    eexists _, _, true, (map (bound_op v) (ws_methods s)). split.
    { eexists _, (ws_name s ++ "Binding")%string. split; [ho|]. split; [apply (refers_tns "tns"), CN; vm_compute; intuition discriminate|].
      eexists true, [], []. split; [ho|]. split; [ho|constructor]. }
    split; [ho|]. split; [ho|]. split; [ho|]. split; [ho|]. cbn [plan_of po_ops].
    assert (X : forall l, (forall m, In m l -> In m (ws_methods s)) ->
      Forall2 (states_operation d (o_binding v (ws_name s ++ "Binding") ("tns:" ++ ws_name s ++ "PortType") (map (bound_op v) (ws_methods s)))) (map (bound_op v) l) (map plan_op l)).
    { induction l as [|m l IH]; intros Il; [constructor|]. cbn [map]. constructor; [|apply IH; intros; apply Il; now right].
      assert (I : In m (ws_methods s)) by (apply Il; now left).
      split; [ho|]. split. { intros x [<-|[<-|[]]]; (eexists; split; [ho|right; eexists; ho]). }
      split. { eexists. split; [ho|]. split; ho. }
      exists (pt_op v m). split.
      { eexists _, (ws_name s ++ "PortType")%string, _. split; [ho|]. split; [apply (refers_tns "tns"), CN; vm_compute; intuition discriminate|].
        split. { eexists true, [], []. split; [ho|]. split; [ho|constructor]. }
        rewrite Forall_forall in Rc. split; [now apply Rc|]. apply (called_map _ _ (pt_op v) wm_op true (ws_methods s) m); [ho|intros; ho|exact I|exact Rn]. }
      split; [apply takes_ok; cbn; auto|]. cbn [plan_op op_out]. apply takes_ok; cbn; auto. }
    apply X. auto.
  Qed.
End states.
