(** Proofs about services generated from the WSDL document of a service (C76). *)
From Coq Require Import String Ascii List ZArith NArith Bool Lia.
From Verif Require Import PyBase PfBase Xml PyVal XsdSimple XsdComplex XsdSchema PyHttp Soap Dispatch Client LibClasses Py2Xsd SpecXsd Py2Wsdl Wsdl2Py PyLoad PyService PyInterop
  SpecParse SpecRound SpecNames SpecGenCode SpecGenWsdl SpecSoap SpecDispatch SpecHttp SpecClient SpecUrl SpecService SpecRegen
  PfXsd PfXsd2 PfGenWsdl PfGenWsdl2 PfGenWsdl3 PfGenWsdl4 PfGenWsdl6 PfClient3 PfService PfService2 PfService3 PfService4 PfService5 PfInterop PfRegen.
Import ListNotations.
Open Scope nat_scope.
Open Scope string_scope.
Open Scope list_scope.

(** ** The version *)
Definition tagged (t : string) (y : node) : bool := match y with Elem t' _ _ => String.eqb t' t | _ => false end.
Definition sub (t : string) (x : node) : list node := filter (tagged t) (match x with Elem _ _ kids => kids | _ => [] end).
Definition sub2 (t t2 : string) (x : node) : bool := existsb (fun b => match sub t2 b with [] => false | _ => true end) (sub t x).
Lemma version_sub x : version_from_xml x = if sub2 (clark ns_wsdl "binding") (clark ns_wsdl_soap12 "binding") x then V12 else V11.
Proof. reflexivity. Qed.

Lemma tagged_layout t x y : layout x y -> tagged t y = tagged t x.
Proof. destruct 1; reflexivity. Qed.
Lemma layout_refl_all l : Forall2 layout l l.
Proof. induction l; constructor; [apply ly_same|assumption]. Qed.
Lemma sub_layout t x y : layout x y -> Forall2 layout (sub t x) (sub t y).
Proof.
  destruct 1 as [x|tt aa k k' _ _ S]; [apply layout_refl_all|]. unfold sub. induction S as [|s k k' B S IH|x x' k k' Lx S IH]; cbn [filter].
  - constructor.
  - exact IH.
  - rewrite (tagged_layout t _ _ Lx). destruct (tagged t x); [constructor; assumption|exact IH].
Qed.
Lemma sub2_layout t t2 x y : layout x y -> sub2 t t2 y = sub2 t t2 x.
Proof.
  intros H. unfold sub2. pose proof (sub_layout t x y H) as F. clear H. induction F as [|a b l l' Lab F IH]; [reflexivity|]. cbn [existsb]. rewrite IH. f_equal.
  destruct (sub_layout t2 a b Lab); reflexivity.
Qed.
Lemma tagged_wire t x : tagged t (wire x) = tagged t x.
Proof. destruct x; reflexivity. Qed.
Lemma merge_tagged t k : filter (tagged t) (merge_text k) = filter (tagged t) k.
Proof.
  induction k as [|x k IH]; [reflexivity|]. destruct x; cbn [merge_text filter]; try (now rewrite IH).
  cbn [tagged]. rewrite <- IH. destruct (merge_text k) as [|y k']; [destruct (String.eqb s ""); reflexivity|]. destruct y; try (destruct (String.eqb s ""); reflexivity).
Qed.
Lemma sub_wire t x : sub t (wire x) = map wire (sub t x).
Proof.
  destruct x; try reflexivity. cbn [wire]. unfold sub. rewrite merge_tagged. induction kids as [|x k IH]; [reflexivity|]. cbn [map filter]. rewrite tagged_wire.
  destruct (tagged t x); cbn [map]; now rewrite IH.
Qed.
Lemma sub2_wire t t2 x : sub2 t t2 (wire x) = sub2 t t2 x.
Proof.
  unfold sub2. rewrite sub_wire. induction (sub t x) as [|a l IH]; [reflexivity|]. cbn [map existsb]. rewrite IH. f_equal. rewrite sub_wire. now destruct (sub t2 a).
Qed.
Lemma version_described O E G s root : layout (wire (describe_service O E G s)) root -> version_from_xml root = ws_version s.
Proof.
  intros H. rewrite version_sub, (sub2_layout _ _ _ _ H), sub2_wire. unfold sub2.
  change (sub (clark ns_wsdl "binding") (describe_service O E G s)) with (wsdl_kids "binding" (describe_service O E G s)). rewrite kids_binding.
  cbn [existsb]. unfold d_binding, sub, wel. rewrite filter_app.
  assert (X : forall l, filter (tagged (clark ns_wsdl_soap12 "binding")) (map (describe_bound (ws_version s)) l) = []) by (induction l; [reflexivity|exact IHl]).
  rewrite X. cbn [app filter tagged soap_el]. destruct (ws_version s); reflexivity.
Qed.

(** ** Regenerating *)
Lemma xsdspec_tns O lim E G s o : schema_describable O E G s -> generate_xsdspec O (lib_env lim) E G s = Ok o -> has o "targetNamespace" (VStr (gs_tns s)).
Proof.
  intros H Go. destruct (schema_object O lim E G 0 s H) as (i1 & i2 & ss & cs & es & Eo & _). rewrite Eo in Go. injection Go as <-. now apply has_ob.
Qed.
Lemma xsdspecs_tns O lim E G l objs : Forall (schema_describable O E G) l -> mapM (generate_xsdspec O (lib_env lim) E G) l = Ok objs ->
  Forall2 (fun o t => has o "targetNamespace" (VStr t)) objs (map gs_tns l).
Proof.
  intros F. revert objs. induction F as [|s l H F IH]; intros objs M; cbn [mapM] in M; [injection M as <-; constructor|].
  apply bind_ok in M as (o & Mo & M). apply bind_ok in M as (os & Ms & M). injection M as <-. cbn [map]. constructor; [eapply xsdspec_tns; eauto|now apply IH].
Qed.
Lemma erase_has o k v : has o k v -> has (erase o) k (erase v).
Proof.
  intros (c & xe & fs & -> & A). apply has_ob. cbn [erase]. induction fs as [|[k0 x] l IH]; [discriminate|]. cbn in *. destruct (String.eqb k k0); [now injection A as ->|now apply IH].
Qed.
Lemma erase_defs v s objs : erase (defs_of v true s objs) = defs_of v true s (map erase objs).
Proof.
  assert (X1 : map erase (flat_map (msgs v true) (ws_methods s)) = flat_map (msgs v true) (ws_methods s)).
  { induction (ws_methods s) as [|m l IH]; [reflexivity|]. cbn [flat_map]. rewrite map_app, IH. f_equal. unfold msgs. destruct v, (wm_in m), (wm_out m); reflexivity. }
  assert (X2 : map erase (map (pt_op v) (ws_methods s)) = map (pt_op v) (ws_methods s)) by (rewrite map_map; apply map_ext; intros m; destruct v; reflexivity).
  assert (X3 : map erase (map (bound_op v) (ws_methods s)) = map (bound_op v) (ws_methods s)) by (rewrite map_map; apply map_ext; intros m; destruct v; reflexivity).
  unfold defs_of. set (ms := flat_map (msgs v true) (ws_methods s)) in *. set (po := map (pt_op v) (ws_methods s)) in *. set (bo := map (bound_op v) (ws_methods s)) in *.
  clearbody ms po bo. unfold o_defs, o_types, o_portType, o_binding, o_service, o_port, o_address, o_sbinding, ob, o_doc.
  destruct v; cbn [erase map fst snd app]; now rewrite X1, X2, X3.
Qed.

Section regen.
  Variables (O : oracle) (lim : nat) (E : env) (G : decls) (k : nat) (s : wservice) (a : address) (doc : xdocument) (root : node).
  Hypothesis (Hd : service_describable O E G s) (Hr : referable s) (Hg : service_regenerable s a).
  Hypothesis (Hw : generate_wsdl (10 + k) O (lib_env lim) E G s = Ok doc) (Hl : layout (wire (xd_root doc)) root).
  Let tnss := map gs_tns (ws_schemas s).
  Let plan := [[Some (plan_of s a)]].

  Lemma regen_version : version_from_xml root = ws_version s.
  Proof. pose proof Hw as W. rewrite generate_wsdl_ok in W by exact Hd. injection W as <-. eapply version_described. exact Hl. Qed.
  Lemma regen_read : exists d, parse_obj (10 + k) O (lib_env lim) (wn (version_from_xml root) "Definitions") root = Ok d /\
    states_document d (ws_tns s) tnss plan.
  Proof.
    rewrite regen_version. pose proof Hd as (_ & _ & _ & _ & Hs & Hm). destruct (schemas_rt O lim E G k _ Hs) as (objs & M & _ & _).
    destruct (wsdl_erased O lim E G k s doc _ root Hd Hw (build_ok O lim _ E G s objs Hm M)) as (objs' & d & Eo & P & Q).
    { exists root. split; [exact Hl|now left]. }
    assert (X : objs = objs').
    { set (get := fun d => match d with VObj _ _ fs => match assoc "types" fs with Some (VObj _ _ f2) => match assoc "schemas" f2 with Some (VList _ l) => l | _ => [] end | _ => [] end | _ => [] end).
      apply (f_equal get) in Eo. destruct (ws_version s); exact Eo. }
    subst objs'.
    exists d. split; [exact P|]. apply document_erase. rewrite Q, erase_defs. destruct Hg as (_ & _ & La & _ & _ & _ & Fm).
    apply document_states; [exact Hr|exact Fm| |exact La]. pose proof (xsdspecs_tns O lim E G _ _ Hs M) as F. clear -F. unfold tnss.
    induction F as [|o t l l' Ho F IH]; [constructor|]. cbn [map]. constructor; [exact (erase_has _ _ _ Ho)|exact IH].
  Qed.
  Lemma style_quotable m : method_describable m -> quotable (wm_style m) /\ wm_style m <> "".
  Proof.
    intros (_ & _ & _ & _ & [-> | ->]); (split; [split|discriminate]).
    1, 3: intros c Hc H; vm_compute in Hc, H; repeat (destruct Hc as [<-|Hc]; [intuition discriminate|]); contradiction.
    all: split; intros H; vm_compute in H; intuition discriminate.
  Qed.
  Lemma body_quotable : quotable "body".
  Proof.
    split; [|split; intros H; vm_compute in H; intuition discriminate].
    intros c Hc H. vm_compute in Hc, H. repeat (destruct Hc as [<-|Hc]; [intuition discriminate|]); contradiction.
  Qed.
  Lemma regen_usable : Forall usable_port (soap_ports plan).
  Proof.
    destruct Hg as (Un & Ut & La & Ab & Ne & Wo & Fm). destruct Hr as (_ & _ & Rn). destruct Hd as (_ & _ & _ & _ & _ & Hm).
    constructor; [|constructor]. split; [exact Un|]. split; [exact Ab|]. split; [exact Ne|]. split; [cbn [plan_of po_address]; now rewrite <- La|].
    cbn [plan_of po_ops]. split.
    - rewrite Forall_map. apply Forall_forall. intros m I. rewrite Forall_forall in Fm, Hm. destruct (Fm m I) as (U1 & U2 & i & o & Ei & Eo & Ui & Uo).
      split; [exact U1|]. cbn [plan_op op_in op_out op_action op_style]. rewrite Ei, Eo. split; [split; [exact Ui|apply body_quotable]|].
      split; [intros p [= <-]; split; [exact Uo|apply body_quotable]|]. split; [intros x [= <-]; exact U2|]. intros x [= <-]. now apply style_quotable, Hm.
    - rewrite map_map. exact Rn.
  Qed.
  Lemma regen_names : NoDup (map po_name (soap_ports plan)).
  Proof. repeat constructor. intros []. Qed.
  Lemma regen_client : client_regenerable s -> Forall (fun p => Forall client_op (po_ops p)) (soap_ports plan).
  Proof.
    intros Hc. destruct Hg as (_ & _ & _ & _ & _ & _ & Fm). constructor; [|constructor]. cbn [plan_of po_ops]. rewrite Forall_map. apply Forall_forall. intros m I.
    rewrite Forall_forall in Fm. destruct (Fm m I) as (_ & _ & i & o & Ei & Eo & _). destruct (Hc m I) as (N1 & N2). unfold client_op. cbn [plan_op op_in]. rewrite Ei in *. cbn.
    intros [H|[H|[]]]; subst; congruence.
  Qed.
  Lemma regen_server : server_regenerable s -> Forall (fun p => Forall server_op (po_ops p)) (soap_ports plan) /\ soap_first plan.
  Proof.
    intros Hc. destruct Hg as (_ & _ & _ & _ & _ & _ & Fm). split; [|intros ps [<-|[]]; discriminate].
    constructor; [|constructor]. cbn [plan_of po_ops]. rewrite Forall_map. apply Forall_forall. intros m I.
    rewrite Forall_forall in Fm. destruct (Fm m I) as (_ & _ & i & o & Ei & Eo & _). destruct (Hc m I) as (N1 & N2 & N3).
    split; [cbn [plan_op op_in]; rewrite Ei in *; cbn; congruence|]. split; [discriminate|]. split; [exact N2|exact N3].
  Qed.
  Lemma regen_same server : Forall2 same_method (ws_methods s) (map (plan_method server) (map plan_op (ws_methods s))).
  Proof.
    destruct Hg as (_ & _ & _ & _ & _ & _ & Fm). clear -Fm. induction Fm as [|m l Hm F IH]; [constructor|]. cbn [map]. constructor; [|exact IH].
    destruct Hm as (_ & _ & i & o & Ei & Eo & _). unfold same_method. cbn. rewrite Ei, Eo. repeat split.
  Qed.
  Lemma regen_functions : Forall2 calls_function (ws_methods s) (map (plan_method true) (map plan_op (ws_methods s))).
  Proof.
    destruct Hg as (_ & _ & _ & _ & _ & _ & Fm). clear -Fm. induction Fm as [|m l Hm F IH]; [constructor|]. cbn [map]. constructor; [|exact IH].
    destruct Hm as (_ & _ & i & o & Ei & Eo & _). eexists. split; [reflexivity|]. split; [reflexivity|]. cbn. now rewrite Ei.
  Qed.
End regen.
