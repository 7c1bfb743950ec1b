(** Definitions referred to by messages; looking up messages. *)
From Coq Require Import String Ascii List ZArith NArith Bool Lia.
From Verif Require Import PyBase PfBase PyRe Xml PyVal XsdSimple XsdComplex PyHttp Soap Client Dispatch LibClasses Py2Xsd SpecXsd
  Py2Wsdl SpecFacets SpecGenWsdl PfSimple PfXsd3 PfGenWsdl PfGenWsdl2 PfGenWsdl3.
From Verif Require PfNames.
Import ListNotations.
Open Scope string_scope.
Open Scope list_scope.
Open Scope nat_scope.

(** ** Definitions *)
Lemma io_defined_ok O E G s sc rest io : ws_schemas s = sc :: rest -> schema_has sc io ->
  io_defined (mkDoc (wsdl_prefixes s) (describe_service O E G s)) (wel "part" (("name", "body") :: io_ref io) []).
Proof.
  intros Hs Hi. unfold io_defined. destruct io as [|e|c]; cbn [schema_has] in Hi; [destruct Hi| |].
  - left. exists ("sns:" ++ e)%string. split; [reflexivity|]. apply in_map_iff in Hi as (p & <- & Hp).
    exists "sns", (fst p), (gs_tns sc), (d_types O E G s), (describe_schema O E G sc), (describe_toplevel O E G p).
    cbn [xd_root xd_prefixes]. rewrite kids_types. split; [reflexivity|]. split; [unfold wsdl_prefixes; rewrite Hs; reflexivity|].
    split; [now left|]. split; [apply in_tagged; cbn [d_types wel subnodes]; rewrite Hs; now left|]. split; [reflexivity|]. split; [|reflexivity].
    apply in_tagged. cbn [describe_schema xel subnodes]. rewrite !in_app_iff. right. right. right. right. exact (in_map (describe_toplevel O E G) _ _ Hp).
  - right. exists ("sns:" ++ type_name c)%string. split; [reflexivity|].
    exists "sns", (type_name c), (gs_tns sc), (d_types O E G s), (describe_schema O E G sc), (describe_class O G true c (class_of E c)).
    cbn [xd_root xd_prefixes]. rewrite kids_types. split; [reflexivity|]. split; [unfold wsdl_prefixes; rewrite Hs; reflexivity|].
    split; [now left|]. split; [apply in_tagged; cbn [d_types wel subnodes]; rewrite Hs; now left|]. split; [reflexivity|]. split; [|reflexivity].
    apply in_tagged. cbn [describe_schema xel subnodes]. rewrite !in_app_iff. right. right. right. left.
    exact (in_map (fun c => describe_class O G true c (class_of E c)) _ _ Hi).
Qed.

(** ** Lookup *)
Lemma last_split p n : ~ In ":"%char (to_l p) -> colon_free n -> last (str_split ":" (p ++ ":" ++ n)) "" = n.
Proof.
  intros Hp Hn. unfold str_split. rewrite to_l_app. cbn [to_l append]. rewrite PfNames.split_two by assumption. cbn. apply of_to.
Qed.
Lemma last_plain n : colon_free n -> last (str_split ":" n) "" = n.
Proof. intros Hn. unfold str_split. rewrite PfNames.split_one by assumption. cbn. apply of_to. Qed.
Lemma tns_colon : ~ In ":"%char (to_l "tns").
Proof. vm_compute. intuition discriminate. Qed.

Lemma first_named_ok {A} (obj : A -> pyval) (nm : A -> string) l a :
  (forall a, py_get (obj a) "name" = Ok (VStr (nm a))) -> NoDup (map nm l) -> In a l -> first_named (map obj l) (nm a) = Ok (obj a).
Proof.
  intros Hn. induction l as [|x l IH]; cbn [map first_named]; intros N []; inversion N; subst; rewrite Hn; cbn [bind py_eqb num_of].
  - now rewrite String.eqb_refl.
  - destruct (String.eqb_spec (nm x) (nm a)) as [E1|]; [|now apply IH]. exfalso. apply H2. rewrite E1. now apply in_map.
Qed.

(** The messages, one by one. *)
Definition msg_list (l : list wmethod) : list (string * iospec) :=
  flat_map (fun m => [((wm_op m ++ "Input")%string, wm_in m); ((wm_op m ++ "Output")%string, wm_out m)]) l.
Lemma msgs_map v b l : flat_map (msgs v b) l = map (fun p => o_message v b (fst p) (io_part v (snd p))) (msg_list l).
Proof. induction l as [|m l IH]; [reflexivity|]. cbn [flat_map msg_list map app msgs fst snd]. now rewrite IH. Qed.
Lemma msg_names l : NoDup (map wm_op l) -> NoDup (map fst (msg_list l)).
Proof.
  assert (X : forall l n, In n (map fst (msg_list l)) -> exists m, In m l /\ (n = (wm_op m ++ "Input")%string \/ n = (wm_op m ++ "Output")%string)).
  { clear l. induction l as [|m l IH]; cbn; [tauto|]. intros n [<- |[<- |H]]; [exists m; auto|exists m; auto|].
    destruct (IH n H) as (m' & H1 & H2). exists m'. auto. }
  induction l as [|m l IH]; intros N; cbn; [constructor|]. inversion N; subst.
  constructor; [|constructor; [|now apply IH]].
  - intros [E1|H]; [symmetry in E1; now apply in_out in E1|]. destruct (X l _ H) as (m' & Hm & [E1|E1]); [|now apply in_out in E1].
    apply app_tail_inj in E1. apply H1. rewrite E1. now apply in_map.
  - intros H. destruct (X l _ H) as (m' & Hm & [E1|E1]); [symmetry in E1; now apply in_out in E1|].
    apply app_tail_inj in E1. apply H1. rewrite E1. now apply in_map.
Qed.

Lemma get_doc v own before after name c : name <> "documentation" ->
    py_get (ob v c (o_doc v own before after)) name = getattr (own ++ before ++ after) name.
  Proof.
    intros Hn. apply String.eqb_neq in Hn. unfold py_get, ob, getattr. cbn [obj_parts bind snd].
    assert (A : forall l r : list (string * pyval), assoc name (l ++ ("documentation", VNone) :: r) = assoc name (l ++ r)).
    { intros l r. induction l as [|[k x] l IH]; cbn; [now rewrite Hn|]. destruct (String.eqb name k); auto. }
    destruct v; cbn [o_doc]; [|now rewrite A]. now rewrite app_assoc, A, <- app_assoc.
  Qed.
Lemma part_ok v b name io : message_part (o_message v b name (io_part v io)) = Ok (io_part v io).
  Proof. unfold message_part, o_message. rewrite get_doc by discriminate. reflexivity. Qed.

Section lookup.
  Variables (v : soapver) (typed : bool) (s : wservice) (schemas : list pyval).
  Hypothesis Hr : referable s.
  Let d := defs_of v typed s schemas.
  Let b := o_binding v (ws_name s ++ "Binding") ("tns:" ++ ws_name s ++ "PortType") (map (bound_op v) (ws_methods s)).

  Lemma lookup_ok m x io : In m (ws_methods s) -> In (x, io) [("input", wm_in m); ("output", wm_out m)] ->
    exists name, get_message_object d b (bound_op v m) x = Ok (o_message v typed name (io_part v io)).
  Proof.
    intros Hm Hx. destruct Hr as (C1 & C2 & N). rewrite Forall_forall in C2. specialize (C2 m Hm).
    assert (D1 : py_get d "portTypes" = Ok (VList true [o_portType v (ws_name s ++ "PortType") (map (pt_op v) (ws_methods s))])).
    { unfold d, defs_of, o_defs. rewrite get_doc by discriminate. reflexivity. }
    assert (D2 : py_get d "messages" = Ok (VList true (flat_map (msgs v typed) (ws_methods s)))).
    { unfold d, defs_of, o_defs. rewrite get_doc by discriminate. reflexivity. }
    clearbody d. unfold get_message_object. rewrite D1. cbn [bind]. unfold b, o_binding. rewrite get_doc by discriminate. 
    change (getattr _ "type") with (Ok (VStr ("tns:" ++ ws_name s ++ "PortType"))). cbn [bind].
    unfold get_by_name at 1. change ("tns:" ++ ws_name s ++ "PortType")%string with ("tns" ++ ":" ++ (ws_name s ++ "PortType"))%string.
    rewrite last_split by (exact tns_colon || (apply colon_app; [assumption|vm_compute; intuition discriminate])).
    pose proof (first_named_ok (fun _ : unit => o_portType v (ws_name s ++ "PortType") (map (pt_op v) (ws_methods s)))
      (fun _ => ws_name s ++ "PortType")%string [tt] tt) as F1. cbn [map] in F1. rewrite F1; [| |constructor; [intros []|constructor]|now left].
    2:{ intros _. unfold o_portType. rewrite get_doc by discriminate. reflexivity. }
    clear F1. cbn [bind]. unfold o_portType. rewrite get_doc by discriminate.
    change (getattr _ "operations") with (Ok (VList true (map (pt_op v) (ws_methods s)))). cbn [bind].
    unfold bound_op at 1, o_op. rewrite get_doc by discriminate. change (getattr _ "name") with (Ok (VStr (wm_op m))). cbn [bind].
    unfold get_by_name at 1. rewrite last_plain by assumption.
    rewrite (first_named_ok (pt_op v) wm_op); [| |assumption|assumption].
    2:{ intros a. unfold pt_op, o_op. rewrite get_doc by discriminate. reflexivity. }
    cbn [bind]. unfold pt_op, o_op. 
    assert (X : exists n c, In (n, io) (msg_list [m]) /\ py_get (pt_op v m) x = Ok (o_io v c (Some ("tns:" ++ n)%string) VNone)).
    { destruct Hx as [[= <- <-] | [[= <- <-] | []]]; eexists _, _; (split; [cbn; auto|]); unfold pt_op, o_op; (rewrite get_doc by discriminate); reflexivity. }
    destruct X as (n & c & Hn & X). unfold pt_op, o_op in X. rewrite X. cbn [bind]. unfold o_io at 1, ob. cbn [bind].
    rewrite D2. cbn [bind].
    change (py_get _ "message") with (Ok (VStr ("tns" ++ ":" ++ n))). cbn [bind].
    exists n. unfold get_by_name. rewrite last_split; [|exact tns_colon|].
    2:{ destruct Hn as [[= <- <-] | [[= <- <-] | []]]; (apply colon_app; [assumption|vm_compute; intuition discriminate]). }
    rewrite msgs_map. apply (first_named_ok (fun p => o_message v typed (fst p) (io_part v (snd p))) fst (msg_list (ws_methods s)) (n, io)).
    - intros a. unfold o_message. rewrite get_doc by discriminate. reflexivity.
    - now apply msg_names.
    - apply in_flat_map. exists m. split; [assumption|]. cbn [msg_list flat_map app] in Hn. exact Hn.
  Qed.
End lookup.
