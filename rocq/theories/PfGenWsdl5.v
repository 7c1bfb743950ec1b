(** Looking up messages in the objects built for a service; services that cannot be
    described, or whose references do not resolve. *)
From Coq Require Import String Ascii List ZArith NArith Bool Lia.
From Verif Require Import PyBase PfBase PyRe Xml PyVal XsdSimple XsdComplex PyHttp Soap Client Dispatch ExEnv LibClasses Py2Xsd SpecXsd
  Py2Wsdl SpecFacets SpecGenWsdl PfSimple PfXsd2 PfXsd3 PfGenWsdl PfGenWsdl2 PfGenWsdl3 PfGenWsdl4 ExXsd ExGenWsdl.
Import ListNotations.
Open Scope string_scope.
Open Scope list_scope.
Open Scope nat_scope.

Lemma part_declares_ok v io : io_describable io -> part_declares io (io_part v io).
Proof. destruct io; cbn [io_describable part_declares]; intros H; [destruct H| |]; split; reflexivity. Qed.

Lemma built_lookup O lim E G s d b op m x io : service_describable O E G s -> referable s ->
  build_definitions O (lib_env lim) (ws_version s) E G s = Ok d ->
  In m (ws_methods s) -> In (x, io) [("input", wm_in m); ("output", wm_out m)] ->
  in_list d "bindings" b -> in_list b "operations" op -> py_get op "name" = Ok (VStr (wm_op m)) ->
  exists msg part, get_message_object d b op x = Ok msg /\ message_part msg = Ok part /\ part_declares io part.
Proof.
  intros (_ & _ & _ & _ & Hs & Hm) Hr B Im Ix (fl & bs & Gb & Ib) (fl' & ops & Go & Io) Hn.
  destruct (schemas_ok O lim E G 0 (ws_schemas s) Hs) as (objs & M & _).
  rewrite (build_ok O lim _ E G s objs Hm M) in B. injection B as <-.
  assert (D1 : py_get (defs_of (ws_version s) false s objs) "bindings" = Ok (VList true
    [o_binding (ws_version s) (ws_name s ++ "Binding") ("tns:" ++ ws_name s ++ "PortType") (map (bound_op (ws_version s)) (ws_methods s))])).
  { unfold defs_of, o_defs. rewrite get_doc by discriminate. reflexivity. }
  rewrite D1 in Gb. match type of Gb with Ok (VList _ ?l) = _ => assert (bs = l) as -> by congruence end. clear Gb. destruct Ib as [<- | []].
  assert (D2 : py_get (o_binding (ws_version s) (ws_name s ++ "Binding") ("tns:" ++ ws_name s ++ "PortType") (map (bound_op (ws_version s)) (ws_methods s))) "operations"
    = Ok (VList true (map (bound_op (ws_version s)) (ws_methods s)))).
  { unfold o_binding. rewrite get_doc by discriminate. reflexivity. }
  rewrite D2 in Go. match type of Go with Ok (VList _ ?l) = _ => assert (ops = l) as -> by congruence end. clear Go. apply in_map_iff in Io as (m' & <- & Im').
  assert (D3 : py_get (bound_op (ws_version s) m') "name" = Ok (VStr (wm_op m'))).
  { unfold bound_op, o_op. rewrite get_doc by discriminate. reflexivity. }
  rewrite D3 in Hn. injection Hn as Hn.
  assert (m' = m) as ->.
  { destruct Hr as (_ & _ & N). revert N Im Im' Hn. clear. induction (ws_methods s) as [|a l IH]; cbn; [tauto|].
    intros N H1 H2 Hn. inversion N; subst. destruct H1 as [-> |H1], H2 as [-> |H2]; auto.
    - exfalso. apply H3. rewrite <- Hn. now apply in_map.
    - exfalso. apply H3. rewrite Hn. now apply in_map. }
  destruct (lookup_ok (ws_version s) false s objs Hr m x io Im Ix) as (name & Q). eexists _, (io_part (ws_version s) io).
  split; [exact Q|]. split; [apply part_ok|]. apply part_declares_ok.
  rewrite Forall_forall in Hm. destruct (Hm m Im) as (_ & _ & H1 & H2 & _). destruct Ix as [[= <- <-] | [[= <- <-] | []]]; assumption.
Qed.

Lemma no_schema O lim E G n s : ws_schemas s = [] -> Forall method_describable (ws_methods s) ->
  generate_wsdl n O (lib_env lim) E G s = Err IndexError.
Proof.
  intros Hs Hm. unfold generate_wsdl. rewrite (build_ok O lim _ E G s [] Hm) by (now rewrite Hs). cbn [bind]. now rewrite Hs.
Qed.

(** A binding and operation found by position. *)
Definition nth_of (obj : pyval) (name : string) (n : nat) : pyval :=
  match py_get obj name with Ok (VList _ l) => nth n l VNone | _ => VNone end.

Lemma other_schema : exists O lim E G k s m sc doc part,
  service_describable O E G s /\ referable s /\ In m (ws_methods s) /\ In sc (ws_schemas s) /\ schema_has sc (wm_in m) /\
  generate_wsdl (10 + k) O (lib_env lim) E G s = Ok doc /\ leads_to doc (ws_name s) (wm_op m) "input" part /\ ~ io_defined doc part.
Proof.
  exists ex_oracle, 10, x_env, x_decls, 0, w_two, w_tag, x_second. eexists. eexists.
  split; [exact w_two_describable|]. split; [exact w_two_referable|]. split; [now left|]. split; [right; now left|]. split; [now left|].
  split; [apply generate_wsdl_ok, w_two_describable|]. split; [apply (doc_leads _ _ _ _ w_two_referable w_tag "input" (wm_in w_tag)); now left|].
  intros [(ref & E1 & P)|(ref & E1 & P)]; [|discriminate]. injection E1 as <-.
  destruct P as (p & n & ns & types & sc & x & Hr & Hp & Ht & Hsc & Ha & Hx & Hn).
  assert (p = "sns" /\ n = "tag") as [-> ->].
  { cbn in Hp. destruct (String.eqb_spec p "sns") as [-> |N1]; [split; [reflexivity|]; cbn in Hr; now injection Hr|].
    exfalso. destruct (String.eqb_spec p "soap") as [-> |N2]; [discriminate Hr|].
    destruct (String.eqb_spec p "tns") as [-> |N3]; [discriminate Hr|].
    destruct (String.eqb_spec p "wsdl") as [-> |N4]; [discriminate Hr|].
    destruct (String.eqb_spec p "xsd") as [-> |N5]; [discriminate Hr|]. discriminate Hp. }
  cbn in Hp. injection Hp as <-.
  assert (T : wsdl_kids "types" (describe_service ex_oracle x_env x_decls w_two) = [d_types ex_oracle x_env x_decls w_two]) by (vm_compute; reflexivity).
  cbn [xd_root] in Ht. rewrite T in Ht. destruct Ht as [<- | []].
  assert (S1 : kids_tagged "schema" (d_types ex_oracle x_env x_decls w_two) =
    [describe_schema ex_oracle x_env x_decls x_schema; describe_schema ex_oracle x_env x_decls x_second]) by (vm_compute; reflexivity).
  rewrite S1 in Hsc. destruct Hsc as [<- | [<- | []]]; [|discriminate Ha].
  assert (F : Forall (fun x => attr_of "name" x <> Some "tag") (kids_tagged "element" (describe_schema ex_oracle x_env x_decls x_schema)))
    by (vm_compute; repeat constructor; discriminate).
  rewrite Forall_forall in F. exact (F x Hx Hn).
Qed.

Lemma same_names : exists O lim E G k s doc,
  service_describable O E G s /\ generate_wsdl (10 + k) O (lib_env lim) E G s = Ok doc /\ ~ consistent doc.
Proof.
  exists ex_oracle, 10, x_env, x_decls, 0, w_twice. eexists. split; [exact w_twice_describable|].
  split; [apply generate_wsdl_ok, w_twice_describable|]. intros (_ & _ & C).
  specialize (C (wel "portType" [("name", "ShopPortType")] (map describe_operation (ws_methods w_twice))) (describe_operation w_place)).
  specialize (C ltac:(vm_compute; auto) ltac:(vm_compute; auto) "input" (wel "input" [("message", "tns:placeInput")] []) ltac:(vm_compute; auto) ltac:(vm_compute; auto)).
  destruct C as (m & ref & A & p & n & ns & Er & Hc & Hp & _ & F). injection A as <-.
  assert (n = "placeInput") as ->.
  { cbn in Hp. destruct (String.eqb_spec p "sns") as [-> |N1]; [discriminate|].
    destruct (String.eqb_spec p "soap") as [-> |N2]; [discriminate Er|].
    destruct (String.eqb_spec p "tns") as [-> |N3]; [cbn in Er; now injection Er|].
    destruct (String.eqb_spec p "wsdl") as [-> |N4]; [discriminate Er|].
    destruct (String.eqb_spec p "xsd") as [-> |N5]; [discriminate Er|]. discriminate Hp. }
  vm_compute in F. discriminate F.
Qed.

Lemma colon_name : exists O lim E G s m d,
  service_describable O E G s /\ In m (ws_methods s) /\
  build_definitions O (lib_env lim) (ws_version s) E G s = Ok d /\
  get_message_object d (nth_of d "bindings" 0) (nth_of (nth_of d "bindings" 0) "operations" 0) "input" = Err ValueError.
Proof.
  exists ex_oracle, 10, x_env, x_decls, w_colon, (hd w_place (ws_methods w_colon)).
  destruct w_colon_describable as (_ & _ & _ & _ & Hs & Hm).
  destruct (schemas_ok ex_oracle 10 x_env x_decls 0 (ws_schemas w_colon) Hs) as (objs & M & _).
  exists (defs_of V11 false w_colon objs). split; [exact w_colon_describable|]. split; [now left|].
  split; [exact (build_ok ex_oracle 10 V11 x_env x_decls w_colon objs Hm M)|]. vm_compute. reflexivity.
Qed.

Lemma one_way : exists O lim E G k s,
  generate_wsdl (10 + k) O (lib_env lim) E G s = Err AttributeError /\
  (forall m, In m (ws_methods s) -> wm_out m = IONone /\ io_describable (wm_in m)) /\ ws_methods s <> [].
Proof.
  exists ex_oracle, 10, x_env, x_decls, 0, w_oneway. split; [vm_compute; reflexivity|]. split; [|discriminate].
  intros m [<- | []]. split; reflexivity.
Qed.

Lemma document_ok O lim E G k s : service_describable O E G s ->
  exists prefixes, generate_wsdl (10 + k) O (lib_env lim) E G s = Ok (mkDoc prefixes (describe_service O E G s)).
Proof. intros H. eexists. now apply generate_wsdl_ok. Qed.
Section generated.
  Variables (O : oracle) (lim : nat) (E : env) (G : decls) (k : nat) (s : wservice) (doc : xdocument).
  Hypothesis Hd : service_describable O E G s.
  Hypothesis Hr : referable s.
  Hypothesis Hg : generate_wsdl (10 + k) O (lib_env lim) E G s = Ok doc.
  Lemma generated_doc : doc = mkDoc (wsdl_prefixes s) (describe_service O E G s).
  Proof. rewrite generate_wsdl_ok in Hg by assumption. congruence. Qed.
  Lemma generated_consistent : consistent doc.
  Proof. rewrite generated_doc. now apply doc_consistent. Qed.
  Lemma generated_io m tag io : In m (ws_methods s) -> In (tag, io) [("input", wm_in m); ("output", wm_out m)] -> io_describable io.
  Proof.
    destruct Hd as (_ & _ & _ & _ & _ & Hm). rewrite Forall_forall in Hm. intros Im Ix.
    destruct (Hm m Im) as (_ & _ & H1 & H2 & _). destruct Ix as [[= <- <-] | [[= <- <-] | []]]; assumption.
  Qed.
  Lemma generated_defined m tag io sc rest : In m (ws_methods s) -> In (tag, io) [("input", wm_in m); ("output", wm_out m)] ->
    ws_schemas s = sc :: rest -> schema_has sc io ->
    exists part, leads_to doc (ws_name s) (wm_op m) tag part /\ declares_io io part /\ io_defined doc part.
  Proof.
    intros Im Ix Hs Hh. rewrite generated_doc. eexists. split; [apply (doc_leads O E G s Hr m tag io Im Ix)|]. split; [apply declares_ref; eapply generated_io; eassumption|].
    eapply io_defined_ok; eassumption.
  Qed.
  Lemma generated_leads m tag io : In m (ws_methods s) -> In (tag, io) [("input", wm_in m); ("output", wm_out m)] ->
    exists part, leads_to doc (ws_name s) (wm_op m) tag part /\ declares_io io part.
  Proof.
    intros Im Ix. rewrite generated_doc. eexists. split; [apply (doc_leads O E G s Hr m tag io Im Ix)|apply declares_ref; eapply generated_io; eassumption].
  Qed.
End generated.
