(** C80: regenerated classes read, write and build the same as the original ones. *)
From Coq Require Import String Ascii List ZArith NArith Bool.
From Verif Require Import PyBase PyRe Xml PyVal XsdSimple XsdComplex XsdMeta ExEnv LibClasses Py2Xsd SpecXsd GenOrder SpecOrder PfOrder2 Xsd2Py PyLoad XsdPrefixes
  SpecSimple SpecParse SpecRound SpecGenCode SpecGenWsdl SpecUrl SpecService SpecLoadable SpecReclass SpecExchange PfExchange ExGenCode ExReclass ExExchange.
Import ListNotations.
Open Scope nat_scope.
Open Scope string_scope.
Open Scope list_scope.

(** Each document is read with the same result, be it a value or an error. *)
Theorem C80_reads :
  forall sort n rt limit lim k O E G s rank doc x, list_sort sort -> 0 < n ->
  schema_describable O E G s -> schema_reproducible E G limit rank s -> schema_faithful rt E s -> 
  generate_xsd (8 + k) O (lib_env lim) E G s = Ok doc -> received (lib_env lim) (xs "Schema") (xd_root doc) x ->
  forall m, regenerate sort n rt limit (8 + k) O (lib_env lim) doc x = Ok m -> limit <= e_limit E ->
  forall c, In c (gs_complex s) -> forall j y, parse_obj j O (module_env limit (md_state m)) c y = parse_obj j O E c y.
Proof. exact reads_same. Qed.
Print Assumptions C80_reads.
(** Each value is written as the same document, or refused with the same error. *)
Theorem C80_writes :
  forall sort n rt limit lim k O E G s rank doc x, list_sort sort -> 0 < n ->
  schema_describable O E G s -> schema_reproducible E G limit rank s -> schema_faithful rt E s ->
  generate_xsd (8 + k) O (lib_env lim) E G s = Ok doc -> received (lib_env lim) (xs "Schema") (xd_root doc) x ->
  forall m, regenerate sort n rt limit (8 + k) O (lib_env lim) doc x = Ok m ->
  forall v, made_of (gs_complex s) v -> forall j tag ns efd, xml_of j O (module_env limit (md_state m)) v tag ns efd = xml_of j O E v tag ns efd.
Proof. exact xml_same. Qed.
Print Assumptions C80_writes.
(** Calling the classes with the same arguments makes the same instances, or
    fails with the same error. *)
Theorem C80_builds :
  forall sort n rt limit lim k O E G s rank doc x, list_sort sort -> 0 < n ->
  schema_describable O E G s -> schema_reproducible E G limit rank s -> schema_faithful rt E s ->
  generate_xsd (8 + k) O (lib_env lim) E G s = Ok doc -> received (lib_env lim) (xs "Schema") (xd_root doc) x ->
  forall m, regenerate sort n rt limit (8 + k) O (lib_env lim) doc x = Ok m -> limit <= e_limit E ->
  forall c kw, In c (gs_complex s) -> flat E s -> Forall (fun p => made_of (gs_complex s) (snd p)) kw ->
  construct O (module_env limit (md_state m)) c kw = construct O E c kw.
Proof. exact builds_same. Qed.
Print Assumptions C80_builds.
(** So what one side writes, the other side reads. *)
Theorem C80_exchange :
  forall sort n rt limit lim k O E G s rank doc x, list_sort sort -> 0 < n ->
  schema_describable O E G s -> schema_reproducible E G limit rank s -> schema_faithful rt E s ->
  generate_xsd (8 + k) O (lib_env lim) E G s = Ok doc -> received (lib_env lim) (xs "Schema") (xd_root doc) x ->
  forall m, regenerate sort n rt limit (8 + k) O (lib_env lim) doc x = Ok m -> limit <= e_limit E ->
  rt_classes O E (fun c => In c (gs_complex s)) ->
  forall c v tag ns efd j, In c (gs_complex s) -> rt_typed O E (TComplex c) v -> ncname_ok tag = true -> ns_good ns -> vdepth v <= j ->
  exists y, xml_of j O E v tag ns efd = Ok y /\
    forall pretty d, layout (wire y) pretty -> d = pretty \/ noise E c pretty d ->
    exists v', parse_obj j O (module_env limit (md_state m)) c d = Ok v' /\ erase v' = erase v.
Proof. exact exchanged. Qed.
Print Assumptions C80_exchange.
Example C80_nonvacuous :
  schema_describable ex_oracle x_env r_decls x_schema /\ schema_reproducible x_env r_decls 20 r_rank x_schema /\ schema_faithful g_rt x_env x_schema /\ flat x_env x_schema /\
  made_of (gs_complex x_schema) x_value /\ Forall (fun p => made_of (gs_complex x_schema) (snd p)) x_kw /\
  rt_classes ex_oracle x_env (fun c => In c (gs_complex x_schema)) /\ rt_typed ex_oracle x_env (TComplex "Order") x_value /\
  exists doc m y v, generate_xsd 8 ex_oracle (lib_env 10) x_env r_decls x_schema = Ok doc /\
    received (lib_env 10) (xs "Schema") (xd_root doc) (xd_root doc) /\
    regenerate insertion_sort 20 g_rt 20 8 ex_oracle (lib_env 10) doc (xd_root doc) = Ok m /\
    xml_of 5 ex_oracle x_env x_value "order" (Some "urn:shop") (Some "qualified") = Ok y /\ 
    parse_obj 5 ex_oracle (module_env 20 (md_state m)) "Order" y = Ok v /\ erase v = erase x_value.
Proof.
  split; [exact x_describable|]. split; [exact x_reproducible|]. split; [exact x_faithful|]. split; [exact x_flat|]. split; [exact x_made_value|]. split; [exact x_made_kw|].
  split; [exact x_rt_classes|]. split; [exact x_typed|].
  eexists _, _, _, _. split; [vm_compute; reflexivity|]. split; [eexists; split; [apply ly_same|left; vm_compute; reflexivity]|]. split; [vm_compute; reflexivity|].
  split; [vm_compute; reflexivity|]. split; vm_compute; reflexivity.
Qed.

(** Where classes are derived from each other, an instance of the derived class is
    no longer an instance of the base: an assignment that worked is an error. *)
Theorem C80_subclass_refuted :
  exists m v, d_back = Ok m /\ construct ex_oracle d_env "Holder" d_kw = Ok v /\
    construct ex_oracle (module_env 20 (md_state m)) "Holder" d_kw = Err ValueError.
Proof. eexists _, _. split; [vm_compute; reflexivity|]. split; vm_compute; reflexivity. Qed.
Print Assumptions C80_subclass_refuted.
