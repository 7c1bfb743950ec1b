(** C84: modules generated from several XSD documents. *)
From Coq Require Import String List ZArith NArith Bool.
From Verif Require Import PyBase Xml PyVal XsdSimple XsdComplex XsdMeta LibClasses Py2Xsd GenOrder SpecOrder PfOrder2 ExEnv Xsd2Py PyLoad XsdFiles SpecGenCode SpecPath SpecImports SpecUrl SpecService SpecLoadable
  SpecFiles PfFiles5 PfFiles6 ExGenCode ExService ExLoadable ExFiles.
Import ListNotations.
Open Scope nat_scope.
Open Scope string_scope.
Open Scope list_scope.

(** ** C84. The module of a document and of everything it includes and imports *)
(** It can be generated and imported; it has the classes of all these documents and
    no others, and every class of a complex type can be called. *)
Theorem C84_import :
  forall getcwd urljoin md5 checked open sort n_docs n_sort rt limit O rank files root base x,
  Forall proper base -> (forall v, hex5 (md5 v)) -> list_sort sort -> fitting n_docs n_sort limit rank files root -> directory_holds open base files -> states_file x root ->
  exists code fm, module_code getcwd urljoin md5 checked open sort n_sort n_docs x (path_of base) = Ok code /\ import_files rt limit O code = Ok fm /\
    NoDup (map fst (ms_names (fm_state fm))) /\
    (forall n, In n (map fst (ms_names (fm_state fm))) <-> exists d, part_of files root d /\ In n (document_names d)) /\
    forall d c, part_of files root d -> In c (complex_names (do_plan d) ++ own_names (do_plan d)) -> exists fs, new_instance O (module_env limit (fm_state fm)) c = Ok fs.
Proof. exact files_import. Qed.
Print Assumptions C84_import.
(** The classes have what their documents say, and the namespace of their
    document. *)
Theorem C84_classes :
  forall getcwd urljoin md5 checked open sort n_docs n_sort rt limit O rank files root base x,
  Forall proper base -> (forall v, hex5 (md5 v)) -> list_sort sort -> fitting n_docs n_sort limit rank files root -> directory_holds open base files -> states_file x root ->
  exists code fm, module_code getcwd urljoin md5 checked open sort n_sort n_docs x (path_of base) = Ok code /\ import_files rt limit O code = Ok fm /\
  forall d, part_of files root d -> has_classes (classes_of fm) d.
Proof. exact files_classes. Qed.
Print Assumptions C84_classes.
(** There is one Schema object per document, and it has the objects of the
    documents that this one imports and includes. *)
Theorem C84_schemas :
  forall getcwd urljoin md5 checked open sort n_docs n_sort rt limit O rank files root base x,
  Forall proper base -> (forall v, hex5 (md5 v)) -> list_sort sort -> fitting n_docs n_sort limit rank files root -> directory_holds open base files -> states_file x root ->
  no_collision md5 files root ->
  exists code fm parts, module_code getcwd urljoin md5 checked open sort n_sort n_docs x (path_of base) = Ok code /\ import_files rt limit O code = Ok fm /\
  parts_of files root parts /\ Forall2 (fun e o => linked fm (fst e) (snd e) o) parts (fm_schemas fm) /\
  (forall d, part_of files root d -> exists i, assoc ("Schema_" ++ md5 (sc_tns (do_plan d)))%string (fm_vars fm) = Some i /\
     schema_numbered fm i (of_namespace (sc_tns (do_plan d)))) /\
  forall f, refers files root f -> exists i, assoc ("Schema_" ++ md5 f)%string (fm_vars fm) = Some i /\ schema_numbered fm i (of_file (Some f)).
Proof. exact files_schemas. Qed.
Print Assumptions C84_schemas.
Example C84_nonvacuous :
  (g_read f_units_doc = Ok f_units_x /\ g_read f_parts_doc = Ok f_parts_x /\ g_read f_common_doc = Ok f_common_x /\ g_read f_shop_doc = Ok f_shop_x) /\
  Forall proper ["work"] /\ (forall v, hex5 (f_md5 v)) /\ list_sort insertion_sort /\ fitting 20 20 20 f_rank f_files f_shop /\ directory_holds f_open ["work"] f_files /\
  states_file (mkFile [Some "xs"] f_shop_x) f_shop /\ no_collision f_md5 f_files f_shop /\
  exists code fm, f_code 20 (mkFile [Some "xs"] f_shop_x) f_open = Ok code /\ import_files g_rt 20 ex_oracle code = Ok fm /\
    map fst (ms_names (fm_state fm)) = ["Unit"; "Measure"; "Parcel"; "Part"; "Bolt"; "Order"; "Gear"; "Catalog"] /\
    map so_location (fm_schemas fm) = [Some "${scheme}://${host}/units.xsd"; Some "${scheme}://${host}/common.xsd"; Some "${scheme}://${host}/parts.xsd"; None] /\
    map so_imports (fm_schemas fm) = [[]; [0]; [0]; [2]] /\ map so_includes (fm_schemas fm) = [[]; []; []; [1]].
Proof.
  split; [exact f_read|]. split; [repeat constructor; vm_compute; intuition discriminate|]. split; [exact f_hex|]. split; [exact insertion_sorts|]. split; [exact f_fitting|].
  split; [exact f_directory|]. split; [exact f_shop_states|]. split; [exact f_no_collision|]. eexists _, _. split; [vm_compute; reflexivity|]. split; [vm_compute; reflexivity|]. repeat split; reflexivity.
Qed.

(** The conditions matter: when every document includes or imports another one, as
    documents that import each other do, the module cannot be imported: whichever
    document comes first, its statement uses a variable that is bound later; *)
Theorem C84_circle_refuted :
  forall getcwd urljoin md5 checked open sort n_sort n x cwd code,
  has_references x -> (forall p f, open p = Ok f -> has_references f) ->
  module_code getcwd urljoin md5 checked open sort n_sort n x cwd = Ok code ->
  forall rt limit O fm, import_files rt limit O code <> Ok fm.
Proof. exact circles. Qed.
Print Assumptions C84_circle_refuted.
Example C84_circle_nonvacuous :
  has_references (f_file f_a) /\ (forall p f, f_circle p = Ok f -> has_references f) /\
  exists code, f_code 20 (f_file f_a) f_circle = Ok code /\ length code = 3 /\ import_files g_rt 20 ex_oracle code = Err NameError.
Proof.
  assert (A : has_references (f_file f_a)) by (right; eexists _, _, _; apply has_of; vm_compute; reflexivity).
  assert (B : has_references (f_file f_b)) by (right; eexists _, _, _; apply has_of; vm_compute; reflexivity).
  split; [exact A|]. split.
  - intros p f. unfold f_circle, f_one. destruct (String.eqb p _); [intros [= <-]; exact A|]. destruct (String.eqb p _); [intros [= <-]; exact B|discriminate].
  - eexists. split; [vm_compute; reflexivity|]. split; vm_compute; reflexivity.
Qed.
(** neither when the imports do not say where the document is, which XML Schema
    leaves open; *)
Theorem C84_location_refuted :
  forall getcwd urljoin md5 checked open sort n_sort n x cwd b i l code,
  has (fi_schema x) "imports" (VList b (i :: l)) -> (forall j, In j (i :: l) -> lacks j "schemaLocation") -> (exists b, has (fi_schema x) "includes" (VList b [])) ->
  module_code getcwd urljoin md5 checked open sort n_sort n x cwd = Ok code ->
  forall rt limit O fm, import_files rt limit O code <> Ok fm.
Proof. exact unlocated. Qed.
Print Assumptions C84_location_refuted.
Example C84_location_nonvacuous :
  exists b i code, has (fi_schema (f_file f_nowhere)) "imports" (VList b [i]) /\ lacks i "schemaLocation" /\ has (fi_schema (f_file f_nowhere)) "includes" (VList b []) /\
    f_code 20 (f_file f_nowhere) f_open = Ok code.
Proof.
  eexists _, _, _. split; [apply has_of; vm_compute; reflexivity|]. split; [apply lacks_of; vm_compute; reflexivity|]. split; [apply has_of; vm_compute; reflexivity|]. vm_compute. reflexivity.
Qed.
(** a document without a namespace cannot be included, although the included types
    then belong to the namespace of the other document; *)
Theorem C84_chameleon_refuted :
  forall getcwd urljoin md5 checked open sort n_sort n x base b i b' f y code, Forall proper base -> file_name f ->
  has (fi_schema x) "includes" (VList b [i]) -> has i "schemaLocation" (VStr f) -> has (fi_schema x) "imports" (VList b' []) ->
  open (path_of (base ++ [f])) = Ok y -> lacks (fi_schema y) "targetNamespace" ->
  module_code getcwd urljoin md5 checked open sort n_sort n x (path_of base) <> Ok code.
Proof. exact nameless_include. Qed.
Print Assumptions C84_chameleon_refuted.
Example C84_chameleon_nonvacuous :
  exists b i, has (fi_schema (f_file f_includes)) "includes" (VList b [i]) /\ has i "schemaLocation" (VStr "c.xsd") /\ has (fi_schema (f_file f_includes)) "imports" (VList b []) /\
    f_one "/work/c.xsd" f_chameleon (path_of (["work"] ++ ["c.xsd"])) = Ok (f_file f_chameleon) /\ lacks (fi_schema (f_file f_chameleon)) "targetNamespace" /\
    f_code 20 (f_file f_includes) (f_one "/work/c.xsd" f_chameleon) = Err AttributeError.
Proof.
  eexists _, _. split; [apply has_of; vm_compute; reflexivity|]. split; [apply has_of; vm_compute; reflexivity|]. split; [apply has_of; vm_compute; reflexivity|].
  split; [vm_compute; reflexivity|]. split; [apply lacks_of; vm_compute; reflexivity|]. vm_compute. reflexivity.
Qed.
(** and types of the same name in two namespaces give two class statements with the
    same name, so that the first class is lost. *)
Theorem C84_names_refuted :
  exists code, f_code 20 (f_file f_same) (f_one "/work/b.xsd" f_other) = Ok code /\
    map (fun c => map gc_name (fst (fc_code c))) code = [["Item"]; ["Item"]] /\ map (fun c => gz_tns (snd (fc_code c))) code = ["urn:b"; "urn:a"].
Proof. eexists. split; [vm_compute; reflexivity|]. split; vm_compute; reflexivity. Qed.
Print Assumptions C84_names_refuted.
