(** The module generated from a WSDL document, classes and services together:
    generate_code_from_wsdl (/repo/soapfish/wsdl2py.py:73-103) and
    /repo/soapfish/templates/wsdl.jinja2:1-14.

    Simplifications, besides those of Xsd2Py.v, PyLoad.v, Wsdl2Py.v and PyService.v:
    - documents that import others are not modelled here (GenImports.v does);
    - the schema objects are sorted in place while their classes are printed; the
      statements for the services do not depend on that. *)
From Coq Require Import String Ascii List ZArith NArith Bool.
From Verif Require Import PyBase Xml PyVal XsdSimple XsdComplex XsdMeta PyHttp Soap Dispatch Client LibClasses Py2Xsd Py2Wsdl GenOrder Xsd2Py PyLoad XsdPrefixes PyUrl Wsdl2Py PyService.
Import ListNotations.
Open Scope nat_scope.
Open Scope string_scope.
Open Scope list_scope.

(** [xml.xpath('//*[local-name()="schema"]')], utils.py:178 *)
Fixpoint schema_nodes (x : node) : list node :=
  match x with
  | Elem t _ kids => (if String.eqb (local_name t) "schema" then [x] else []) ++ flat_map schema_nodes kids
  | _ => []
  end.
(** find_xsd_namespaces of a generated document, utils.py:176-180: its prefixes are
    those of the root (py2wsdl.py:103-113), also in every schema. *)
Definition document_xsd_prefixes (doc : xdocument) (root : node) : list (option string) :=
  find_xsd_namespaces (document_prefixes doc) (map (fun _ => document_prefixes doc) (schema_nodes root)).

(** What reorder_schemas reads of a schema, wsdl2py.py:21-34 *)
Definition opt_text (v : pyval) : option string := match v with VStr s => Some s | _ => None end.
Definition schema_entry (o : pyval) : schema_doc :=
  mkSD (opt_text (jget o "targetNamespace")) (map (fun i => opt_text (jget i "namespace")) (match jget o "imports" with VList _ l => l | _ => [] end)) o.

(** The statements of the module: for every schema the classes and the statement
    that binds the variable Schema_..., then those for the services. *)
Record wsdl_code := mkWc { wc_schemas : list (string * (list gclass * gschema_st)); wc_services : list wstmt }.

(** generate_code_from_wsdl, wsdl2py.py:73-103; [nss] are the prefixes of XML
    Schema.  No types are known when the classes of a schema are printed. *)
Definition code_for_wsdl (sort : sorter) (n fuel : nat) (O : oracle) (L : env) (md5 : string -> string) (checked : string -> bool) (server : bool)
    (nss : list (option string)) (root : node) : res wsdl_code :=
  let v := version_from_xml root in
  d <- parse_obj fuel O L (wn v "Definitions") root ;;
  imports <- py_get d "imports" ;;
  imports <- jlist imports ;;
  match imports with
  | _ :: _ => Err NotModelled
  | [] =>
      types <- py_get d "types" ;;
      schemas <- (if py_truthy types then x <- py_get types "schemas" ;; jlist x else Ok []) ;;
      codes <- mapM (fun o => code <- schema_to_py sort n nss [] o ;; name <- schema_var md5 o ;; Ok (name, code))
                 (map sd_code (reorder_schemas (map schema_entry schemas))) ;;
      services <- service_code md5 checked server v d ;;
      Ok (mkWc codes services)
  end.

(** ** Importing it *)

Record wmodule := mkWmod {
  wl_schemas : list module;     (* the schemas, each with the classes up to it *)
  wl_state : wstate }.          (* the names of the module *)

(** [xsd.Element(type)] in the dictionary of a schema *)
Definition top_element (t : ftype) : field := mkField "" KElement t None (Some 1%Z) ONone false VNone None.
Definition class_value (v : mval) : wval := match v with MComplex c => WvClass c | MSimple _ => WvOther end.
Definition bind_all (names : list (string * wval)) (l : list (string * wval)) : list (string * wval) :=
  fold_left (fun d p => assoc_set (fst p) (snd p) d) l names.

(** The classes of a schema and its Schema object, with the Element objects of its
    elements. *)
Definition run_schema (rt : runtime) (limit : nat) (O : oracle) (acc : mstate * list module * list (string * wval))
    (p : string * (list gclass * gschema_st)) : res (mstate * list module * list (string * wval)) :=
  let '(ms, done, names) := acc in
  let '(var, code) := p in
  if negb (identifier var) then Err SyntaxError
  else
    ms1 <- foldM (exec_class rt) ms (fst code) ;;
    m <- exec_schema rt limit O ms1 (snd code) ;;
    let ms2 := md_state m in
    let w := ms_world ms2 in
    w' <- exec_all w (map (fun e => NewElement (top_element (fst (snd e)))) (md_elements m)) ;;
    let elements := combine (map fst (md_elements m)) (seq (length (w_store w)) (length (md_elements m))) in
    let classes := map (fun c => (fst c, class_value (snd c))) (skipn (length (ms_names ms)) (ms_names ms2)) in
    Ok (mkMs w' (ms_names ms2) (ms_class ms2) (ms_schema ms2), done ++ [m],
        assoc_set var (WvSchema elements) (bind_all names classes)).

(** [BaseHeader = xsd.ComplexType], wsdl.jinja2:7: the class number 0 of [start]. *)
Definition run_module (rt : runtime) (limit : nat) (O : oracle) (code : wsdl_code) : res wmodule :=
  acc <- foldM (run_schema rt limit O) (start, [], []) (wc_schemas code) ;;
  let '(ms, done, names) := acc in
  st <- exec_service rt 0 (mkWst (ms_world ms) names) (wc_services code) ;;
  Ok (mkWmod done st).

(** What a user does: generate the module for a document and import it. *)
Definition import_wsdl (sort : sorter) (n : nat) (rt : runtime) (limit fuel : nat) (O : oracle) (L : env) (md5 : string -> string) (checked : string -> bool)
    (server : bool) (doc : xdocument) (root : node) : res wmodule :=
  code <- code_for_wsdl sort n fuel O L md5 checked server (document_xsd_prefixes doc root) root ;;
  run_module rt limit O code.
