(** Generating one module from several XSD documents and importing it:
    rewrite_paths, resolve_import, generate_code_from_xsd and schema_to_py
    (/repo/soapfish/xsd2py.py:19-76, 121-155), the loops of
    /repo/soapfish/templates/xsd.jinja2:8-17 and render_Schema of
    /repo/soapfish/templates/lib.jinja2:14-36.

    GenImports.v says which documents are opened and written; here is what is
    written for them and what Python makes of it.

    Simplifications, besides those of Xsd2Py.v, PyLoad.v and PyUrl.v:
    - opening and parsing a document is a parameter;
    - hashlib.md5(...).hexdigest()[:5] is a parameter;
    - the limit on the recursion over documents is another parameter than that
      of the comparison of types. *)
From Coq Require Import String Ascii List ZArith NArith Bool.
From Verif Require Import PyBase PyPath Xml PyVal XsdSimple XsdComplex XsdMeta LibClasses Py2Xsd GenOrder GenImports Xsd2Py PyLoad PyUrl.
Import ListNotations.
Open Scope nat_scope.
Open Scope string_scope.
Open Scope list_scope.

(** A parsed document: find_xsd_namespaces(xml) and
    xsdspec.Schema.parse_xmlelement(xml), xsd2py.py:65-67. *)
Record file := mkFile { fi_prefixes : list (option string); fi_schema : pyval }.

(** What is written for a document: its classes, and the statement
    [fc_var = xsd.Schema(imports=[..], includes=[..], location=.., ...)], followed by
    [fc_alias = fc_var] if the document has a location. *)
Record filecode := mkFc {
  fc_var : string;
  fc_alias : option string;
  fc_imports : list string;
  fc_includes : list string;
  fc_location : option string;
  fc_code : list gclass * gschema_st }.

(** known_paths, known_types and the statements so far. *)
Record progress := mkProg { pg_paths : list string; pg_types : list string; pg_code : list filecode }.

(** [i.schemaLocation] *)
Definition location_of (i : pyval) : res (option string) :=
  match jget i "schemaLocation" with VNone => Ok None | VStr l => Ok (Some l) | _ => Err TypeError end.
(** [{% if location %}] *)
Definition given (location : option string) : option string :=
  match location with Some l => if String.eqb l "" then None else Some l | None => None end.

Section Files.
  Variable getcwd : string.
  Variable urljoin : string -> string -> string.
  Variable md5 : string -> string.
  Variable checked : string -> bool.
  Variable open : string -> res file.
  Variable sort : sorter.
  Variable n_sort : nat.

  (** [Schema_{{ schema_name(...) }}], utils.py:48-68: only strings have the method
      encode. *)
  Definition schema_ref (v : pyval) : res string :=
    match v with VStr t => Ok ("Schema_" ++ md5 t)%string | _ => Err AttributeError end.
  Definition opt_str (l : option string) : pyval := match l with Some s => VStr s | None => VNone end.

  (** render_Schema, lib.jinja2:14-36; [ilocs] are the rewritten locations of the
      includes, [p] the classes with the known types after them. *)
  Definition file_statement (nss : list (option string)) (x : pyval) (ilocs : list (option string)) (imports : list pyval) (location : option string)
      (p : list gclass * list string) : res filecode :=
    var <- schema_ref (jget x "targetNamespace") ;;
    imps <- mapM (fun i => schema_ref (jget i "namespace")) imports ;;
    incs <- mapM (fun l => schema_ref (opt_str l)) ilocs ;;
    loc <- (match given location with None => Ok None | Some l => t <- url_template checked l ;; Ok (Some t) end) ;;
    st <- schema_statement nss (snd p) x ;;
    Ok (mkFc var (match given location with None => None | Some l => Some ("Schema_" ++ md5 l)%string end) imps incs loc (fst p, st)).

  (** One recursion of generate_code_from_xsd (53-76), schema_to_py (121-155), the
      template and resolve_import (40-50).  [base_path] has its default already.
      The parameter parent_namespace of generate_code_from_xsd is not passed on. *)
  Fixpoint files_code (n : nat) (f : file) (location : option string) (cwd base_path : string) (st : progress) : res progress :=
    match n with
    | O => Err RecursionError
    | S n' =>
        if match given location with Some l => str_in l (pg_paths st) | None => false end then Ok st
        else
          let x := fi_schema f in
          includes <- jlist (jget x "includes") ;;
          imports <- jlist (jget x "imports") ;;
          ilocs <- mapM location_of includes ;;
          mlocs <- mapM location_of imports ;;
          ilocs <- (if String.eqb base_path "" then Ok ilocs else mapM (rewrite_path getcwd urljoin cwd base_path) ilocs) ;;
          mlocs <- (if String.eqb base_path "" then Ok mlocs else mapM (rewrite_path getcwd urljoin cwd base_path) mlocs) ;;
          x <- sorted_schema sort n_sort x ;;
          let st := match given location with Some l => mkProg (pg_paths st ++ [l]) (pg_types st) (pg_code st) | None => st end in
          st <- foldM (fun st l =>
                  match given l with
                  | None => Ok st
                  | Some l =>
                      r <- resolve_location getcwd l base_path ;;
                      let '(path, cwd', location') := r in
                      f' <- open path ;;
                      files_code n' f' (Some location') cwd' base_path st
                  end) st (ilocs ++ mlocs) ;;
          p <- schema_classes (fi_prefixes f) (pg_types st) x ;;
          c <- file_statement (fi_prefixes f) x ilocs imports location p ;;
          Ok (mkProg (pg_paths st) (snd p) (pg_code st ++ [c]))
    end.

  (** generate_code_from_xsd as xsd2py.main calls it (175-180): [cwd] is the
      directory of the document. *)
  Definition module_code (n : nat) (f : file) (cwd : string) : res (list filecode) :=
    st <- files_code n f None cwd cwd (mkProg [] [] []) ;; Ok (pg_code st).
End Files.

(** ** Importing the module *)

(** A Schema object: its classes and elements, the objects in its lists imports and
    includes (their numbers) and its location. *)
Record schema_obj := mkSo {
  so_module : module;
  so_imports : list nat;
  so_includes : list nat;
  so_location : option string }.
(** The classes, the Schema objects, and the variables bound to these. *)
Record fmodule := mkFm { fm_state : mstate; fm_schemas : list schema_obj; fm_vars : list (string * nat) }.
Definition fm_start : fmodule := mkFm start [] [].

(** A variable used in an argument. *)
Definition schema_object (fm : fmodule) (v : string) : res nat :=
  if identifier v then match assoc v (fm_vars fm) with Some i => Ok i | None => Err NameError end else Err SyntaxError.
(** Binding a variable; that it rebinds a class is not followed further. *)
Definition bind_schema (fm : fmodule) (v : string) (i : nat) : res fmodule :=
  if negb (identifier v) then Err SyntaxError
  else if str_in v (map fst (ms_names (fm_state fm))) then Err Rebound
  else Ok (mkFm (fm_state fm) (fm_schemas fm) (assoc_set v i (fm_vars fm))).

(** The statements for one document.  Schema.__init__ (xsd.py:1101-1148) stores
    imports, includes and location as they are. *)
Definition exec_file (rt : runtime) (limit : nat) (O : oracle) (fm : fmodule) (c : filecode) : res fmodule :=
  if existsb (fun g => str_in (gc_name g) (map fst (fm_vars fm))) (fst (fc_code c)) then Err Rebound
  else
    ms <- foldM (exec_class rt) (fm_state fm) (fst (fc_code c)) ;;
    imps <- mapM (schema_object fm) (fc_imports c) ;;
    incs <- mapM (schema_object fm) (fc_includes c) ;;
    loc <- (match fc_location c with None => Ok None | Some t => res_map Some (literal rt false t) end) ;;
    m <- exec_schema rt limit O ms (snd (fc_code c)) ;;
    let i := length (fm_schemas fm) in
    fm <- bind_schema (mkFm (md_state m) (fm_schemas fm ++ [mkSo m imps incs loc]) (fm_vars fm)) (fc_var c) i ;;
    match fc_alias c with None => Ok fm | Some a => bind_schema fm a i end.
Definition import_files (rt : runtime) (limit : nat) (O : oracle) (code : list filecode) : res fmodule :=
  foldM (exec_file rt limit O) fm_start code.
