(** How the code generators follow imports: rewrite_paths, resolve_import,
    generate_code_from_xsd and schema_to_py (/repo/soapfish/xsd2py.py:19-76,
    121-155) with the loops of /repo/soapfish/templates/xsd.jinja2:8-17, and
    merge_imports and generate_code_from_wsdl (/repo/soapfish/wsdl2py.py:37-106). *)
From Coq Require Import String Ascii List ZArith NArith Bool.
From Verif Require Import PyBase PyPath.
Import ListNotations.
Open Scope string_scope.
Open Scope list_scope.

(** A schema document: the schemaLocations of its includes and imports, in the
    order in which the template visits them.  [xd_body] stands for everything
    else. *)
Record xdoc := mkXD { xd_locs : list (option string); xd_body : string }.

(** What happens, in order.  [Opened by location path]: the document that was
    opened as [by] (None: the document the program started with) has an import
    with the given location, and open_document is called with [path].
    [Emitted location doc]: code for a document is written. *)
Inductive event :=
| Opened (by_ : option string) (location path : string)
| Emitted (location : option string) (doc : xdoc).

(** The list known_paths and the events so far. *)
Record state := mkState { known_paths : list string; events : list event }.
Definition log (e : event) (st : state) : state := mkState (known_paths st) (events st ++ [e]).

(** A for loop, left by the first exception. *)
Fixpoint each {A S : Type} (f : A -> S -> S * res unit) (l : list A) (st : S) : S * res unit :=
  match l with
  | [] => (st, Ok tt)
  | x :: t => match f x st with
              | (st', Ok _) => each f t st'
              | (st', Err e) => (st', Err e)
              end
  end.

Section Generate.
  (** os.getcwd(), urllib.parse.urljoin, and what open_document and the parser
      make of a path. *)
  Variable getcwd : string.
  Variable urljoin : string -> string -> string.

  (** rewrite_paths for one location, xsd2py.py:25-37 *)
  Definition rewrite_path (cwd base_path : string) (location : option string) : res (option string) :=
    match location with
    | None => Ok None
    | Some l =>
        if is_url l then Ok (Some l)
        else if is_url cwd then Ok (Some (urljoin cwd l))
        else r <- relpath getcwd (normpath (path_join cwd l)) base_path ;; Ok (Some r)
    end.

  Section Xsd.
  Variable open : string -> res xdoc.

  (** One recursion of generate_code_from_xsd (53-76), schema_to_py (121-155),
      the template and resolve_import (40-50).  [n] is the recursion limit,
      [self] the path under which the document was opened.  [base_path] has its
      default already.  Simplification: writing the code for the types of a
      document does not fail. *)
  Fixpoint generate (n : nat) (self : option string) (doc : xdoc) (location : option string) (cwd base_path : string)
      (st : state) : state * res unit :=
    match n with
    | O => (st, Err RecursionError)
    | S n' =>
        if match location with Some l => negb (String.eqb l "") && str_in l (known_paths st) | None => false end
        then (st, Ok tt)
        else
          match (if String.eqb base_path "" then Ok (xd_locs doc) else mapM (rewrite_path cwd base_path) (xd_locs doc)) with
          | Err e => (st, Err e)
          | Ok locs =>
              let st := match location with
                        | Some l => if String.eqb l "" then st else mkState (known_paths st ++ [l]) (events st)
                        | None => st
                        end in
              match each (fun (p : option string * option string) st =>
                match snd p with
                | None | Some "" => (st, Ok tt)
                | Some l =>
                    match resolve_location getcwd l base_path with
                    | Err e => (st, Err e)
                    | Ok (path, cwd', location') =>
                        let st := log (Opened self (match fst p with Some o => o | None => "" end) path) st in
                        match open path with
                        | Err e => (st, Err e)
                        | Ok doc' => generate n' (Some path) doc' (Some location') cwd' base_path st
                        end
                    end
                end) (combine (xd_locs doc) locs) st with
              | (st, Ok _) => (log (Emitted location doc) st, Ok tt)
              | (st, Err e) => (st, Err e)
              end
          end
    end.

  (** generate_code_from_xsd as xsd2py.main calls it (175-180): [cwd] is the
      directory of the document. *)
  Definition generate_code_from_xsd (n : nat) (doc : xdoc) (cwd : string) : list event * res unit :=
    let (st, r) := generate n None doc None cwd cwd (mkState [] []) in (events st, r).
  End Xsd.

  (** A WSDL document: the locations of its imports, its schemas, and the
      serialisations of its services, bindings, messages and port types (four
      lists, all treated alike: here one).  Objects made from documents are
      equal if their serialisations are (see XsdEq.v); for schemas that is
      [ws_bytes]. *)
  Record wschema := mkWS { ws_bytes : string; ws_doc : xdoc }.
  Record wdoc := mkWD { wd_imports : list string; wd_schemas : list wschema; wd_items : list string }.

  (** deduplicate, wsdl2py.py:39-41 *)
  Fixpoint deduplicate_from {A} (key : A -> string) (seen : list string) (l : list A) : list A :=
    match l with
    | [] => []
    | x :: t => if str_in (key x) seen then deduplicate_from key seen t
                else x :: deduplicate_from key (key x :: seen) t
    end.
  Definition deduplicate {A} (key : A -> string) (l : list A) : list A := deduplicate_from key [] l.

  Section Wsdl.
  Variable open : string -> res wdoc.

  (** The set [seen], the events, [definitions] and [cwd]. *)
  Record merging := mkMerging { mg_seen : list string; mg_events : list (option string * string * string); mg_defs : wdoc; mg_cwd : string }.

  (** wsdl2py.py:60-70: what [imported] adds to [definitions]. *)
  Definition merge_into (imported definitions : wdoc) : wdoc :=
    mkWD (wd_imports definitions)
      (if match wd_schemas imported with [] => true | _ => false end then wd_schemas definitions
       else deduplicate ws_bytes (wd_schemas imported ++ wd_schemas definitions))
      (deduplicate (fun s => s) (wd_items imported ++ wd_items definitions)).

  (** merge_imports, wsdl2py.py:37-70.  The variable [cwd] is assigned to in the
      loop (47).  An event is (document, location, path) as above. *)
  Fixpoint merge_imports (n : nat) (self : option string) (definitions : wdoc) (cwd : string)
      (seen : list string) (ev : list (option string * string * string)) : merging * res unit :=
    match n with
    | O => (mkMerging seen ev definitions cwd, Err RecursionError)
    | S n' =>
        each (fun location m =>
          match resolve_location getcwd location (mg_cwd m) with
          | Err e => (m, Err e)
          | Ok (path, cwd', _) =>
              if str_in path (mg_seen m) then (mkMerging (mg_seen m) (mg_events m) (mg_defs m) cwd', Ok tt)
              else
                let seen := path :: mg_seen m in
                let ev := mg_events m ++ [(self, location, path)] in
                match open path with
                | Err e => (mkMerging seen ev (mg_defs m) cwd', Err e)
                | Ok imported =>
                    match (if match wd_imports imported with [] => true | _ => false end
                           then (mkMerging seen ev imported cwd', Ok tt)
                           else merge_imports n' (Some path) imported cwd' seen ev) with
                    | (m', Ok _) => (mkMerging (mg_seen m') (mg_events m') (merge_into (mg_defs m') (mg_defs m)) cwd', Ok tt)
                    | (m', Err e) => (mkMerging (mg_seen m') (mg_events m') (mg_defs m) cwd', Err e)
                    end
                end
          end) (wd_imports definitions) (mkMerging seen ev definitions cwd)
    end.
  End Wsdl.

  (** generate_code_from_wsdl, wsdl2py.py:73-92: each schema gets new lists of
      known paths and types.  Simplification: reorder_schemas, which does not
      change the set (C57), is left out. *)
  Definition wsdl_schemas (n : nat) (open : string -> res xdoc) (schemas : list wschema) (cwd : string)
      : list event * res unit :=
    each (fun s ev =>
      let (st, r) := generate open n None (ws_doc s) None cwd cwd (mkState [] ev) in (events st, r)) schemas [].
  Definition generate_code_from_wsdl (n : nat) (open : string -> res xdoc) (openw : string -> res wdoc) (doc : wdoc) (cwd : string)
      : list (option string * string * string) * list event * res unit :=
    match merge_imports openw n None doc cwd [] [] with
    | (m, Err e) => (mg_events m, [], Err e)
    | (m, Ok _) =>
        let (ev, r) := wsdl_schemas n open (wd_schemas (mg_defs m)) cwd in
        (mg_events m, ev, r)
    end.
End Generate.
