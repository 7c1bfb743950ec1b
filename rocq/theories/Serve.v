(** Making a dispatcher: SOAPDispatcher.__init__ and _rewrite_locations
    (soap_dispatch.py:25-53, 235-237) and schema_validator (py2xsd.py:214-253). *)
From Coq Require Import String Ascii List ZArith Bool.
From Verif Require Import PyBase Xml PyVal XsdSimple XsdComplex XsdSchema PyHttp Soap Client Dispatch LibClasses Py2Xsd Py2Wsdl.
Import ListNotations.
Open Scope string_scope.
Open Scope list_scope.

(** _rewrite_locations, soap_dispatch.py:235-237: the xpath finds the elements
    import and include of XML Schema anywhere in the document (its root always
    declares the prefix xsd).  A missing attribute is a KeyError.  (The changes
    are made in place; if one fails the document is thrown away.) *)
Definition is_reference (tag : string) : bool :=
  String.eqb tag (clark ns_xsd "import") || String.eqb tag (clark ns_xsd "include").
Fixpoint rewrite_locations (x : node) : res node :=
  match x with
  | Elem t a k =>
      a' <- (if is_reference t then
               match assoc "schemaLocation" a with
               | Some l => Ok (assoc_set "schemaLocation" ("?xsd=" ++ l)%string a)
               | None => Err KeyError
               end
             else Ok a) ;;
      k' <- (fix all (l : list node) : res (list node) :=
               match l with [] => Ok [] | y :: l' => y' <- rewrite_locations y ;; l'' <- all l' ;; Ok (y' :: l'') end) k ;;
      Ok (Elem t a' k')
  | _ => Ok x
  end.

(** What a Service says beyond what the dispatcher reads at each request. *)
Record full_service (W : Type) := mkFull {
  fs_service : service W;
  fs_name : string;
  fs_tns : string;
  fs_location : string;
  fs_style : method -> string }.
Arguments mkFull {W}. Arguments fs_service {W}. Arguments fs_name {W}. Arguments fs_tns {W}. Arguments fs_location {W}. Arguments fs_style {W}.

Section Make.
  Variable n : nat.                       (* the recursion limit *)
  Variable O : oracle.
  Variable L E : env.                     (* the classes of xsdspec and wsdl, and those of the application *)
  Variable G : decls.
  Variable graph : sgraph.                (* the Schema objects: what each imports and includes *)
  Variable parts : nat -> gschema.        (* and what else each of them holds *)
  (** [etree.tostring(x, pretty_print=True)] *)
  Variable show : xdocument -> string.
  (** [etree.XMLSchema(x).assertValid], where references are looked up by the
      given function. *)
  Variable compile : (string -> res xdocument) -> xdocument -> res (node -> res unit).

  (** What generate_xsdspec reads of the Schema object [i]. *)
  Definition schema_object (i : nat) : gschema :=
    mkGs (gs_tns (parts i)) (gs_efd (parts i))
      (map (fun j => (gs_tns (parts j), s_location (graph j))) (s_imports (graph i)))
      (map (fun j => s_location (graph j)) (s_includes (graph i)))
      (gs_simple (parts i)) (gs_complex (parts i)) (gs_elements (parts i)).
  Definition xsd_of (i : nat) : res xdocument := generate_xsd n O L E G (schema_object i).

  (** SchemaResolver.resolve, py2xsd.py:226-231 *)
  Definition resolve (lookup : list (option string * nat)) (url : string) : res xdocument :=
    match loc_get (Some url) lookup with
    | Some i => xsd_of i
    | None => Err ValueError
    end.
  (** [etree.fromstring(b''.join(etree.tostring(x) for x in docs))], py2xsd.py:250-251:
      a document has exactly one root. *)
  Definition parse_joined (docs : list xdocument) : res xdocument :=
    match docs with
    | [d] => Ok d
    | _ => Err (Exn EXMLSyntaxError "")
    end.
  (** schema_validator, py2xsd.py:214-253 *)
  Definition schema_validator (schemas : list nat) : res (node -> res unit) :=
    lookup <- walk_schema_tree n graph (fun i => Ok i) schemas ;;
    docs <- mapM xsd_of schemas ;;
    d <- parse_joined docs ;;
    compile (resolve (fst lookup)) d.

  (** The document with rewritten locations, as text. *)
  Definition relinked (d : xdocument) : res string :=
    r <- rewrite_locations (xd_root d) ;;
    Ok (show (mkDoc (xd_prefixes d) r)).
  Section W.
    Context {W : Type}.
    (** What py2wsdl reads of the Service. *)
    Definition service_object (F : full_service W) : wservice :=
      mkWs (fs_name F) (fs_tns F) (fs_location F) (map schema_object (sv_schemas (fs_service F))) (sv_version (fs_service F))
        (map (fun m => mkWm (m_op m) (m_action m) (m_in m) (m_out m) (fs_style F m)) (sv_methods (fs_service F))).
    (** SOAPDispatcher.__init__, soap_dispatch.py:25-53.  The second part of the
        result is the validator. *)
    Definition new_dispatcher (F : full_service W) (middlewares : option (list (middleware W)))
        (hooks : option (list (string * hook W))) (wsdl : option string)
        (xsds : option (list (option string * string))) (strict : bool) : res (dispatcher W * (node -> res unit)) :=
      let S := fs_service F in
      valid <- schema_validator (sv_schemas S) ;;
      let hs := match hooks with Some l => l | None => [] end in
      _ <- check_hooks (map fst hs) ;;
      w <- (match wsdl with
            | Some w => Ok w
            | None => d <- generate_wsdl n O L E G (service_object F) ;; relinked d
            end) ;;
      xs <- (match xsds with
             | Some l => Ok l
             | None => r <- walk_schema_tree n graph (fun i => d <- xsd_of i ;; relinked d) (sv_schemas S) ;; Ok (fst r)
             end) ;;
      Ok (mkDisp S (match middlewares with Some l => l | None => [] end) hs w xs strict, valid).
  End W.
End Make.
