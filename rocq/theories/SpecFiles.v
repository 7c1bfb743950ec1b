(** Vocabulary for modules made from several XSD documents. *)
From Coq Require Import String Ascii List ZArith NArith Bool.
From Verif Require Import PyBase PyVal XsdSimple XsdComplex XsdMeta LibClasses Py2Xsd Xsd2Py PyLoad XsdFiles SpecGenCode SpecPath SpecImports SpecUrl SpecService SpecLoadable.
Import ListNotations.
Open Scope nat_scope.
Open Scope string_scope.
Open Scope list_scope.

(** A document: the prefixes that stand for XML Schema in it, the files it
    includes, the namespaces it imports with their files, and its types and
    elements. *)
Record document := mkDocument {
  do_prefixes : list (option string);
  do_includes : list string;
  do_imports : list (string * string);
  do_plan : schema_plan }.
Definition followed (d : document) : list string := do_includes d ++ map snd (do_imports d).
Definition document_names (d : document) : list string :=
  simple_names (do_plan d) ++ complex_names (do_plan d) ++ own_names (do_plan d).

(** The parsed document [f] says what [d] says. *)
Definition states_file (f : file) (d : document) : Prop :=
  fi_prefixes f = do_prefixes d /\ states_schema (fi_schema f) (do_plan d) /\
  (exists b l, has (fi_schema f) "includes" (VList b l) /\ Forall2 (fun i loc => has i "schemaLocation" (VStr loc)) l (do_includes d)) /\
  (exists b l, has (fi_schema f) "imports" (VList b l) /\
     Forall2 (fun i p => has i "namespace" (VStr (fst p)) /\ has i "schemaLocation" (VStr (snd p))) l (do_imports d)).
(** The files of a directory. *)
Definition directory_holds (open : string -> res file) (base : list string) (files : list (string * document)) : Prop :=
  forall f d, In (f, d) files -> exists x, open (path_of (base ++ [f])) = Ok x /\ states_file x d.

(** [d'] is included or imported by [d], or by a document that is, and so on. *)
Inductive reaches (files : list (string * document)) : document -> document -> Prop :=
| reaches_here d f d' : In f (followed d) -> In (f, d') files -> reaches files d d'
| reaches_on d f d' d'' : In f (followed d) -> In (f, d') files -> reaches files d' d'' -> reaches files d d''.
(** The documents the module is made of. *)
Definition part_of (files : list (string * document)) (root d : document) : Prop := d = root \/ reaches files root d.
(** The files that they include or import. *)
Definition refers (files : list (string * document)) (root : document) (f : string) : Prop := exists d, part_of files root d /\ In f (followed d).
(** The documents, each once, with their files. *)
Definition parts_of (files : list (string * document)) (root : document) (parts : list (option string * document)) : Prop :=
  NoDup (map fst parts) /\
  forall loc d, In (loc, d) parts <-> match loc with None => d = root | Some f => In (f, d) files /\ refers files root f end.

(** A mere name of a file. *)
Definition file_name (f : string) : Prop := proper f /\ forall c, holds f c -> letter c \/ digit c \/ holds ".-" c.

(** Documents that fit together: everything that is included or imported is there
    and under the namespace it has; no document includes or imports itself, not
    even by way of others; no two types have the same class name; and every
    document uses its own types and those of documents it reaches.  [n_docs] is
    the room for following documents. *)
Record fitting (n_docs n_sort limit : nat) (rank : string -> nat) (files : list (string * document)) (root : document) : Prop := {
  ft_once : NoDup (map fst files);
  ft_names : Forall file_name (map fst files);
  ft_there : forall d f, In d (root :: map snd files) -> In f (followed d) -> In f (map fst files);
  ft_acyclic : exists depth : string -> nat,
    (forall f d f', In (f, d) files -> In f' (followed d) -> depth f' < depth f) /\ forall f, In f (map fst files) -> depth f + 1 < n_docs;
  ft_room : 0 < n_docs;
  ft_namespace : forall d ns f d', In d (root :: map snd files) -> In (ns, f) (do_imports d) -> In (f, d') files -> sc_tns (do_plan d') = ns;
  ft_classes : NoDup (flat_map document_names (root :: map snd files));
  ft_free : forall c t, In c (flat_map document_names (root :: map snd files)) -> c <> ("Schema_" ++ t)%string;
  ft_works : forall d, In d (root :: map snd files) -> exists others,
    (forall s, In s others -> exists d', reaches files d d' /\ do_plan d' = s) /\
    document_works (do_prefixes d) n_sort limit others (do_plan d) rank }.

(** The module has the classes of the document. *)
Definition has_classes (m : module) (d : document) : Prop :=
  forall p, In p (sc_complexes (do_plan d)) -> cp_base p = None ->
  exists c, module_class m (capital (cp_name p)) c /\ cd_mro c = [capital (cp_name p); "xsd.ComplexType"] /\ cd_kind c = CKPlain /\
    cd_ind c = match co_ind (cp_content p) with Some i => i | None => ISequence end /\
    cd_schema c = Some {| si_tns := Some (sc_tns (do_plan d)); si_efd := sc_efd (do_plan d) |} /\
    Forall2 (mirrors m (do_prefixes d)) (co_attrs (cp_content p) ++ co_elems (cp_content p)) (cd_fields c).

(** The module itself, for the vocabulary of SpecGenCode.v. *)
Definition classes_of (fm : fmodule) : module := mkMod (fm_state fm) "" "" [].

(** Where a file is served by a service made from the module. *)
Definition served_at (f : string) : string := ("${scheme}://${host}/" ++ f)%string.
(** The object number [i] is the Schema of a document with the namespace [ns], of
    the file [f]. *)
Definition schema_numbered (fm : fmodule) (i : nat) (P : schema_obj -> Prop) : Prop :=
  exists o, nth_error (fm_schemas fm) i = Some o /\ P o.
Definition of_namespace (ns : string) (o : schema_obj) : Prop := md_tns (so_module o) = ns.
Definition of_file (f : option string) (o : schema_obj) : Prop := so_location o = option_map served_at f.
(** The Schema object [o] is linked as the document [d] says. *)
Definition linked (fm : fmodule) (f : option string) (d : document) (o : schema_obj) : Prop :=
  of_namespace (sc_tns (do_plan d)) o /\ of_file f o /\
  Forall2 (fun p i => schema_numbered fm i (of_namespace (fst p))) (do_imports d) (so_imports o) /\
  Forall2 (fun f i => schema_numbered fm i (of_file (Some f))) (do_includes d) (so_includes o).
(** No two of the texts that the variables are made of, the namespaces and the
    names of the files, have the same hash; and no namespace is the name of a
    file. *)
Definition namespaces (files : list (string * document)) (root : document) : list string := map (fun d => sc_tns (do_plan d)) (root :: map snd files).
Definition no_collision (md5 : string -> string) (files : list (string * document)) (root : document) : Prop :=
  (forall a b, In a (map fst files ++ namespaces files root) -> In b (map fst files ++ namespaces files root) -> md5 a = md5 b -> a = b) /\
  forall f, In f (map fst files) -> ~ In f (namespaces files root).

(** The document includes or imports something. *)
Definition has_references (f : file) : Prop :=
  (exists b i l, has (fi_schema f) "includes" (VList b (i :: l))) \/ (exists b i l, has (fi_schema f) "imports" (VList b (i :: l))).
