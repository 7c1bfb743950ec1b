(** Vocabulary for the documents a dispatcher serves. *)
From Coq Require Import String Ascii List ZArith Bool.
From Verif Require Import PyBase Xml PyVal XsdSimple XsdComplex XsdSchema PyHttp Soap Client Dispatch LibClasses Py2Xsd Py2Wsdl
  SpecParse SpecSchema SpecSimple SpecHttp SpecDispatch SpecXsd SpecGenWsdl Serve.
Import ListNotations.
Open Scope string_scope.
Open Scope list_scope.

(** [y] is [x] or somewhere inside it. *)
Inductive inside (y : node) : node -> Prop :=
| in_self : inside y y
| in_kid t a k z : In z k -> inside y z -> inside y (Elem t a k).
(** The document has an import or include of XML Schema with the location [l]. *)
Definition refers_to (x : node) (l : string) : Prop :=
  exists name a k, In name ["import"; "include"] /\ inside (Elem (clark ns_xsd name) a k) x /\ assoc "schemaLocation" a = Some l.

(** The link to what is at [l]; the query string a client that follows it sends. *)
Definition link (l : string) : string := "?xsd=" ++ l.
Definition query (l : string) : string := "xsd=" ++ l.
(** The same schema, with links where it has locations. *)
Definition with_links (s : gschema) : gschema :=
  mkGs (gs_tns s) (gs_efd s) (map (fun i => (fst i, option_map link (snd i))) (gs_imports s)) (map (option_map link) (gs_includes s))
    (gs_simple s) (gs_complex s) (gs_elements s).
Definition service_with_links (s : wservice) : wservice :=
  mkWs (ws_name s) (ws_tns s) (ws_location s) (map with_links (ws_schemas s)) (ws_version s) (ws_methods s).
(** A location that means itself in a query string. *)
Definition plain_location (l : string) : Prop :=
  l <> "" /\ forall c, In c ["&"%char; "+"%char; "%"%char; "#"%char] -> ~ char_in c l.
(** Every schema imported or included, directly or not, has a location of its own
    that means itself in a query string. *)
Definition well_located (graph : sgraph) (schemas : list nat) : Prop :=
  (forall t, below graph schemas t -> exists l, s_location (graph t) = Some l /\ plain_location l) /\
  (forall s t, below graph schemas s -> below graph schemas t -> s_location (graph s) = s_location (graph t) -> s = t).
(** [r] knows the schemas below the given ones by their location, and nothing else. *)
Definition knows (graph : sgraph) (doc : nat -> xdocument) (schemas : list nat) (r : string -> res xdocument) : Prop :=
  forall url, (forall t, below graph schemas t -> s_location (graph t) = Some url -> r url = Ok (doc t)) /\
    ((forall t, below graph schemas t -> s_location (graph t) <> Some url) -> r url = Err ValueError).
(** The XSD document of a schema. *)
Definition xsd_document (O : oracle) (E : env) (G : decls) (s : gschema) : xdocument :=
  mkDoc [("sns", gs_tns s); ("xsd", ns_xsd)] (describe_schema O E G s).
(** An optional list: none given is an empty one. *)
Definition or_empty {A} (l : option (list A)) : list A := match l with Some l => l | None => [] end.
