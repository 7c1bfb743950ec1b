(** XML text in and out of classes: ComplexType.parsexml and xml with their
    [schema] argument (/repo/soapfish/xsd.py:996-1016), and Document
    (1033-1058).

    Simplifications:
    - what lxml does is given by functions: [etree.fromstring], [etree.tostring]
      and [etree.XMLSchema];
    - XMLParser(schema=...) parses and then validates, and fails with an
      XMLSyntaxError (libxml2 validates while it parses; entities and attribute
      defaults of the schema are not filled in by either). *)
From Coq Require Import String Ascii List ZArith Bool.
From Verif Require Import PyBase Xml PyVal XsdSimple XsdComplex XsdMeta LibClasses Py2Xsd.
Import ListNotations.
Open Scope nat_scope.
Open Scope string_scope.
Open Scope list_scope.

(** The schema argument: a Schema object, or an etree.XMLSchema. *)
Inductive schema_arg := Described (s : gschema) | Compiled (check : node -> res unit).

Section Texts.
  Variable n : nat.                       (* the recursion limit *)
  Variable O : oracle.
  Variables L E : env.                    (* the classes of xsdspec, and those of the application *)
  Variable G : decls.
  Variable fromstring : string -> res node.
  Variable tostring : node -> string.     (* pretty_print=True *)
  (** [etree.XMLSchema(doc)]: its assertValid *)
  Variable XMLSchema : xdocument -> res (node -> res unit).

  (** [etree.fromstring(xml, parser=etree.XMLParser(schema=schema))] *)
  Definition parse_checked (check : node -> res unit) (text : string) : res node :=
    x <- fromstring text ;;
    match check x with
    | Ok _ => Ok x
    | Err _ => Err (Exn EXMLSyntaxError "")
    end.

  (** ComplexType.parsexml, 996-1007 *)
  Definition parsexml (c text : string) (schema : option schema_arg) : res pyval :=
    parser <- (match schema with
               | None => Ok fromstring
               | Some (Compiled check) => Ok (parse_checked check)
               | Some (Described s) =>
                   d <- generate_xsd n O L E G s ;;
                   check <- XMLSchema d ;;
                   Ok (parse_checked check)
               end) ;;
    x <- parser text ;;
    parse_obj n O E c x.

  (** ComplexType.xml, 1009-1016.  A Schema object has no assertValid. *)
  Definition to_xml (v : pyval) (tagname : string) (ns efd : option string) (schema : option schema_arg) : res string :=
    x <- xml_of n O E v tagname ns efd ;;
    _ <- (match schema with
          | None => Ok tt
          | Some (Compiled check) => check x
          | Some (Described _) => Err AttributeError
          end) ;;
    Ok (tostring x).

  (** [self._meta.fields[0]] *)
  Definition root_field (c : string) : res field :=
    d <- get_class E c ;;
    match filter is_plain (cd_fields d) with
    | f :: _ => Ok f
    | [] => Err IndexError
    end.
  (** Document.render, 1045-1050.  The MockElement keeps what was appended last;
      [etree.tostring(None)] is a TypeError.  The names are those of the
      attributes, except for a ListElement and a ClassNamedElement, which do not
      look at the name they are given. *)
  Definition mock : node := Elem "mock" [] [].
  Definition document_render (namespace : option string) (v : pyval) : res string :=
    p <- obj_parts v ;;
    f <- root_field (fst p) ;;
    value <- getattr (snd p) (f_name f) ;;
    m <- (match f_kind f with
          | KElement => render_element O (render_obj n O E) f mock (f_name f) value namespace None
          | KClassNamed => render_classnamed O E (render_obj n O E) f mock value
          | _ => render_list O (render_obj n O E) f mock value namespace None
          end) ;;
    match rev (el_kids m) with
    | x :: _ => Ok (tostring x)
    | [] => Err TypeError
    end.
  (** Document.parsexml, 1052-1058: [field.parse(cls, ...)], Element.parse and
      ListElement.parse with the class for an instance.  The result is the value
      that [setattr] gives the class; nothing is returned.  [getattr(cls, name)]
      is the ListElement, which has no method append. *)
  Definition document_parse (c text : string) : res pyval :=
    f <- root_field c ;;
    x <- fromstring text ;;
    match f_kind f with
    | KList =>
        _ <- (if truthy_str (el_get x xsi_nil) then Ok VNil else parse_type O (parse_obj n O E) (f_type f) x) ;;
        Err AttributeError
    | _ => if match el_get x xsi_nil with Some s => String.eqb s "true" | None => false end
           then Ok VNil else parse_type O (parse_obj n O E) (f_type f) x
    end.

  (** The attribute that the class was given, if any: None stands for the
      Element object of the class statement. *)
  Definition class_value := option pyval.
  (** A program calls [c.parsexml] with these texts, one after the other, and
      catches what is raised: what each call returns or raises. *)
  Definition document_call (c : string) (st : class_value) (text : string) : class_value * res pyval :=
    match document_parse c text with
    | Ok v => (Some v, Ok VNone)
    | Err e => (st, Err e)
    end.
  Fixpoint document_calls (c : string) (st : class_value) (texts : list string) : class_value * list (res pyval) :=
    match texts with
    | [] => (st, [])
    | t :: rest =>
        let (st1, r) := document_call c st t in
        let (st2, rs) := document_calls c st1 rest in
        (st2, r :: rs)
    end.
End Texts.

(** What [setattr(cls, name, value)] does to the classes of the program (XsdMeta.v):
    the class has another attribute of that name. *)
Fixpoint set_class (name : string) (l : list klass) (c : nat) : list klass :=
  match l, c with
  | [], _ => []
  | k :: t, O => mkK (assoc_set name AOther (k_dict k)) (k_mro k) (k_meta k) :: t
  | k :: t, S c' => k :: set_class name t c'
  end.
Definition class_setattr (w : world) (c : nat) (name : string) : world :=
  mkWorld (w_store w) (set_class name (w_classes w) c).
