(** Element, ClassNamedElement, Attribute, Ref, Content, ListElement and
    ComplexType: accepting, rendering and parsing
    (/repo/soapfish/xsd.py:536-1022).

    Classes are descriptors ([classdef]) in an environment ([env]); an instance
    is a [VObj].  The descriptor of a class lists its fields in the order of
    [_meta.all] (see XsdMeta.v for how that list comes about).

    Simplifications:
    - field types are resolved ([_evaluate_type], import_type are modelled by
      the environment lookup); that resolving a class-valued type instantiates
      the class is modelled in [new_inst];
    - values are immutable trees: sharing of mutable objects between instances
      is the subject of XsdHeap.v. *)
From Coq Require Import String Ascii List ZArith NArith Bool.
From Verif Require Import PyBase PyRe Xml PyVal XsdDate XsdSimple.
Import ListNotations.
Open Scope string_scope.
Open Scope list_scope.

(** ** Descriptors *)

(** Type of a field: a simple type instance or a ComplexType subclass. *)
Inductive ftype := TSimple (t : stype) | TComplex (cls : string).

(** Element (536-628), ClassNamedElement (631-651), Attribute (654-692), Ref
    (695-739), Content (742-746), ListElement (767-822). *)
Inductive fkind := KElement | KClassNamed | KAttribute | KRef | KContent | KList.

(** [_maxOccurs] of a ListElement. *)
Inductive occurs := ONone | OInt (z : Z) | OUnbounded.

Record field := mkField {
  f_name : string;              (* _name *)
  f_kind : fkind;
  f_type : ftype;
  f_tag : option string;        (* tagname *)
  f_min : option Z;             (* _minOccurs *)
  f_max : occurs;               (* _maxOccurs, lists only *)
  f_nillable : bool;
  f_default : pyval;
  f_ns : option string }.       (* namespace *)

(** What the render code reads of a Schema object: targetNamespace and
    elementFormDefault. *)
Record sinfo := { si_tns : option string; si_efd : string }.

Inductive indicator := ISequence | IChoice | IAll.

(** Which overriding methods a class has: none, those of xsd.Group (a marker,
    1025-1030), or those of soap11.Header (/repo/soapfish/soap11.py:38-46). *)
Inductive ckind := CKPlain | CKGroup | CKHeader.

Record classdef := mkClass {
  cd_mro : list string;         (* the class and its ComplexType ancestors *)
  cd_kind : ckind;
  cd_fields : list field;       (* _meta.all *)
  cd_ind : indicator;           (* INDICATOR *)
  cd_schema : option sinfo }.   (* SCHEMA *)

(** The classes that exist, and the recursion limit of the interpreter. *)
Record env := mkEnv { e_cls : string -> option classdef; e_limit : nat }.

Definition NameError := Exn (EOther "NameError") "".
Definition get_class (E : env) (c : string) : res classdef :=
  match e_cls E c with Some d => Ok d | None => Err NameError end.

(** Schema.elementFormDefault == 'qualified' *)
Definition qualified : string := "qualified".
Definition is_qualified (efd : option string) : bool :=
  match efd with Some s => String.eqb s qualified | None => false end.

Definition is_attr (f : field) : bool :=
  match f_kind f with KAttribute => true | _ => false end.
Definition is_group (f : field) : bool :=
  match f_kind f with KRef | KContent => true | _ => false end.
Definition is_plain (f : field) : bool := negb (is_attr f) && negb (is_group f).

(** [field.tagname or field._name] *)
Definition tag_or_name (f : field) : string :=
  match f_tag f with Some t => if String.eqb t "" then f_name f else t | None => f_name f end.

(** ** Accepting values *)

(** [isinstance(v, c)] for a class [c]. *)
Definition is_instance (E : env) (v : pyval) (c : string) : bool :=
  match v with
  | VObj ci _ _ => match e_cls E ci with Some d => str_in c (cd_mro d) | None => false end
  | _ => false
  end.

(** ComplexType.accept, 907-914; Header.accept returns anything. *)
Definition complex_accept (E : env) (c : string) (v : pyval) : res pyval :=
  d <- get_class E c ;;
  match cd_kind d with
  | CKHeader => Ok v
  | _ => match v with
         | VNone => Ok VNone
         | _ => if is_instance E v c then Ok v else Err ValueError
         end
  end.

(** [self._type.accept(v)] *)
Definition type_accept (O : oracle) (E : env) (t : ftype) (v : pyval) : res pyval :=
  match t with
  | TSimple s => st_accept O s v
  | TComplex c => complex_accept E c v
  end.

(** Element.accept (593-602), inherited by all but ListElement (789-790). *)
Definition field_accept (O : oracle) (E : env) (f : field) (v : pyval) : res pyval :=
  match f_kind f with
  | KList => Ok v
  | _ => match v with
         | VNil => if f_nillable f then Ok VNil else Err ValueError
         | _ => type_accept O E (f_type f) v
         end
  end.

(** ComplexType._find_field, 929-935. *)
Definition find_field (fields : list field) (name : string) : res field :=
  match find (fun f => String.eqb (f_name f) name) fields with
  | Some f => Ok f
  | None => Err ValueError
  end.

(** ComplexType.__setattr__, 878-886, on the attribute dictionary [fs] of an
    instance of a class with fields [fields].  (Setting [_xmlelement] is the
    [xe] component of [VObj].) *)
Definition setattr (O : oracle) (E : env) (fields : list field)
    (fs : list (string * pyval)) (name : string) (v : pyval) : res (list (string * pyval)) :=
  f <- find_field fields name ;;
  v' <- field_accept O E f v ;;
  Ok (assoc_set name v' fs).

(** [getattr(instance, name)] *)
Definition getattr (fs : list (string * pyval)) (name : string) : res pyval :=
  match assoc name fs with Some v => Ok v | None => Err AttributeError end.

(** ** Creating instances *)

(** ComplexType.__new__, 868-872.  Each assignment first evaluates the field's
    type (Element.accept calls _evaluate_type, 572-579), which *instantiates* a
    class-valued type; ListElement.accept does not.  [empty_value]: 581-588,
    721-723, 745-746, 792-793.  [n] is the recursion limit: exceeding it is
    Python's RecursionError. *)
Fixpoint new_inst (n : nat) (O : oracle) (E : env) (c : string)
    : res (list (string * pyval)) :=
  match n with
  | O => Err RecursionError
  | S n' =>
      d <- get_class E c ;;
      foldM (fun fs f =>
        inst <- (match f_kind f, f_type f with
                 | KList, _ => Ok None
                 | _, TComplex ct => res_map Some (new_inst n' O E ct)
                 | _, TSimple _ => Ok None
                 end) ;;
        let ev := match f_kind f with
                  | KList => VList true []
                  | KRef => match f_type f, inst with
                            | TComplex ct, Some fs' => VObj ct None fs'
                            | _, _ => VOther "SimpleType"
                            end
                  | KContent => VNone
                  | _ => f_default f
                  end in
        setattr O E (cd_fields d) fs (f_name f) ev) [] (cd_fields d)
  end.

(** [cls()] *)
Definition new_instance (O : oracle) (E : env) (c : string) : res (list (string * pyval)) :=
  new_inst (e_limit E) O E c.

(** ComplexType.__init__, 874-876: [cls] called with keyword arguments. *)
Definition construct (O : oracle) (E : env) (c : string) (kw : list (string * pyval)) : res pyval :=
  d <- get_class E c ;;
  fs <- new_instance O E c ;;
  fs' <- foldM (fun fs p => setattr O E (cd_fields d) fs (fst p) (snd p)) fs kw ;;
  Ok (VObj c None fs').

(** ** Lists *)

(** [len(l) > max] where [max] may be UNBOUNDED. *)
Definition exceeds (len : Z) (m : occurs) : bool :=
  match m with OInt z => (z <? len)%Z | _ => false end.

(** TypedList.append, 754-764, for the TypedList of field [f]. *)
Definition tl_append (O : oracle) (E : env) (f : field) (l : list pyval) (v : pyval)
    : res (list pyval) :=
  a <- (match v with
        | VNil => if f_nillable f then Ok VNil else Err ValueError
        | _ => type_accept O E (f_type f) v
        end) ;;
  (* [_maxOccurs is not None and len + 1 > _maxOccurs] *)
  if exceeds (Z.of_nat (length l) + 1) (f_max f) then Err ValueError
  else Ok (l ++ [a]).

(** ** Rendering *)

Definition ns_xml : string := "http://www.w3.org/XML/1998/namespace".
Definition xml_lang : string := clark ns_xml "lang".

(** [parent.text = x] for a Python value [x]. *)
Definition set_text_val (parent : node) (x : pyval) : res node :=
  match x with
  | VNone => Ok parent
  | VStr s => el_set_text parent (Some s)
  | _ => Err TypeError
  end.

(** [parent.set(name, x)] *)
Definition set_attr_val (parent : node) (name : string) (x : pyval) : res node :=
  match x with
  | VStr s => el_set parent name s
  | _ => Err TypeError
  end.

(** SimpleType.render (108-109) and LanguageString.render. *)
Definition render_simple (O : oracle) (t : stype) (parent : node) (v : pyval) : res node :=
  x <- st_xmlvalue O t v ;;
  p <- set_text_val parent x ;;
  match t with
  | SLang _ => el_set p xml_lang "en"
  | _ => Ok p
  end.

(** [x is not None and ...]: 609-612, 803-808. *)
Definition eff_ns (f : field) (ns : option string) : option string :=
  match f_ns f with Some n => Some n | None => ns end.
Definition qualify (ns : option string) (efd : option string) (name : string) : string :=
  match ns with
  | Some n => if is_qualified efd then clark n name else name
  | None => name
  end.

(** The recursive call for complex types: class of the declared type, parent
    element, value, namespace, elementFormDefault. *)
Definition renderer : Type :=
  string -> node -> pyval -> option string -> option string -> res node.

(** [self._type.render(parent, value, namespace, elementFormDefault)] *)
Definition render_type (O : oracle) (rec : renderer) (t : ftype) (parent : node) (v : pyval)
    (ns efd : option string) : res node :=
  match t with
  | TSimple s => render_simple O s parent v
  | TComplex c => rec c parent v ns efd
  end.

(** The value's class, for attribute access on an object. *)
Definition obj_parts (v : pyval) : res (string * list (string * pyval)) :=
  match v with
  | VObj c _ fs => Ok (c, fs)
  | _ => Err AttributeError
  end.

(** Element.render, 604-619. *)
Definition render_element (O : oracle) (rec : renderer) (f : field) (parent : node)
    (name : string) (v : pyval) (ns efd : option string) : res node :=
  match v with
  | VNone => Ok parent
  | _ =>
      let ns' := eff_ns f ns in
      x <- mk_element (qualify ns' efd name) ;;
      x' <- (match v with
             | VNil => el_set x xsi_nil "true"
             | _ => render_type O rec (f_type f) x v ns' efd
             end) ;;
      Ok (el_append parent x')
  end.

(** ClassNamedElement.render, 637-651.  [f'{...}{tagname}'] with a None name is
    the text 'None'; [etree.Element(None)] is a TypeError. *)
Definition render_classnamed (O : oracle) (E : env) (rec : renderer) (f : field) (parent : node)
    (v : pyval) : res node :=
  match v with
  | VNone => Ok parent
  | _ =>
      p <- obj_parts v ;;
      tagname <- getattr (snd p) "name" ;;
      value <- getattr (snd p) "value" ;;
      match value with
      | VNone => Ok parent
      | _ =>
          q <- obj_parts value ;;
          d <- get_class E (fst q) ;;
          match cd_schema d with
          | None => Err AttributeError
          | Some si =>
              tag <- (match si_tns si with
                      | Some n => if String.eqb n "" then
                                    match tagname with VStr s => Ok s | _ => Err TypeError end
                                  else Ok (clark n (match tagname with VStr s => s | _ => "None" end))
                      | None => match tagname with VStr s => Ok s | _ => Err TypeError end
                      end) ;;
              x <- mk_element tag ;;
              x' <- render_type O rec (f_type f) x value (si_tns si) (Some (si_efd si)) ;;
              Ok (el_append parent x')
          end
      end
  end.

(** Attribute.render, 670-684. *)
Definition render_attribute (O : oracle) (f : field) (parent : node) (name : string)
    (v : pyval) : res node :=
  match v with
  | VNone => match f_min f with
             | Some 0%Z | None => Ok parent
             | Some _ => Err ValueError
             end
  | VNil => if f_nillable f then el_set parent name "nil" else Err ValueError
  | _ => match f_type f with
         | TSimple s => x <- st_xmlvalue O s v ;; set_attr_val parent name x
         | TComplex _ => Err AttributeError
         end
  end.

(** [isinstance(value, Group)] *)
Definition is_group_obj (E : env) (v : pyval) : bool :=
  match v with
  | VObj c _ _ => match e_cls E c with
                  | Some d => match cd_kind d with CKGroup => true | _ => false end
                  | None => false
                  end
  | _ => false
  end.

(** Ref.render, 725-739, also Content.  [self._required] does not exist, so a
    None value is an AttributeError. *)
Definition render_ref (O : oracle) (E : env) (rec : renderer) (f : field) (parent : node)
    (name : string) (v : pyval) (ns efd : option string) : res node :=
  match v with
  | VNone => Err AttributeError
  | _ =>
      if is_group_obj E v then render_type O rec (f_type f) parent v ns efd
      else
        let tag := match ns with
                   | Some n => if String.eqb n "" then name else clark n name
                   | None => name
                   end in
        x <- mk_element tag ;;
        x' <- render_type O rec (f_type f) x v ns efd ;;
        Ok (el_append parent x')
  end.

(** ListElement.render, 795-816.  Iterating or measuring something that is not
    a list is a TypeError (simplification: other sized iterables, e.g. str, are
    not modelled). *)
Definition render_list (O : oracle) (rec : renderer) (f : field) (parent : node)
    (v : pyval) (ns efd : option string) : res node :=
  match v with
  | VList _ items =>
      let len := Z.of_nat (length items) in
      if match f_min f with Some m => negb (m =? 0)%Z && (len <? m)%Z | None => false end
      then Err ValueError
      else if match f_max f with OInt m => negb (m =? 0)%Z && (m <? len)%Z | _ => false end
      then Err ValueError
      else
        let ns' := eff_ns f ns in
        match f_tag f with
        | None => match items with [] => Ok parent | _ => Err TypeError end
        | Some t =>
            let tag := qualify ns' efd t in
            foldM (fun p item =>
                     x <- mk_element tag ;;
                     x' <- (match item with
                            | VNil => el_set x xsi_nil "true"
                            | _ => render_type O rec (f_type f) x item ns' efd
                            end) ;;
                     Ok (el_append p x')) parent items
        end
  | _ => Err TypeError
  end.

(** [field.render(parent=..., field_name=field.tagname or field._name, ...)] *)
Definition render_field (O : oracle) (E : env) (rec : renderer) (f : field) (parent : node)
    (v : pyval) (ns efd : option string) : res node :=
  let name := tag_or_name f in
  match f_kind f with
  | KElement => render_element O rec f parent name v ns efd
  | KClassNamed => render_classnamed O E rec f parent v
  | KAttribute => render_attribute O f parent name v
  | KRef | KContent => render_ref O E rec f parent name v ns efd
  | KList => render_list O rec f parent v ns efd
  end.

(** ComplexType.render, 916-927, and Header.render
    (/repo/soapfish/soap11.py:45-46), where [c] is the class of [self] (the
    declared type).  [n] bounds the nesting depth. *)
Fixpoint render_obj (n : nat) (O : oracle) (E : env) (c : string) (parent : node) (v : pyval)
    (ns efd : option string) : res node :=
  match n with
  | O => Err OutOfFuel
  | S n' =>
      d <- get_class E c ;;
      (* Header.render reads instance.SCHEMA.targetNamespace first *)
      ns0 <- (match cd_kind d with
              | CKHeader =>
                  p <- obj_parts v ;;
                  di <- get_class E (fst p) ;;
                  match cd_schema di with
                  | Some si => Ok (si_tns si)
                  | None => Err AttributeError
                  end
              | _ => Ok ns
              end) ;;
      match v with
      | VNone => Ok parent
      | _ =>
          p <- obj_parts v ;;
          di <- get_class E (fst p) ;;
          let ns1 := match cd_schema d with Some si => si_tns si | None => ns0 end in
          foldM (fun par f =>
                   fv <- getattr (snd p) (f_name f) ;;
                   render_field O E (render_obj n' O E) f par fv ns1 efd)
                parent (cd_fields di)
      end
  end.

(** ComplexType.xml, 1009-1016 (without schema, before serialisation). *)
Definition xml_of (n : nat) (O : oracle) (E : env) (v : pyval) (tagname : string)
    (ns efd : option string) : res node :=
  let tag := match ns with
             | Some m => if String.eqb m "" then tagname else clark m tagname
             | None => tagname
             end in
  x <- mk_element tag ;;
  p <- obj_parts v ;;
  render_obj n O E (fst p) x v ns efd.

(** ** Parsing *)

(** gettagns, 946-948: the local part of a tag. *)
Definition local_name (tag : string) : string :=
  match tag with
  | String "{" rest => match str_partition "}" rest with
                       | (_, Some l) => l
                       | (l, None) => l
                       end
  | _ => tag
  end.

(** ComplexType._is_matching_element, 944-952.  A processing instruction is not
    an [etree._Comment], and its [.tag] is a function: subscripting it is a
    TypeError. *)
Definition matches (f : field) (x : node) : res bool :=
  match x with
  | Elem tag _ _ =>
      let l := local_name tag in
      Ok (String.eqb l (f_name f)
          || match f_tag f with Some t => String.eqb l t | None => false end)
  | Comment _ => Ok false
  | PI _ => Err TypeError
  | Text _ => Ok false
  end.

(** ComplexType._find_subelement, 954-956. *)
Fixpoint find_sub (f : field) (kids : list node) : res (list node) :=
  match kids with
  | [] => Ok []
  | x :: t => b <- matches f x ;; r <- find_sub f t ;; Ok (if b then x :: r else r)
  end.

Definition parser : Type := string -> node -> res pyval.

(** [self._type.parse_xmlelement(x)] *)
Definition parse_type (O : oracle) (rec : parser) (t : ftype) (x : node) : res pyval :=
  match t with
  | TSimple s => st_pythonvalue O s (match el_text x with Some s => VStr s | None => VNone end)
  | TComplex c => rec c x
  end.

(** Element.parse (621-624), ListElement.parse (818-822), Attribute.parse
    (686-692): update the attribute dictionary [fs] of the instance being
    built. *)
Definition parse_field (O : oracle) (E : env) (rec : parser) (fields : list field) (f : field)
    (fs : list (string * pyval)) (x : node) : res (list (string * pyval)) :=
  match f_kind f with
  | KAttribute =>
      let raw := match el_get x (f_name f) with Some s => VStr s | None => f_default f end in
      v <- (match f_type f with
            | TSimple s => st_pythonvalue O s raw
            | TComplex _ => Err AttributeError
            end) ;;
      setattr O E fields fs (f_name f) v
  | KList =>
      v <- (if truthy_str (el_get x xsi_nil) then Ok VNil else parse_type O rec (f_type f) x) ;;
      cur <- getattr fs (f_name f) ;;
      match cur with
      | VList _ l => l' <- tl_append O E f l v ;; Ok (assoc_set (f_name f) (VList true l') fs)
      | _ => Err AttributeError
      end
  | _ =>
      v <- (if match el_get x xsi_nil with Some s => String.eqb s "true" | None => false end
            then Ok VNil else parse_type O rec (f_type f) x) ;;
      setattr O E fields fs (f_name f) v
  end.

(** The loop over [_meta.fields] for a Choice class, 966-976: each field is
    matched against the element itself; the loop stops at the first match. *)
Fixpoint parse_choice (O : oracle) (E : env) (rec : parser) (fields : list field)
    (todo : list field) (fs : list (string * pyval)) (x : node)
    : res (list (string * pyval)) :=
  match todo with
  | [] => Ok fs
  | f :: t =>
      b <- matches f x ;;
      if b then parse_field O E rec fields f fs x
      else parse_choice O E rec fields t fs x
  end.

(** ComplexType.parse_xmlelement, 958-981. *)
Fixpoint parse_obj (n : nat) (O : oracle) (E : env) (c : string) (x : node) : res pyval :=
  match n with
  | O => Err OutOfFuel
  | S n' =>
      let rec := parse_obj n' O E in
      d <- get_class E c ;;
      let F := cd_fields d in
      fs0 <- new_instance O E c ;;
      fs1 <- foldM (fun fs f => parse_field O E rec F f fs x) fs0 (filter is_attr F) ;;
      fs2 <- (match cd_ind d with
              | IChoice => parse_choice O E rec F (filter is_plain F) fs1 x
              | _ =>
                  foldM (fun fs f =>
                           subs <- find_sub f (el_children x) ;;
                           foldM (fun fs s => parse_field O E rec F f fs s) fs subs)
                        fs1 (filter is_plain F)
              end) ;;
      fs3 <- foldM (fun fs f => parse_field O E rec F f fs x) fs2 (filter is_group F) ;;
      Ok (VObj c (Some x) fs3)
  end.
