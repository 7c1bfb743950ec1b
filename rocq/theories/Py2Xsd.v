(** Generating XSD from Python classes (/repo/soapfish/py2xsd.py).

    The generator builds objects of the xsdspec classes (LibClasses.v) and
    renders them like any other object.  The user's classes are those of [E];
    what py2xsd reads of a declaration beyond XsdComplex.v is in [decls].

    Simplifications:
    - field types have been evaluated (Schema.__init__ does it, xsd.py:1136-1141),
      so a type given by name counts as passed as a class;
    - an object that is modified after it has been assigned to an attribute is
      assigned when it is complete;
    - [INDICATOR = None] is not modelled;
    - a class is known by the name it has in [E], which is [__name__];
    - of simple types: user-defined subclasses of String and Decimal are covered
      (a class name other than the library's), those of the other types are not. *)
From Coq Require Import String Ascii List ZArith NArith Bool QArith.
From Verif Require Import PyBase PyRe Xml PyVal XsdSimple XsdComplex PyHttp Soap Client LibClasses.
Import ListNotations.
Open Scope string_scope.
Open Scope list_scope.

Record decls := {
  dc_class : string -> field -> bool; (* in class c, was the type of f passed as a class? *)
  dc_use : string -> field -> string; (* Attribute.use *)
  dc_re : re -> string }.             (* the text a pattern was given as *)

(** ** Helpers *)

(** [bool(v)] *)
Definition py_truthy (v : pyval) : bool :=
  match v with
  | VNone => false
  | VStr s => negb (String.eqb s "")
  | VList _ l => match l with [] => false | _ => true end
  | _ => match num_of v with
         | Some n => negb (num_eqb n (NFin 0%Q))
         | None => true
         end
  end.

(** [getattr(obj, name).append(v)] *)
Definition py_append (O : oracle) (L : env) (obj : pyval) (name : string) (v : pyval) : res pyval :=
  match obj with
  | VObj c xe fs =>
      d <- get_class L c ;;
      f <- find_field (cd_fields d) name ;;
      cur <- getattr fs name ;;
      match cur with
      | VList t l => l' <- tl_append O L f l v ;; Ok (VObj c xe (assoc_set name (VList t l') fs))
      | _ => Err AttributeError
      end
  | _ => Err AttributeError
  end.

(** The class of a simple type instance. *)
Definition int_class (c : intcls) : string :=
  match c with
  | CInteger => "Integer" | CNonNegativeInteger => "NonNegativeInteger" | CNonPositiveInteger => "NonPositiveInteger"
  | CNegativeInteger => "NegativeInteger" | CPositiveInteger => "PositiveInteger" | CLong => "Long" | CInt => "Int"
  | CShort => "Short" | CByte => "Byte" | CUnsignedLong => "UnsignedLong" | CUnsignedInt => "UnsignedInt"
  | CUnsignedShort => "UnsignedShort" | CUnsignedByte => "UnsignedByte"
  end.
Definition st_class (t : stype) : string :=
  match t with
  | SString c _ => c
  | SLang _ => "LanguageString"
  | SBoolean => "Boolean"
  | SDate => "Date" | SDateTime => "DateTime" | STime => "Time"
  | SDecimal c _ => c
  | SInteger c _ => int_class c
  | SMaxOccurs => "MaxOccurs"
  | SAbstract => "SimpleType"
  end.

(** [_type.__class__.__bases__[0] == xsd.SimpleType], from the class statements
    of xsd.py. *)
Definition st_direct (t : stype) : bool :=
  match t with
  | SString c _ => String.eqb c "String"
  | SDecimal c _ => String.eqb c "Decimal"
  | SBoolean | SDate | SDateTime | STime | SMaxOccurs => true
  | SLang _ | SInteger _ _ | SAbstract => false
  end.

(** NUMERIC_TYPES, STRING_TYPES, ALL_TYPES: py2xsd.py:14-21 *)
Definition numeric_types : list string :=
  ["Decimal"; "Integer"; "Int"; "Long"; "Short"; "UnsignedByte"; "UnsignedInt"; "UnsignedLong"; "UnsignedShort";
   "Double"; "Float"; "Byte"].
Definition string_types : list string := ["QName"; "AnyURI"; "Base64Binary"; "QName"; "AnyType"; "Duration"].
(** The library's own String and Decimal classes that are not written in
    SimpleType's class statements (xsd.py:422-437, 1064-1090). *)
Definition lib_strings : list string := ["AnyURI"; "QName"; "NMTOKEN"; "NMTOKENS"; "Base64Binary"; "Duration"].
Definition lib_decimals : list string := ["Decimal"; "Double"; "Float"].
(** [_type.__class__ in ALL_TYPES] *)
Definition st_listed (t : stype) : bool :=
  match t with
  | SString c _ => str_in c lib_strings && str_in c string_types
  | SDecimal c _ => str_in c lib_decimals && str_in c numeric_types
  | SInteger c _ => str_in (int_class c) numeric_types
  | _ => false
  end.

(** get_xsd_type, 28-34.  No ComplexType is a basic type. *)
Definition get_xsd_type (t : ftype) : res string :=
  match t with
  | TSimple s =>
      n <- uncapitalize (st_class s) ;;
      Ok (if st_direct s || st_listed s then "xsd:" ++ n else "sns:" ++ n)%string
  | TComplex c => n <- uncapitalize c ;; Ok ("sns:" ++ n)%string
  end.

(** ** The facets of an instance, as [hasattr] and attribute access see them *)
Definition tf_enum (t : ftype) : list pyval :=
  match t with
  | TSimple (SString _ f) | TSimple (SLang f) => match sf_enum f with Some l => map VStr l | None => [] end
  | TSimple (SDecimal _ f) => match df_enum f with Some l => l | None => [] end
  | TSimple (SInteger c u) => match df_enum (mk_integer c u) with Some l => l | None => [] end
  | _ => []
  end.
Definition tf_pattern (t : ftype) : option re :=
  match t with
  | TSimple (SString _ f) | TSimple (SLang f) => sf_pattern f
  | TSimple (SDecimal _ f) => df_pattern f
  | TSimple (SInteger c u) => df_pattern (mk_integer c u)
  | _ => None
  end.
Definition tf_decimal (t : ftype) : dfacets :=
  match t with
  | TSimple (SDecimal _ f) => f
  | TSimple (SInteger c u) => mk_integer c u
  | _ => no_dfacets
  end.
Definition tf_value (f : option pyval) : pyval := match f with Some v => v | None => VNone end.
Definition tf_int (f : option Z) : pyval := match f with Some z => VInt z | None => VNone end.
Definition st_is_direct (t : ftype) : bool := match t with TSimple s => st_direct s | TComplex _ => false end.

(** Enumeration.create, xsdspec.py:9-13, appended to [restriction.enumerations]. *)
Definition add_enumeration (O : oracle) (L : env) (restriction v : pyval) : res pyval :=
  e <- construct O L (xs "Enumeration") [] ;;
  e <- py_set O L e "value" v ;;
  py_append O L restriction "enumerations" e.

(** [if ...: restriction.name = cls(value=v)] *)
Definition add_facet (O : oracle) (L : env) (cls name : string) (present : bool) (v : pyval) (restriction : pyval) : res pyval :=
  if present then
    x <- construct O L (xs cls) [("value", v)] ;;
    py_set O L restriction name x
  else Ok restriction.
(** [if hasattr(t, name) and t.name: restriction.name = RestrictionValue(value=str(t.name))] *)
Definition add_value (O : oracle) (L : env) (name : string) (v restriction : pyval) : res pyval :=
  add_facet O L "RestrictionValue" name (py_truthy v) (VStr (py_str O v)) restriction.

(** The restriction of create_xsd_element, 59-85. *)
Definition element_restriction (O : oracle) (L : env) (G : decls) (t : ftype) : res pyval :=
  r <- construct O L (xs "Restriction") [] ;;
  base <- get_xsd_type t ;;
  r <- py_set O L r "base" (VStr base) ;;
  r <- (if st_is_direct t then foldM (fun r v => add_enumeration O L r v) r (tf_enum t) else Ok r) ;;
  let d := tf_decimal t in
  r <- add_value O L "fractionDigits" (tf_int (df_fraction d)) r ;;
  r <- (match tf_pattern t with
        | Some p => add_facet O L "Pattern" "pattern" (negb (String.eqb (dc_re G p) "")) (VStr (dc_re G p)) r
        | None => Ok r
        end) ;;
  r <- add_value O L "minInclusive" (tf_value (df_minIn d)) r ;;
  r <- add_value O L "minExclusive" (tf_value (df_minEx d)) r ;;
  r <- add_value O L "maxExclusive" (tf_value (df_maxEx d)) r ;;
  r <- add_value O L "maxInclusive" (tf_value (df_maxIn d)) r ;;
  add_value O L "totalDigits" (tf_int (df_total d)) r.

(** [element._maxOccurs] *)
Definition occurs_val (m : occurs) : pyval :=
  match m with ONone => VNone | OInt z => VInt z | OUnbounded => UNBOUNDED end.

(** create_xsd_element, 45-89. *)
Definition create_xsd_element (O : oracle) (L : env) (G : decls) (c : string) (f : field) : res pyval :=
  e <- construct O L (xs "Element") [] ;;
  e <- py_set O L e "name" (VStr (tag_or_name f)) ;;
  e <- py_set O L e "nillable" (VBool (f_nillable f)) ;;
  e <- py_set O L e "minOccurs" (tf_int (f_min f)) ;;
  e <- (match f_kind f with KList => py_set O L e "maxOccurs" (occurs_val (f_max f)) | _ => Ok e end) ;;
  if dc_class G c f then
    t <- get_xsd_type (f_type f) ;;
    py_set O L e "type" (VStr t)
  else
    r <- element_restriction O L G (f_type f) ;;
    st <- construct O L (xs "SimpleType") [] ;;
    st <- py_set O L st "restriction" r ;;
    py_set O L e "simpleType" st.

(** xsd_attribute, 37-42. *)
Definition xsd_attribute (O : oracle) (L : env) (G : decls) (c : string) (f : field) : res pyval :=
  a <- construct O L (xs "Attribute") [] ;;
  a <- py_set O L a "name" (VStr (f_name f)) ;;
  a <- py_set O L a "use" (VStr (dc_use G c f)) ;;
  t <- get_xsd_type (f_type f) ;;
  py_set O L a "type" (VStr t).

(** [complexType.INDICATOR.__name__.lower()] *)
Definition ind_name (i : indicator) : string :=
  match i with ISequence => "sequence" | IChoice => "choice" | IAll => "all" end.

(** xsd_complexType, 92-122. *)
Definition xsd_complexType (O : oracle) (L E : env) (G : decls) (c : string) (named : bool) : res pyval :=
  d <- get_class E c ;;
  ct <- construct O L (xs "XSDComplexType") [] ;;
  ct <- (if named then n <- uncapitalize c ;; py_set O L ct "name" (VStr n) else Ok ct) ;;
  ct <- foldM (fun ct f => a <- xsd_attribute O L G c f ;; py_append O L ct "attributes" a) ct
              (filter is_attr (cd_fields d)) ;;
  s <- construct O L (xs "Sequence") [] ;;
  s <- foldM (fun s f => e <- create_xsd_element O L G c f ;; py_append O L s "elements" e) s
             (filter is_plain (cd_fields d)) ;;
  py_set O L ct (ind_name (cd_ind d)) s.

(** ** Simple type classes *)

(** A subclass of SimpleType: its name, an instance of its first base, and the
    class attributes xsd_simpleType looks at (None when missing). *)
Record stclass := mkSt {
  sc_name : string;
  sc_base : stype;
  sc_enum : list pyval;
  sc_fraction : pyval;
  sc_pattern : pyval }.

(** xsd_simpleType, 125-139. *)
Definition xsd_simpleType (O : oracle) (L : env) (st : stclass) : res pyval :=
  x <- construct O L (xs "SimpleType") [] ;;
  n <- uncapitalize (sc_name st) ;;
  x <- py_set O L x "name" (VStr n) ;;
  r <- construct O L (xs "Restriction") [] ;;
  base <- get_xsd_type (TSimple (sc_base st)) ;;
  r <- py_set O L r "base" (VStr base) ;;
  r <- foldM (fun r v => add_enumeration O L r v) r (sc_enum st) ;;
  r <- (if py_truthy (sc_fraction st) then add_facet O L "RestrictionValue" "fractionDigits" true (sc_fraction st) r
        else add_facet O L "Pattern" "pattern" (py_truthy (sc_pattern st)) (sc_pattern st) r) ;;
  py_set O L x "restriction" r.

(** ** Schemas *)

(** A top-level element; [ge_class]: was its type passed as a class (or by
    name)? *)
Record gelement := mkGel {
  ge_type : ftype;
  ge_class : bool;
  ge_subst : option string }.

(** What the generator reads of an xsd.Schema; of an imported or included schema
    only targetNamespace and location. *)
Record gschema := mkGs {
  gs_tns : string;
  gs_efd : string;
  gs_imports : list (string * option string);
  gs_includes : list (option string);
  gs_simple : list stclass;
  gs_complex : list string;
  gs_elements : list (string * gelement) }.

(** [if location: obj.schemaLocation = location] *)
Definition set_location (O : oracle) (L : env) (obj : pyval) (location : option string) : res pyval :=
  match location with
  | None | Some "" => Ok obj
  | Some l => py_set O L obj "schemaLocation" (VStr l)
  end.
(** build_imports, 142-150. *)
Definition build_imports (O : oracle) (L : env) (x : pyval) (imports : list (string * option string)) : res pyval :=
  foldM (fun x i =>
           o <- construct O L (xs "Import") [] ;;
           o <- py_set O L o "namespace" (VStr (fst i)) ;;
           o <- set_location O L o (snd i) ;;
           py_append O L x "imports" o) x imports.
(** build_includes, 153-158. *)
Definition build_includes (O : oracle) (L : env) (x : pyval) (includes : list (option string)) : res pyval :=
  foldM (fun x i =>
           o <- construct O L (xs "Include") [] ;;
           o <- set_location O L o i ;;
           py_append O L x "includes" o) x includes.

(** generate_elements, 179-195.  The class of a simple type has no [_meta]. *)
Definition generate_element (O : oracle) (L E : env) (G : decls) (name : string) (el : gelement) : res pyval :=
  e <- construct O L (xs "Element") [] ;;
  e <- py_set O L e "name" (VStr name) ;;
  e <- (match ge_subst el with
        | None => Ok e
        | Some v => py_set O L e "substitutionGroup"
                      (VStr (if String.prefix "sns:" v then v else "sns:" ++ v)%string)
        end) ;;
  if ge_class el then
    t <- get_xsd_type (ge_type el) ;;
    py_set O L e "type" (VStr t)
  else
    match ge_type el with
    | TComplex c => ct <- xsd_complexType O L E G c false ;; py_set O L e "complexType" ct
    | TSimple _ => Err AttributeError
    end.

(** generate_xsdspec, 161-176. *)
Definition generate_xsdspec (O : oracle) (L E : env) (G : decls) (s : gschema) : res pyval :=
  x <- construct O L (xs "Schema") [] ;;
  x <- py_set O L x "targetNamespace" (VStr (gs_tns s)) ;;
  x <- py_set O L x "elementFormDefault" (VStr (gs_efd s)) ;;
  x <- build_imports O L x (gs_imports s) ;;
  x <- build_includes O L x (gs_includes s) ;;
  x <- foldM (fun x st => o <- xsd_simpleType O L st ;; py_append O L x "simpleTypes" o) x (gs_simple s) ;;
  x <- foldM (fun x c => o <- xsd_complexType O L E G c true ;; py_append O L x "complexTypes" o) x (gs_complex s) ;;
  foldM (fun x p => o <- generate_element O L E G (fst p) (snd p) ;; py_append O L x "elements" o) x (gs_elements s).

(** An XSD document: the prefixes declared on its root, and the root. *)
Record xdocument := mkDoc { xd_prefixes : list (string * string); xd_root : node }.

(** generate_xsd, 198-213. *)
Definition generate_xsd (n : nat) (O : oracle) (L E : env) (G : decls) (s : gschema) : res xdocument :=
  x <- generate_xsdspec O L E G s ;;
  root <- mk_element (clark ns_xsd "schema") ;;
  p <- obj_parts x ;;
  root <- render_obj n O L (fst p) root x (Some ns_xsd) (Some qualified) ;;
  Ok (mkDoc [("sns", gs_tns s); ("xsd", ns_xsd)] root).
