(** Generating Python classes from XSD: the templates
    (/repo/soapfish/templates/lib.jinja2:12-179, /repo/soapfish/templates/xsd.jinja2:22-48)
    with the filters of /repo/soapfish/utils.py:83-180, as applied by
    xsd2py.schema_to_py (/repo/soapfish/xsd2py.py:121-155).

    The templates read an xsdspec.Schema object and print Python text.  The
    model returns the statements that are printed: class statements and the
    assignment of the Schema.  What Python makes of them is in PyLoad.v.

    Simplifications:
    - layout, comments, the preamble and the parameter [location] of a schema
      are left out; so are imported documents, for which see GenImports.v;
    - jinja's Undefined is None; the places where they differ are noted;
    - an XSD without a target namespace keeps None (for a document that is
      imported by another the code passes its namespace on);
    - text copied from an attribute that is None is printed as 'None' by jinja;
      names are never None in the model's statements except where it says so. *)
From Coq Require Import String Ascii List ZArith NArith Bool.
From Verif Require Import PyBase PyVal XsdSimple XsdComplex LibClasses Py2Xsd GenNames GenOrder.
Import ListNotations.
Open Scope string_scope.
Open Scope list_scope.

(** ** Statements *)

(** The right-hand side of an argument. *)
Inductive pyx :=
| XCode (text : string)          (* text *)
| XStr (text : string)           (* 'text' *)
| XRaw (text : string)           (* r'text' *)
| XList (texts : list string).   (* ['text', ...] *)

(** [attr = xsd.cls(type, kw...)] or, with [gf_call], [attr = xsd.cls(type(call...), kw...)] *)
Record gfield := mkGf {
  gf_attr : string;
  gf_cls : string;
  gf_type : string;
  gf_call : option (list (string * pyx));
  gf_kw : list (string * pyx) }.

(** A class statement: its name, its base, the assignments of simple values in
    its body, those of fields, and the parameters of the method [create]. *)
Record gclass := mkGc {
  gc_name : string;
  gc_base : string;
  gc_consts : list (string * pyx);
  gc_fields : list gfield;
  gc_create : option (list string) }.

(** The type of a top-level element: an expression, or [Name()]. *)
Inductive gtop := TopType (expr : string) | TopNew (name : string).
(** [Schema_... = xsd.Schema(...)] *)
Record gschema_st := mkGsch {
  gz_tns : string;
  gz_efd : string;
  gz_simple : list string;
  gz_attrgroups : list string;
  gz_groups : list string;
  gz_complex : list string;
  gz_elements : list (string * (gtop * option string)) }.

(** ** jinja *)

(** [o.name] *)
Definition jget (o : pyval) (name : string) : pyval :=
  match o with
  | VObj _ _ fs => match assoc name fs with Some v => v | None => VNone end
  | _ => VNone
  end.
(** [{% for x in v %}] *)
Definition jlist (v : pyval) : res (list pyval) :=
  match v with VList _ l => Ok l | _ => Err TypeError end.
(** [{{ v }}] for a string *)
Definition jtext (v : pyval) : string := match v with VStr s => s | _ => "None" end.

(** ** Filters *)

(** keyword.kwlist of Python 3.7 to 3.13 *)
Definition py_keywords : list string :=
  ["False"; "None"; "True"; "and"; "as"; "assert"; "async"; "await"; "break"; "class"; "continue"; "def"; "del";
   "elif"; "else"; "except"; "finally"; "for"; "from"; "global"; "if"; "import"; "in"; "is"; "lambda"; "nonlocal";
   "not"; "or"; "pass"; "raise"; "return"; "try"; "while"; "with"; "yield"].
Definition is_keyword (s : string) : bool := str_in s py_keywords.
(** fix_keyword, utils.py:153 *)
Definition fix_keyword (s : string) : string := if is_keyword s then ("_" ++ s)%string else s.
(** capitalize, utils.py:86-87, of an attribute *)
Definition cap (v : pyval) : res string :=
  match v with VStr s => capitalize s | _ => Err TypeError end.
(** use, utils.py:89-97 *)
Definition use_expr (u : string) : res string :=
  if String.eqb u "optional" then Ok "xsd.Use.OPTIONAL"
  else if String.eqb u "required" then Ok "xsd.Use.REQUIRED"
  else if String.eqb u "prohibited" then Ok "xsd.Use.PROHIBITED"
  else Err ValueError.
(** remove_namespace, utils.py:40-41 *)
Definition local_part (v : pyval) : string :=
  match v with
  | VStr s => match remove_namespace (Some s) with Some n => n | None => "None" end
  | _ => "None"
  end.

(** get_type, utils.py:115-143 *)
Definition type_expr (nss : list (option string)) (known : list string) (o : pyval) : res string :=
  q <- (match o with
        | VObj c _ _ =>
            if String.eqb c (xs "Attribute") || String.eqb c (xs "Element") then
              if py_truthy (jget o "ref") then Ok (jget o "ref")
              else if py_truthy (jget o "type") then Ok (jget o "type")
              else if py_truthy (jget o "simpleType") then Err NotImplemented
              else Ok VNone
            else if String.eqb c (xs "Extension") || String.eqb c (xs "Restriction") then Ok (jget o "base")
            else Ok VNone
        | VStr _ => Ok o
        | _ => Ok VNone
        end) ;;
  match q with
  | VStr s => get_type nss (Some known) s
  | _ => Err ValueError
  end.

(** ** lib.jinja2 *)

(** [attribute.ref|remove_namespace if attribute.ref else attribute.name], lines
    48, 59, 124 *)
Definition item_name (o : pyval) : string :=
  if py_truthy (jget o "ref") then local_part (jget o "ref") else jtext (jget o "name").
(** [{% if name in keywords %}, tagname='name'{% endif %}] *)
Definition keyword_tag (name : string) : list (string * pyx) :=
  if is_keyword name then [("tagname", XStr name)] else [].

(** An attribute, lines 48-49 and 124-125. *)
Definition attribute_field (nss : list (option string)) (known : list string) (a : pyval) : res gfield :=
  let name := item_name a in
  t <- type_expr nss known a ;;
  u <- use_expr (if py_truthy (jget a "use") then jtext (jget a "use") else "optional") ;;
  Ok (mkGf (fix_keyword name) "Attribute" t None (keyword_tag name ++ [("use", XCode u)])).

(** render_xsd_AttributeGroup, lines 45-53 *)
Definition attribute_group (nss : list (option string)) (known : list string) (g : pyval) : res gclass :=
  n <- cap (jget g "name") ;;
  l <- jlist (jget g "attributes") ;;
  fs <- mapM (attribute_field nss known) l ;;
  Ok (mkGc n "xsd.AttributeGroup" [] fs None).

(** render_xsd_Group, lines 55-63.  A group without sequence has no elements. *)
Definition group_field (nss : list (option string)) (known : list string) (e : pyval) : res gfield :=
  let name := item_name e in
  t <- type_expr nss known e ;;
  Ok (mkGf (fix_keyword name) "Element" t None (keyword_tag name)).
Definition group_class (nss : list (option string)) (known : list string) (g : pyval) : res gclass :=
  n <- cap (jget g "name") ;;
  l <- (match jget g "sequence" with VNone => Ok [] | s => jlist (jget s "elements") end) ;;
  fs <- mapM (group_field nss known) l ;;
  Ok (mkGc n "xsd.Group" [] fs None).

(** [{% if o.name %} ... o.name.value ...] *)
Definition facet_text (o : pyval) (name : string) : option string :=
  if py_truthy (jget o name) then Some (jtext (jget (jget o name) "value")) else None.
Definition opt_const (name : string) (mk : string -> pyx) (v : option string) : list (string * pyx) :=
  match v with Some s => [(name, mk s)] | None => [] end.
Definition enum_texts (r : pyval) : res (list string) :=
  l <- jlist (jget r "enumerations") ;; Ok (map (fun e => jtext (jget e "value")) l).

(** render_xsd_Restriction, lines 65-92 *)
Definition restriction_class (nss : list (option string)) (known : list string) (name r : pyval) : res gclass :=
  n <- cap name ;;
  b <- type_expr nss known r ;;
  enums <- enum_texts r ;;
  Ok (mkGc n b
        (match enums with [] => [] | _ => [("enumeration", XList enums)] end ++
         opt_const "pattern" XRaw (facet_text r "pattern") ++
         match facet_text r "minInclusive" with
         | Some v => [("minInclusive", XRaw v)]
         | None => opt_const "minExclusive" XRaw (facet_text r "minExclusive")
         end ++
         match facet_text r "maxInclusive" with
         | Some v => [("maxInclusive", XRaw v)]
         | None => opt_const "maxExclusive" XRaw (facet_text r "maxExclusive")
         end) [] None).
(** render_xsd_List, lines 38-43 *)
Definition list_class (name : pyval) : res gclass :=
  n <- cap name ;; Ok (mkGc n "xsd.List" [] [] None).

(** [element.maxOccurs and element.maxOccurs > 1] *)
Definition is_many (m : pyval) : res bool :=
  if py_truthy m then py_ltb (VInt 1) m else Ok false.
(** max_occurs, utils.py:154 *)
Definition max_code (m : pyval) : string :=
  match m with VInt z => dec_Z z | _ => "xsd.UNBOUNDED" end.

(** The constructor call of an inline simple type, lines 146-161; [sx] is the
    element. *)
Definition inline_call (sx r : pyval) : res (list (string * pyx)) :=
  enums <- enum_texts r ;;
  let name := jtext (jget sx "name") in
  let code f := opt_const f XCode (facet_text r f) in
  Ok (match enums with [] => [] | _ => [("enumeration", XList enums)] end ++
      keyword_tag name ++
      code "minInclusive" ++ code "maxInclusive" ++ code "minExclusive" ++ code "maxExclusive" ++
      code "fractionDigits" ++ code "totalDigits" ++
      opt_const "pattern" XRaw (facet_text r "pattern") ++
      code "length" ++ code "minLength" ++ code "maxLength" ++ code "whiteSpace").

(** render_xsd_element, lines 140-166: none, one or more assignments. *)
Definition element_fields (nss : list (option string)) (known : list string) (e : pyval) : res (list gfield) :=
  many <- is_many (jget e "maxOccurs") ;;
  let name := jtext (jget e "name") in
  typed <- (if py_truthy (jget e "type") then
              t <- type_expr nss known e ;;
              Ok [mkGf (fix_keyword name) (if many then "ListElement" else "Element") t None
                    ((if is_keyword name || many then [("tagname", XStr name)] else []) ++
                     match jget e "minOccurs" with VInt z => [("minOccurs", XCode (dec_Z z))] | _ => [] end ++
                     (if many then [("maxOccurs", XCode (max_code (jget e "maxOccurs")))] else []) ++
                     (if py_truthy (jget e "nillable") then [("nillable", XCode "True")] else []))]
            else Ok []) ;;
  inline <- (let st := jget e "simpleType" in
             if py_truthy st then
               let r := jget st "restriction" in
               t <- type_expr nss known r ;;
               call <- inline_call e r ;;
               Ok [mkGf (fix_keyword name) "Element" t (Some call) []]
             else Ok []) ;;
  ref <- (if py_truthy (jget e "ref") then
            t <- type_expr nss known e ;;
            Ok [mkGf (local_part (jget e "ref")) "Ref" t None []]
          else Ok []) ;;
  Ok (typed ++ inline ++ ref).

(** render_create_method, lines 168-178: the parameters. *)
Definition create_params (elements : list pyval) : list string :=
  flat_map (fun e => match jget e "minOccurs" with
                     | VNone | VInt 1 => [fix_keyword (item_name e)]
                     | _ => []
                     end) elements.

(** The head of render_complexType, lines 95-114: name, base, INHERITANCE, and
    what is used as content.  [class_name] is not used for derived types. *)
Definition class_head (nss : list (option string)) (known : list string) (class_name ct : pyval)
    : res (string * string * list (string * pyx) * pyval) :=
  let cc := jget ct "complexContent" in
  if py_truthy cc then
    let r := jget cc "restriction" in
    n <- cap (jget ct "name") ;;
    if py_truthy r then
      b <- type_expr nss known r ;; Ok (n, b, [("INHERITANCE", XCode "xsd.Inheritance.RESTRICTION")], r)
    else
      let x := jget cc "extension" in
      b <- type_expr nss known x ;; Ok (n, b, [("INHERITANCE", XCode "xsd.Inheritance.EXTENSION")], x)
  else
    n <- cap class_name ;;
    Ok (n, "xsd.ComplexType", if py_truthy (jget ct "sequence") then [("INHERITANCE", XCode "None")] else [], ct).

(** The attribute group references, lines 127-129. *)
Definition attrgroup_field (nss : list (option string)) (known : list string) (g : pyval) : res gfield :=
  t <- type_expr nss known (jget g "ref") ;;
  Ok (mkGf (local_part (jget g "ref")) "Ref" t None []).

(** render_complexType, lines 94-138.  An Extension has neither [all] nor
    [choice]; [elements] is empty when it is not set. *)
Definition class_of_type (nss : list (option string)) (known : list string) (class_name ct : pyval) : res gclass :=
  h <- class_head nss known class_name ct ;;
  let '(name, base, consts, content) := h in
  let s := jget content "sequence" in
  let a := jget content "all" in
  let c := jget content "choice" in
  let p := if py_truthy s then (["xsd.Sequence"], s)
           else if py_truthy a then (["xsd.All"], a)
           else if py_truthy c then (["xsd.Choice"], c)
           else ([], VNone) in
  elements <- (match snd p with VNone => Ok [] | o => jlist (jget o "elements") end) ;;
  attrs <- jlist (jget content "attributes") ;;
  groups <- jlist (jget content "attributeGroups") ;;
  f1 <- mapM (attribute_field nss known) attrs ;;
  f2 <- mapM (attrgroup_field nss known) groups ;;
  f3 <- mapM (element_fields nss known) elements ;;
  Ok (mkGc name base (consts ++ map (fun i => ("INDICATOR", XCode i)) (fst p)) (f1 ++ f2 ++ concat f3)
        (if py_truthy s then Some (create_params elements) else None)).

(** ** xsd.jinja2 *)

(** lines 22-31: a simple type gives no, one or two class statements. *)
Definition simple_classes (nss : list (option string)) (known : list string) (st : pyval) : res (list gclass) :=
  a <- (if py_truthy (jget st "restriction") then
          c <- restriction_class nss known (jget st "name") (jget st "restriction") ;; Ok [c]
        else Ok []) ;;
  b <- (if py_truthy (jget st "list") then c <- list_class (jget st "name") ;; Ok [c] else Ok []) ;;
  Ok (a ++ b).

(** The types in order, each known to those after it. *)
Fixpoint known_loop (emit : list string -> pyval -> res (list gclass)) (known : list string) (l : list pyval)
    : res (list gclass * list string) :=
  match l with
  | [] => Ok ([], known)
  | x :: t =>
      c <- emit known x ;;
      n <- cap (jget x "name") ;;
      r <- known_loop emit (known ++ [n]) t ;;
      Ok (c ++ fst r, snd r)
  end.

(** lines 22-47: the class statements. *)
Definition schema_classes (nss : list (option string)) (known : list string) (x : pyval) : res (list gclass * list string) :=
  sts <- jlist (jget x "simpleTypes") ;;
  ags <- jlist (jget x "attributeGroups") ;;
  gs <- jlist (jget x "groups") ;;
  cts <- jlist (jget x "complexTypes") ;;
  els <- jlist (jget x "elements") ;;
  p1 <- known_loop (simple_classes nss) known sts ;;
  let k1 := snd p1 in
  c2 <- mapM (attribute_group nss k1) ags ;;
  c3 <- mapM (group_class nss k1) gs ;;
  p4 <- known_loop (fun k ct => c <- class_of_type nss k (jget ct "name") ct ;; Ok [c]) k1 cts ;;
  let k2 := snd p4 in
  c5 <- mapM (fun e => class_of_type nss k2 (jget e "name") (jget e "complexType"))
             (filter (fun e => py_truthy (jget e "complexType")) els) ;;
  Ok (fst p1 ++ c2 ++ c3 ++ fst p4 ++ c5, k2).

(** render_Schema, lib.jinja2:14-28 (imports and includes: GenImports.v,
    XsdFiles.v).  The statement assigns to a variable named after the target
    namespace; schema_name (utils.py:48-68) calls encode() on it, which fails
    when there is none. *)
Definition schema_statement (nss : list (option string)) (known : list string) (x : pyval) : res gschema_st :=
  tns <- match jget x "targetNamespace" with VStr t => Ok t | _ => Err AttributeError end ;;
  sts <- jlist (jget x "simpleTypes") ;;
  ags <- jlist (jget x "attributeGroups") ;;
  gs <- jlist (jget x "groups") ;;
  cts <- jlist (jget x "complexTypes") ;;
  els <- jlist (jget x "elements") ;;
  let names := mapM (fun o => cap (jget o "name")) in
  n1 <- names sts ;;
  n2 <- names ags ;;
  n3 <- names gs ;;
  n4 <- names cts ;;
  tops <- mapM (fun e =>
            t <- (if py_truthy (jget e "type") then res_map TopType (type_expr nss known e)
                  else res_map TopNew (cap (jget e "name"))) ;;
            let sg := jget e "substitutionGroup" in
            Ok (jtext (jget e "name"), (t, if py_truthy sg then Some (jtext sg) else None))) els ;;
  Ok (mkGsch tns (jtext (jget x "elementFormDefault")) n1 n2 n3 n4 tops).

(** The document, xsd.jinja2:1-48 without the imported ones. *)
Definition schema_code (nss : list (option string)) (known : list string) (x : pyval) : res (list gclass * gschema_st) :=
  p <- schema_classes nss known x ;;
  s <- schema_statement nss (snd p) x ;;
  Ok (fst p, s).

(** What _reorder_complexTypes reads of a type, xsd2py.py:83-95. *)
Definition base_text (v : pyval) : option string :=
  if py_truthy v then Some (match jget v "base" with VStr s => s | _ => "" end) else None.
Definition type_entry (ct : pyval) : xsd_type :=
  let cc := jget ct "complexContent" in
  mkXT (jtext (jget ct "name"))
       (if py_truthy cc then Some (base_text (jget cc "extension"), base_text (jget cc "restriction")) else None) ct.
(** [schema.complexTypes.sort(...)], xsd2py.py:117: the list of the object is
    sorted in place. *)
Definition with_types (x : pyval) (cts : list pyval) : pyval :=
  match x with
  | VObj c xe fs => VObj c xe (assoc_set "complexTypes" (match assoc "complexTypes" fs with Some (VList b _) => VList b cts | _ => VList true cts end) fs)
  | v => v
  end.
Definition sorted_schema (sort : sorter) (n : nat) (x : pyval) : res pyval :=
  cts <- jlist (jget x "complexTypes") ;;
  l <- reorder_types sort n (map type_entry cts) ;;
  Ok (with_types x (map xt_code l)).
(** schema_to_py, xsd2py.py:120-153; [n] is the recursion limit. *)
Definition schema_to_py (sort : sorter) (n : nat) (nss : list (option string)) (known : list string) (x : pyval) : res (list gclass * gschema_st) :=
  x <- sorted_schema sort n x ;;
  schema_code nss known x.
