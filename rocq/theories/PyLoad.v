(** What Python makes of the generated statements (Xsd2Py.v): the classes that
    exist when the module has been imported.

    Class statements are executed by the metaclass (XsdMeta.v); field
    constructors are Element.__init__ (/repo/soapfish/xsd.py:548-570),
    Attribute.__init__ (662-668), ListElement.__init__ (784-787); simple types
    are called with the constructors of 129-143, 345-355, 423-437, 443-448; the
    Schema statement is Schema.__init__ (1101-1148).

    Simplifications:
    - a class is referred to by its name, so a module that defines a name twice
      is outside the model ([Rebound]);
    - of the library's classes those are there that an XSD type can be mapped
      to; AnyType, List and SimpleType are alike ([SAbstract]);
    - a user-defined subclass of one of the Integer classes, of Boolean or of
      the date types is its base class: it inherits everything that matters here;
    - constants in the body of a complex class other than INDICATOR have no
      effect, nor have [create] and the methods of ComplexType, except that they
      are attributes, too. *)
From Coq Require Import String Ascii List ZArith NArith Bool.
From Verif Require Import PyBase PyRe PyVal XsdSimple XsdComplex XsdMeta Xsd2Py.
Import ListNotations.
Open Scope nat_scope.
Open Scope string_scope.
Open Scope list_scope.

(** What is taken from the interpreter: compiling regular expressions, the
    value of literals with a quote, backslash or line break in them, and the
    value of expressions that are not covered below. *)
Record runtime := mkRt {
  rt_re : string -> re;
  rt_literal : bool -> string -> res string;
  rt_quoted : string -> res string;
  rt_eval : string -> res pyval }.

Definition SyntaxError := Exn (EOther "SyntaxError") "".
Definition Rebound := Exn (EOther "defined twice: not modelled") "".

(** ** Names and literals *)

(** Letters, digits and underscores; bytes of UTF-8 count as letters. *)
Definition id_start (c : ascii) : bool :=
  let n := nat_of_ascii c in
  (Nat.leb 65 n && Nat.leb n 90) || (Nat.leb 97 n && Nat.leb n 122) || Nat.eqb n 95 || Nat.leb 128 n.
Definition id_char (c : ascii) : bool :=
  let n := nat_of_ascii c in id_start c || (Nat.leb 48 n && Nat.leb n 57).
Definition identifier (s : string) : bool :=
  match to_l s with
  | [] => false
  | c :: t => id_start c && forallb id_char t && negb (is_keyword s)
  end.

Definition quote : ascii := "'"%char.
Definition backslash : ascii := "\"%char.
Definition double_quote : ascii := ascii_of_nat 34.
Definition newline : ascii := ascii_of_nat 10.
Definition carriage_return : ascii := ascii_of_nat 13.
Definition breaks (text : string) : bool := char_in newline text || char_in carriage_return text.
(** The string a literal in single quotes denotes. *)
Definition literal (rt : runtime) (raw : bool) (text : string) : res string :=
  if char_in quote text || breaks text || (char_in backslash text && negb (raw && negb (Ascii.eqb (last (to_l text) "x"%char) backslash)))
  then rt_literal rt raw text
  else Ok text.
(** The same for a literal in double quotes; only substitution groups are written
    so, lib.jinja2:26. *)
Definition quoted (rt : runtime) (text : string) : res string :=
  if char_in double_quote text || breaks text || char_in backslash text then rt_quoted rt text else Ok text.
Definition group_value (rt : runtime) (sg : option string) : res (option string) :=
  match sg with None => Ok None | Some text => res_map Some (quoted rt text) end.

(** The value of an expression. *)
Definition eval_code (rt : runtime) (text : string) : res pyval :=
  if String.eqb text "True" then Ok (VBool true)
  else if String.eqb text "xsd.UNBOUNDED" then Ok UNBOUNDED
  else if String.eqb text "xsd.Use.OPTIONAL" then Ok (VStr "optional")
  else if String.eqb text "xsd.Use.REQUIRED" then Ok (VStr "required")
  else if String.eqb text "xsd.Use.PROHIBITED" then Ok (VStr "prohibited")
  else match int_of_str text with
       | Ok z => if String.eqb (dec_Z z) text then Ok (VInt z) else rt_eval rt text
       | Err _ => rt_eval rt text
       end.
Definition eval_pyx (rt : runtime) (x : pyx) : res pyval :=
  match x with
  | XCode t => eval_code rt t
  | XStr t => res_map VStr (literal rt false t)
  | XRaw t => res_map VStr (literal rt true t)
  | XList l => res_map (fun l => VList false (map VStr l)) (mapM (literal rt false) l)
  end.
Definition eval_kw (rt : runtime) (kw : list (string * pyx)) : res (list (string * pyval)) :=
  mapM (fun p => v <- eval_pyx rt (snd p) ;; Ok (fst p, v)) kw.

(** ** The module *)

(** What a name is bound to: class number [c] of the world, or a class of
    simple types, of which [t] is the instance made without arguments. *)
Inductive mval := MComplex (c : nat) | MSimple (t : stype).

Record mstate := mkMs {
  ms_world : world;
  ms_names : list (string * mval);        (* the classes of the module *)
  ms_class : list (string * indicator);   (* name and INDICATOR of every class of the world *)
  ms_schema : list (nat * sinfo) }.       (* SCHEMA, where it has been set *)

(** ComplexType, Group and AttributeGroup: xsd.py:860-1034. *)
Definition start_world : world :=
  let m := mkMeta [] [] [] [] [] in
  mkWorld [] [mkK [] [0] m; mkK [] [1; 0] m; mkK [] [2; 1; 0] m].
Definition start : mstate :=
  mkMs start_world [] [("xsd.ComplexType", ISequence); ("xsd.Group", ISequence); ("xsd.AttributeGroup", ISequence)] [].

(** The attributes of the module soapfish.xsd: xsd.py:107-533, 860-1090. *)
Definition lib_class (name : string) : option mval :=
  assoc name
    ([("ComplexType", MComplex 0); ("Group", MComplex 1); ("AttributeGroup", MComplex 2);
      ("Boolean", MSimple SBoolean); ("Date", MSimple SDate); ("DateTime", MSimple SDateTime); ("Time", MSimple STime);
      ("MaxOccurs", MSimple SMaxOccurs); ("SimpleType", MSimple SAbstract); ("List", MSimple SAbstract);
      ("AnyType", MSimple SAbstract)] ++
     map (fun n => (n, MSimple (SString n no_sfacets)))
       ["String"; "AnyURI"; "QName"; "NMTOKEN"; "NMTOKENS"; "Base64Binary"; "Duration"] ++
     map (fun n => (n, MSimple (SDecimal n no_dfacets))) ["Decimal"; "Double"; "Float"] ++
     map (fun p => (fst p, MSimple (SInteger (snd p) no_dfacets)))
       [("Integer", CInteger); ("NonNegativeInteger", CNonNegativeInteger); ("NonPositiveInteger", CNonPositiveInteger);
        ("NegativeInteger", CNegativeInteger); ("PositiveInteger", CPositiveInteger); ("Long", CLong); ("Int", CInt);
        ("Short", CShort); ("Byte", CByte); ("UnsignedLong", CUnsignedLong); ("UnsignedInt", CUnsignedInt);
        ("UnsignedShort", CUnsignedShort); ("UnsignedByte", CUnsignedByte)]).

(** The value of a type expression: a class, or the text [__name__ + '.Name']. *)
Inductive tval := TvClass (m : mval) | TvText (name : string).
Definition lazy_prefix : string := "__name__ + '.".
Definition strip_last (s : string) : string := of_l (removelast (to_l s)).
Definition eval_type (ms : mstate) (expr : string) : res tval :=
  if String.prefix "xsd." expr then
    match lib_class (substring 4 (String.length expr - 4) expr) with
    | Some m => Ok (TvClass m)
    | None => Err AttributeError
    end
  else if String.prefix lazy_prefix expr then
    Ok (TvText (strip_last (substring 13 (String.length expr - 13) expr)))
  else if identifier expr then
    match assoc expr (ms_names ms) with Some m => Ok (TvClass m) | None => Err NameError end
  else Err SyntaxError.

Definition class_name (ms : mstate) (c : nat) : string := fst (nth c (ms_class ms) ("", ISequence)).

(** ** Calling a class of simple types *)
Definition str_arg (v : pyval) : res string := match v with VStr s => Ok s | _ => Err TypeError end.
Definition int_arg (v : pyval) : res Z := match v with VInt z => Ok z | _ => Err TypeError end.
Definition str_list (v : pyval) : res (list string) :=
  match v with VList _ l => mapM str_arg l | _ => Err TypeError end.
Definition pattern_of (rt : runtime) (s : string) : option re := if String.eqb s "" then None else Some (rt_re rt s).

(** One keyword argument of String.__init__; a class attribute has the same
    effect as an argument.  Numbers given as text are errors when a value is
    checked; here they are at once. *)
Definition string_arg (rt : runtime) (f : sfacets) (p : string * pyval) : res sfacets :=
  let (k, v) := p in
  if String.eqb k "enumeration" then
    l <- str_list v ;;
    Ok {| sf_enum := Some l; sf_pattern := sf_pattern f; sf_length := sf_length f; sf_minLength := sf_minLength f;
          sf_maxLength := sf_maxLength f; sf_ws := sf_ws f |}
  else if String.eqb k "pattern" then
    s <- str_arg v ;;
    Ok {| sf_enum := sf_enum f; sf_pattern := pattern_of rt s; sf_length := sf_length f; sf_minLength := sf_minLength f;
          sf_maxLength := sf_maxLength f; sf_ws := sf_ws f |}
  else if String.eqb k "length" then
    z <- int_arg v ;;
    Ok {| sf_enum := sf_enum f; sf_pattern := sf_pattern f; sf_length := Some z; sf_minLength := sf_minLength f;
          sf_maxLength := sf_maxLength f; sf_ws := sf_ws f |}
  else if String.eqb k "minLength" then
    z <- int_arg v ;;
    Ok {| sf_enum := sf_enum f; sf_pattern := sf_pattern f; sf_length := sf_length f; sf_minLength := Some z;
          sf_maxLength := sf_maxLength f; sf_ws := sf_ws f |}
  else if String.eqb k "maxLength" then
    z <- int_arg v ;;
    Ok {| sf_enum := sf_enum f; sf_pattern := sf_pattern f; sf_length := sf_length f; sf_minLength := sf_minLength f;
          sf_maxLength := Some z; sf_ws := sf_ws f |}
  else if String.eqb k "whiteSpace" then
    s <- str_arg v ;;
    Ok {| sf_enum := sf_enum f; sf_pattern := sf_pattern f; sf_length := sf_length f; sf_minLength := sf_minLength f;
          sf_maxLength := sf_maxLength f; sf_ws := Some s |}
  else Err TypeError.

(** One keyword argument of Decimal.__init__ or Integer.__init__. *)
Definition decimal_arg (rt : runtime) (f : dfacets) (p : string * pyval) : res dfacets :=
  let (k, v) := p in
  let mk e fr mxe mxi mne mni pt tt :=
    {| df_enum := e; df_fraction := fr; df_maxEx := mxe; df_maxIn := mxi; df_minEx := mne; df_minIn := mni; df_pattern := pt;
       df_total := tt |} in
  let e := df_enum f in let fr := df_fraction f in let mxe := df_maxEx f in let mxi := df_maxIn f in
  let mne := df_minEx f in let mni := df_minIn f in let pt := df_pattern f in let tt := df_total f in
  if String.eqb k "enumeration" then
    match v with VList _ l => Ok (mk (Some l) fr mxe mxi mne mni pt tt) | _ => Err TypeError end
  else if String.eqb k "fractionDigits" then z <- int_arg v ;; Ok (mk e (Some z) mxe mxi mne mni pt tt)
  else if String.eqb k "maxExclusive" then Ok (mk e fr (Some v) mxi mne mni pt tt)
  else if String.eqb k "maxInclusive" then Ok (mk e fr mxe (Some v) mne mni pt tt)
  else if String.eqb k "minExclusive" then Ok (mk e fr mxe mxi (Some v) mni pt tt)
  else if String.eqb k "minInclusive" then Ok (mk e fr mxe mxi mne (Some v) pt tt)
  else if String.eqb k "pattern" then s <- str_arg v ;; Ok (mk e fr mxe mxi mne mni (Some (rt_re rt s)) tt)
  else if String.eqb k "totalDigits" then z <- int_arg v ;; Ok (mk e fr mxe mxi mne mni pt (Some z))
  else Err TypeError.

(** [T(kw...)]; Double and Float take no digits (xsd.py:422-437), the other types
    take no arguments at all. *)
Definition call_simple (rt : runtime) (t : stype) (kw : list (string * pyval)) : res stype :=
  match t with
  | SString c f => f' <- foldM (string_arg rt) f kw ;; Ok (SString c f')
  | SLang f => f' <- foldM (string_arg rt) f kw ;; Ok (SLang f')
  | SDecimal c f =>
      if (String.eqb c "Double" || String.eqb c "Float") && existsb (fun p => str_in (fst p) ["fractionDigits"; "totalDigits"]) kw
      then Err TypeError
      else f' <- foldM (decimal_arg rt) f kw ;; Ok (SDecimal c f')
  | SInteger c f => f' <- foldM (decimal_arg rt) f kw ;; Ok (SInteger c f')
  | _ => match kw with [] => Ok t | _ => Err TypeError end
  end.

(** [class Name(T): constants]: the class attributes of a String count, those of
    a Decimal are hidden by what Decimal.__init__ sets on every instance. *)
Definition simple_subclass (rt : runtime) (name : string) (t : stype) (consts : list (string * pyval)) : res stype :=
  match t with
  | SString _ f =>
      f' <- foldM (fun f p => if str_in (fst p) ["enumeration"; "pattern"] then string_arg rt f p else Ok f) f consts ;;
      Ok (SString name f')
  | SDecimal _ f => Ok (SDecimal name f)
  | _ => Ok t
  end.

(** ** Fields *)

(** The first argument of a field.  A class is its name; text stands for the
    class of that name when the type is first needed. *)
Definition field_type (rt : runtime) (ms : mstate) (g : gfield) : res ftype :=
  t <- eval_type ms (gf_type g) ;;
  match gf_call g with
  | None =>
      match t with
      | TvText n => Ok (TComplex n)
      | TvClass (MComplex c) => Ok (TComplex (class_name ms c))
      | TvClass (MSimple s) => Ok (TSimple s)
      end
  | Some call =>
      match t with
      | TvClass (MSimple s) => kw <- eval_kw rt call ;; s' <- call_simple rt s kw ;; Ok (TSimple s')
      | _ => Err TypeError
      end
  end.

Definition opt_arg (kw : list (string * pyval)) (name : string) : pyval :=
  match assoc name kw with Some v => v | None => VNone end.
Definition opt_tag (kw : list (string * pyval)) : option string :=
  match opt_arg kw "tagname" with VStr s => Some s | _ => None end.
Definition opt_min (kw : list (string * pyval)) : option Z :=
  match opt_arg kw "minOccurs" with VInt z => Some z | _ => None end.
Definition opt_max (kw : list (string * pyval)) : occurs :=
  match assoc "maxOccurs" kw with
  | Some (VInt z) => OInt z
  | Some (VDec _) => OUnbounded
  | _ => ONone
  end.
Definition opt_nil (kw : list (string * pyval)) : bool :=
  match opt_arg kw "nillable" with VBool b => b | _ => false end.

(** [xsd.cls(type, kw...)] *)
Definition make_field (rt : runtime) (ms : mstate) (g : gfield) : res field :=
  if negb (identifier (gf_attr g)) then Err SyntaxError
  else
    t <- field_type rt ms g ;;
    kw <- eval_kw rt (gf_kw g) ;;
    if String.eqb (gf_cls g) "Element" || String.eqb (gf_cls g) "Ref" then
      let m := match opt_min kw with Some z => z | None => 1%Z end in
      if (m =? 0)%Z || (m =? 1)%Z then
        Ok (mkField (gf_attr g) (if String.eqb (gf_cls g) "Ref" then KRef else KElement) t (opt_tag kw) (Some m) ONone
              (opt_nil kw) VNone None)
      else Err ValueError
    else if String.eqb (gf_cls g) "ListElement" then
      Ok (mkField (gf_attr g) KList t (opt_tag kw) (opt_min kw) (opt_max kw) (opt_nil kw) VNone None)
    else
      let m := match opt_arg kw "use" with VStr u => if String.eqb u "required" then 1%Z else 0%Z | _ => 1%Z end in
      Ok (mkField (gf_attr g) KAttribute t (opt_tag kw) (Some m) ONone false VNone None).

(** ** Class statements *)

(** The body of a class: every assignment replaces one of the same name.  [n] is
    the number of Element objects so far. *)
Fixpoint field_dict (n : nat) (fs : list field) (d : namespace) : namespace :=
  match fs with
  | [] => d
  | f :: t => field_dict (S n) t (assoc_set (f_name f) (ADesc n) d)
  end.
Definition class_dict (n : nat) (g : gclass) (fs : list field) : namespace :=
  let d := fold_left (fun d p => assoc_set (fst p) AOther d) (gc_consts g) [] in
  let d := field_dict n fs d in
  match gc_create g with Some _ => assoc_set "create" AOther d | None => d end.

Definition own_indicator (g : gclass) : option indicator :=
  match assoc "INDICATOR" (gc_consts g) with
  | Some (XCode c) => if String.eqb c "xsd.Choice" then Some IChoice else if String.eqb c "xsd.All" then Some IAll
                      else if String.eqb c "xsd.Sequence" then Some ISequence else None
  | _ => None
  end.

Fixpoint distinct_names (l : list string) : bool :=
  match l with [] => true | s :: t => negb (str_in s t) && distinct_names t end.
(** The class statement on complex types.  The parameters of [create] must be
    different names. *)
Definition define_complex (rt : runtime) (ms : mstate) (g : gclass) (b : nat) : res mstate :=
  fs <- mapM (make_field rt ms) (gc_fields g) ;;
  (match gc_create g with
   | Some ps => if forallb identifier ps && distinct_names ps && negb (str_in "cls" ps) then Ok tt else Err SyntaxError
   | None => Ok tt
   end) ;;;
  let w := ms_world ms in
  w1 <- exec_all w (map NewElement fs) ;;
  let mro := match nth_error (w_classes w) b with Some k => k_mro k | None => [b] end in
  w2 <- exec w1 (DefClass (class_dict (length (w_store w)) g fs) mro) ;;
  let i := match own_indicator g with Some i => i | None => snd (nth b (ms_class ms) ("", ISequence)) end in
  Ok (mkMs w2 (ms_names ms ++ [(gc_name g, MComplex (length (w_classes w)))]) (ms_class ms ++ [(gc_name g, i)]) (ms_schema ms)).

Definition exec_class (rt : runtime) (ms : mstate) (g : gclass) : res mstate :=
  if negb (identifier (gc_name g)) then Err SyntaxError
  else match assoc (gc_name g) (ms_names ms) with
  | Some _ => Err Rebound
  | None =>
      b <- eval_type ms (gc_base g) ;;
      match b with
      | TvText _ => Err TypeError
      | TvClass (MComplex b) => define_complex rt ms g b
      | TvClass (MSimple t) =>
          kw <- eval_kw rt (gc_consts g) ;;
          t' <- simple_subclass rt (gc_name g) t kw ;;
          Ok (mkMs (ms_world ms) (ms_names ms ++ [(gc_name g, MSimple t')]) (ms_class ms) (ms_schema ms))
      end
  end.

(** ** The classes of the module as the rest of the library sees them *)

(** Element._evaluate_type (572-579) and import_type (528-533) for a type given
    as text: the attribute of that name of the module. *)
Definition resolve (ms : mstate) (t : ftype) : res ftype :=
  match t with
  | TSimple _ => Ok t
  | TComplex n =>
      match assoc n (ms_names ms) with
      | Some (MComplex _) => Ok t
      | Some (MSimple s) => Ok (TSimple s)
      | None => if str_in n ["xsd.ComplexType"; "xsd.Group"; "xsd.AttributeGroup"] then Ok t else Err AttributeError
      end
  end.
Definition retype (ms : mstate) (f : field) : field :=
  mkField (f_name f) (f_kind f) (match resolve ms (f_type f) with Ok t => t | Err _ => f_type f end) (f_tag f) (f_min f) (f_max f)
    (f_nillable f) (f_default f) (f_ns f).
Definition mro_of (ms : mstate) (c : nat) : list nat :=
  match nth_error (w_classes (ms_world ms)) c with Some k => k_mro k | None => [] end.
Fixpoint nat_assoc {A} (n : nat) (l : list (nat * A)) : option A :=
  match l with [] => None | (k, v) :: t => if Nat.eqb n k then Some v else nat_assoc n t end.
(** [cls.SCHEMA]: an attribute like any other. *)
Fixpoint schema_of (ms : mstate) (mro : list nat) : option sinfo :=
  match mro with
  | [] => None
  | c :: t => match nat_assoc c (ms_schema ms) with Some s => Some s | None => schema_of ms t end
  end.
Definition class_def (ms : mstate) (c : nat) : classdef :=
  mkClass (map (class_name ms) (mro_of ms c)) (if existsb (Nat.eqb 1) (mro_of ms c) then CKGroup else CKPlain)
    (map (retype ms) (class_fields (ms_world ms) c)) (snd (nth c (ms_class ms) ("", ISequence))) (schema_of ms (mro_of ms c)).
Definition module_env (limit : nat) (ms : mstate) : env :=
  mkEnv (fun n => match assoc n (ms_names ms) with
                  | Some (MComplex c) => Some (class_def ms c)
                  | _ => match assoc n [("xsd.ComplexType", 0); ("xsd.Group", 1); ("xsd.AttributeGroup", 2)] with
                         | Some c => Some (class_def ms c)
                         | None => None
                         end
                  end) limit.

(** ** The Schema statement: Schema.__init__, 1101-1148 *)

Definition bound (ms : mstate) (n : string) : res mval :=
  if identifier n then match assoc n (ms_names ms) with Some m => Ok m | None => Err NameError end else Err SyntaxError.
Definition bound_class (ms : mstate) (n : string) : res nat :=
  m <- bound ms n ;; match m with MComplex c => Ok c | MSimple _ => Err AttributeError end.

(** [_evaluate_type]: the class is found and called. *)
Definition force (limit : nat) (O : oracle) (ms : mstate) (t : ftype) : res ftype :=
  t' <- resolve ms t ;;
  match t' with
  | TSimple _ => Ok t'
  | TComplex n => new_instance O (module_env limit ms) n ;;; Ok t'
  end.

(** The first argument of a top-level element. *)
Definition top_type (limit : nat) (O : oracle) (ms : mstate) (g : gtop) : res ftype :=
  match g with
  | TopType expr =>
      t <- eval_type ms expr ;;
      match t with
      | TvText n => Ok (TComplex n)
      | TvClass (MComplex c) => Ok (TComplex (class_name ms c))
      | TvClass (MSimple s) => Ok (TSimple s)
      end
  | TopNew n =>
      m <- bound ms n ;;
      match m with
      | MComplex c => new_instance O (module_env limit ms) n ;;; Ok (TComplex n)
      | MSimple s => Ok (TSimple s)
      end
  end.

(** The class whose SCHEMA is set because the type was passed as an instance. *)
Definition top_schema (ms : mstate) (si : sinfo) (g : gtop) : list (nat * sinfo) :=
  match g with
  | TopNew n => match assoc n (ms_names ms) with Some (MComplex c) => [(c, si)] | _ => [] end
  | TopType _ => []
  end.

(** A loaded module: its classes and the elements of its Schema. *)
Record module := mkMod { md_state : mstate; md_tns : string; md_efd : string; md_elements : list (string * (ftype * option string)) }.

Definition exec_schema (rt : runtime) (limit : nat) (O : oracle) (ms : mstate) (g : gschema_st) : res module :=
  mapM (bound ms) (gz_simple g) ;;;
  ags <- mapM (bound_class ms) (gz_attrgroups g) ;;
  gs <- mapM (bound_class ms) (gz_groups g) ;;
  cts <- mapM (bound_class ms) (gz_complex g) ;;
  tns <- literal rt false (gz_tns g) ;;
  efd <- literal rt false (gz_efd g) ;;
  tops <- mapM (fun p => n <- literal rt false (fst p) ;; t <- top_type limit O ms (fst (snd p)) ;; sg <- group_value rt (snd (snd p)) ;; Ok (n, (t, sg))) (gz_elements g) ;;
  let si := {| si_tns := Some tns; si_efd := efd |} in
  let ms := mkMs (ms_world ms) (ms_names ms) (ms_class ms)
              (rev (flat_map (fun p => top_schema ms si (fst (snd p))) (gz_elements g)) ++
               map (fun c => (c, si)) (ags ++ gs ++ cts) ++ ms_schema ms) in
  mapM (fun c => mapM (fun f => force limit O ms (f_type f)) (class_fields (ms_world ms) c)) (cts ++ ags ++ gs) ;;;
  els <- mapM (fun p => t <- force limit O ms (fst (snd p)) ;; Ok (fst p, (t, snd (snd p)))) tops ;;
  Ok (mkMod ms tns efd (fold_left (fun d p => assoc_set (fst p) (snd p) d) els [])).

(** These statements after others that have left the module in [ms]. *)
Definition load_from (rt : runtime) (limit : nat) (O : oracle) (ms : mstate) (code : list gclass * gschema_st) : res module :=
  ms <- foldM (exec_class rt) ms (fst code) ;;
  exec_schema rt limit O ms (snd code).
(** Importing a module of these statements. *)
Definition load (rt : runtime) (limit : nat) (O : oracle) (code : list gclass * gschema_st) : res module :=
  load_from rt limit O start code.
