(** xsd.String, xsd.Boolean, the Decimal and Integer families, MaxOccurs. *)
From Coq Require Import String Ascii List ZArith NArith Bool QArith.
From Verif Require Import PyBase PyRe Xml PyVal XsdDate.
Import ListNotations.
Open Scope string_scope.
Open Scope list_scope.

(** ** xsd.String (/repo/soapfish/xsd.py:121-194) *)

(** Effective facets of a String instance (class attributes overridden by
    constructor arguments, lines 122-143).  An empty pattern is falsy and is
    modelled as [None]. *)
Record sfacets := {
  sf_enum : option (list string);
  sf_pattern : option re;
  sf_length : option Z;
  sf_minLength : option Z;
  sf_maxLength : option Z;
  sf_ws : option string }.

Definition no_sfacets : sfacets :=
  {| sf_enum := None; sf_pattern := None; sf_length := None; sf_minLength := None;
     sf_maxLength := None; sf_ws := None |}.

(** [re.sub(r'[\t\r\n\s]', ' ', value)] *)
Definition ws_replace (l : list ascii) : list ascii :=
  map (fun c => if is_space c then space else c) l.

(** [re.sub(r'[\t\r\n\s]+', ' ', value)]; [prev] = inside a run. *)
Fixpoint ws_collapse (prev : bool) (l : list ascii) : list ascii :=
  match l with
  | [] => []
  | c :: t =>
      if is_space c then (if prev then ws_collapse true t else space :: ws_collapse true t)
      else c :: ws_collapse false t
  end.

(** String._clean_whitespace, lines 183-194. *)
Definition clean_ws (ws : option string) (s : string) : string :=
  match ws with
  | Some w =>
      if String.eqb w "preserve" then s
      else if String.eqb w "replace" then of_l (ws_replace (to_l s))
      else if String.eqb w "collapse" then of_l (ws_collapse false (to_l s))
      else s
  | None => s
  end.

(** [if self.length:] - a facet that is None or 0 is not checked. *)
Definition check_int (f : option Z) (bad : Z -> bool) : res unit :=
  match f with
  | None => Ok tt
  | Some n => if (n =? 0)%Z then Ok tt else if bad n then Err ValueError else Ok tt
  end.

(** String.accept, lines 145-175. *)
Definition str_accept (f : sfacets) (v : pyval) : res pyval :=
  match v with
  | VNone => Ok VNone
  | VStr s0 =>
      let s := clean_ws (sf_ws f) s0 in
      (match sf_pattern f with
       | None => Ok tt
       | Some r => if re_match (append_dollar r) s then Ok tt else Err ValueError
       end) ;;;
      (match sf_enum f with
       | None => Ok tt
       | Some [] => Ok tt
       | Some l => if str_in s l then Ok tt else Err ValueError
       end) ;;;
      check_int (sf_length f) (fun n => negb (slen s =? n)%Z) ;;;
      check_int (sf_minLength f) (fun n => (slen s <? n)%Z) ;;;
      check_int (sf_maxLength f) (fun n => (n <? slen s)%Z) ;;;
      Ok (VStr s)
  | _ => Err ValueError
  end.

(** ** xsd.Boolean (/repo/soapfish/xsd.py:197-222) *)

(** Boolean.accept, lines 198-202: membership in [True, False, None] is by
    [==], so 1, 0, 1.0, Decimal(0) … are members. *)
Definition bool_accept (v : pyval) : res pyval :=
  if py_in v [VBool true; VBool false; VNone] then Ok v else Err ValueError.

(** Boolean.xmlvalue, lines 204-212 (by identity). *)
Definition bool_xmlvalue (v : pyval) : res string :=
  match v with
  | VBool false => Ok "false"
  | VBool true => Ok "true"
  | VNone => Ok "nil"
  | _ => Err ValueError
  end.

(** Boolean.pythonvalue, lines 214-222. *)
Definition bool_pythonvalue (v : pyval) : res pyval :=
  match v with
  | VStr s => if String.eqb s "false" then Ok (VBool false)
              else if String.eqb s "true" then Ok (VBool true)
              else if String.eqb s "nil" then Ok VNone
              else Err ValueError
  | VNone => Ok VNone
  | _ => Err ValueError
  end.

(** ** xsd.Decimal, Double, Float (/repo/soapfish/xsd.py:343-437) *)

(** Constructor arguments, lines 345-355. *)
Record dfacets := {
  df_enum : option (list pyval);
  df_fraction : option Z;
  df_maxEx : option pyval;
  df_maxIn : option pyval;
  df_minEx : option pyval;
  df_minIn : option pyval;
  df_pattern : option re;
  df_total : option Z }.

Definition no_dfacets : dfacets :=
  {| df_enum := None; df_fraction := None; df_maxEx := None; df_maxIn := None;
     df_minEx := None; df_minIn := None; df_pattern := None; df_total := None |}.

(** [if self.f is not None and <bad>: raise ValueError] *)
Definition check_opt {A} (f : option A) (bad : A -> res bool) : res unit :=
  match f with
  | None => Ok tt
  | Some a => b <- bad a ;; if b then Err ValueError else Ok tt
  end.

(** Wrong number of fraction digits, lines 361-371. *)
Definition bad_fraction (sv : string) (n : Z) : bool :=
  if (n =? 0)%Z then char_in "." sv
  else if negb (char_in "." sv) then true
  else negb (slen (nth 1 (str_split "." sv) "") =? n)%Z.

(** Too many digits, lines 387-393. *)
Definition bad_total (sv : string) (n : Z) : bool :=
  let len := (if char_in "." sv then slen sv - 1 else slen sv)%Z in (n <? len)%Z.

(** Decimal._check_restrictions, lines 357-395.  [a >= b] is [b <= a]. *)
Definition check_restrictions (O : oracle) (f : dfacets) (v : pyval) : res unit :=
  check_opt (df_enum f) (fun l => Ok (negb (py_in v l))) ;;;
  check_opt (df_fraction f) (fun n => Ok (bad_fraction (py_str O v) n)) ;;;
  check_opt (df_maxEx f) (fun b => py_leb b v) ;;;
  check_opt (df_maxIn f) (fun b => py_ltb b v) ;;;
  check_opt (df_minEx f) (fun b => py_leb v b) ;;;
  check_opt (df_minIn f) (fun b => py_ltb v b) ;;;
  check_opt (df_pattern f) (fun r => Ok (negb (re_match (append_dollar r) (py_str O v)))) ;;;
  check_opt (df_total f) (fun n => Ok (bad_total (py_str O v) n)).

(** Decimal.accept, lines 397-410. *)
Definition decimal_accept (O : oracle) (f : dfacets) (v : pyval) : res pyval :=
  match v with
  | VNone => Ok VNone
  | _ =>
      v' <- (match v with
             | VDec d => Ok (VStr (dec_str d))
             | VFloat _ | VInt _ | VBool _ => Ok v
             | VStr s => res_map VFloat (o_float O s)
             | _ => Err ValueError
             end) ;;
      check_restrictions O f v' ;;; Ok v'
  end.

(** Decimal.xmlvalue, lines 412-413. *)
Definition decimal_xmlvalue (O : oracle) (v : pyval) : res string := Ok (py_str O v).

(** Decimal.pythonvalue, lines 415-419, for a given accept. *)
Definition decimal_pythonvalue (accept : pyval -> res pyval) (v : pyval) : res pyval :=
  match v with
  | VStr "nil" => Ok VNone
  | _ => accept v
  end.

(** ** The Integer family (/repo/soapfish/xsd.py:440-509) *)

Inductive intcls :=
| CInteger | CNonNegativeInteger | CNonPositiveInteger | CNegativeInteger
| CPositiveInteger | CLong | CInt | CShort | CByte | CUnsignedLong
| CUnsignedInt | CUnsignedShort | CUnsignedByte.

(** Base class, as in the class statements. *)
Definition int_base (c : intcls) : option intcls :=
  match c with
  | CInteger => None
  | CNonNegativeInteger | CNonPositiveInteger | CLong => Some CInteger
  | CNegativeInteger => Some CNonPositiveInteger
  | CPositiveInteger | CUnsignedLong => Some CNonNegativeInteger
  | CInt => Some CLong
  | CShort => Some CInt
  | CByte => Some CShort
  | CUnsignedInt => Some CUnsignedLong
  | CUnsignedShort => Some CUnsignedInt
  | CUnsignedByte => Some CUnsignedShort
  end.

(** [itertools.dropwhile(lambda x: x != Integer, reversed(cls.__mro__))]:
    from Integer down to the class itself.  The longest chain has five. *)
Fixpoint int_chain (fuel : nat) (c : intcls) : list intcls :=
  match fuel with
  | O => [c]
  | S f => match int_base c with
           | None => [c]
           | Some b => int_chain f b ++ [c]
           end
  end.
Definition int_mro (c : intcls) : list intcls := int_chain 6 c.

(** Integer.overrides['pattern'], line 441: [[-+]?[0-9]+] *)
Definition int_pattern : re :=
  RSeq (r_opt (RSet (fun c => Ascii.eqb c "-" || Ascii.eqb c "+")))
       (r_plus (RSet (in_range 48 57))).

Definition set_min (z : Z) (f : dfacets) : dfacets :=
  {| df_enum := df_enum f; df_fraction := df_fraction f; df_maxEx := df_maxEx f;
     df_maxIn := df_maxIn f; df_minEx := df_minEx f; df_minIn := Some (VInt z);
     df_pattern := df_pattern f; df_total := df_total f |}.
Definition set_max (z : Z) (f : dfacets) : dfacets :=
  {| df_enum := df_enum f; df_fraction := df_fraction f; df_maxEx := df_maxEx f;
     df_maxIn := Some (VInt z); df_minEx := df_minEx f; df_minIn := df_minIn f;
     df_pattern := df_pattern f; df_total := df_total f |}.

(** [facets.update(c.overrides)], the [overrides] dictionaries of lines
    441-509. *)
Definition apply_overrides (f : dfacets) (c : intcls) : dfacets :=
  match c with
  | CInteger =>
      {| df_enum := df_enum f; df_fraction := Some 0%Z; df_maxEx := df_maxEx f;
         df_maxIn := df_maxIn f; df_minEx := df_minEx f; df_minIn := df_minIn f;
         df_pattern := Some int_pattern; df_total := df_total f |}
  | CNonNegativeInteger => set_min 0 f
  | CNonPositiveInteger => set_max 0 f
  | CNegativeInteger => set_max (-1) f
  | CPositiveInteger => set_min 1 f
  | CLong => set_min (-9223372036854775808) (set_max 9223372036854775807 f)
  | CInt => set_min (-2147483648) (set_max 2147483647 f)
  | CShort => set_min (-32768) (set_max 32767 f)
  | CByte => set_min (-128) (set_max 127 f)
  | CUnsignedLong => set_min 0 (set_max 18446744073709551615 f)
  | CUnsignedInt => set_min 0 (set_max 4294967295 f)
  | CUnsignedShort => set_min 0 (set_max 65535 f)
  | CUnsignedByte => set_min 0 (set_max 255 f)
  end.

(** Integer.__init__, lines 443-448: the effective facets of [cls] called with [user]. *)
Definition mk_integer (c : intcls) (user : dfacets) : dfacets :=
  fold_left apply_overrides (int_mro c) user.

(** Integer.accept, lines 450-461; bool is a subclass of int. *)
Definition integer_accept (O : oracle) (f : dfacets) (v : pyval) : res pyval :=
  match v with
  | VNone => Ok VNone
  | _ =>
      v' <- (match v with
             | VInt _ | VBool _ => Ok v
             | VStr s => res_map VInt (int_of_str s)
             | _ => Err ValueError
             end) ;;
      check_restrictions O f v' ;;; Ok v'
  end.

(** ** xsd.MaxOccurs (/repo/soapfish/xsd.py:512-525) *)

(** [int(v)] on a scalar; truncation of floats and decimals. *)
Definition num_trunc (n : num) : res Z :=
  match n with
  | NFin q => Ok (Z.quot (Qnum q) (Zpos (Qden q)))
  | NPInf | NNInf => Err (Exn EOverflowError "")
  | NNaN => Err ValueError
  end.
Definition py_int (v : pyval) : res Z :=
  match v with
  | VStr s => int_of_str s
  | _ => match num_of v with
         | Some n => num_trunc n
         | None => Err TypeError
         end
  end.

(** MaxOccurs.accept, lines 513-519. *)
Definition maxoccurs_accept (v : pyval) : res pyval :=
  match v with
  | VNone => Ok VNone
  | _ => if py_in v [VStr "unbounded"; UNBOUNDED] then Ok UNBOUNDED
         else res_map VInt (py_int v)
  end.

(** MaxOccurs.xmlvalue, lines 521-522. *)
Definition maxoccurs_xmlvalue (O : oracle) (v : pyval) : res string :=
  Ok (if py_eqb v UNBOUNDED then "unbounded" else py_str O v).

(** ** A simple type *)

(** Instances of SimpleType classes.  [SString] covers String and its marker
    subclasses AnyURI, QName, NMTOKEN, NMTOKENS, Base64Binary, Duration (lines
    1064-1090), which inherit everything; the class name is kept for XSD
    generation.  [SDecimal] covers Decimal, Double, Float.  [SAbstract]:
    SimpleType itself and xsd.List, whose methods raise NotImplementedError
    (lines 107-118, 1060).  [SLang]: soap12.LanguageString, a String that also
    sets xml:lang when rendered (/repo/soapfish/soap12.py:39-43). *)
Inductive stype :=
| SString (cls : string) (f : sfacets)
| SLang (f : sfacets)
| SBoolean
| SDate | SDateTime | STime
| SDecimal (cls : string) (f : dfacets)
| SInteger (c : intcls) (user : dfacets)
| SMaxOccurs
| SAbstract.

Definition NotImplemented := Exn ENotImplementedError "".

Definition st_accept (O : oracle) (t : stype) (v : pyval) : res pyval :=
  match t with
  | SString _ f | SLang f => str_accept f v
  | SBoolean => bool_accept v
  | SDate => date_accept v
  | SDateTime => datetime_accept O v
  | STime => time_accept O v
  | SDecimal _ f => decimal_accept O f v
  | SInteger c u => integer_accept O (mk_integer c u) v
  | SMaxOccurs => maxoccurs_accept v
  | SAbstract => Err NotImplemented
  end.

(** [self.xmlvalue(value)]; the result is what is assigned to [.text] or passed
    to [.set].  String.xmlvalue returns its argument unchanged, so it may be
    None or a non-string. *)
Definition st_xmlvalue (O : oracle) (t : stype) (v : pyval) : res pyval :=
  match t with
  | SString _ _ | SLang _ => Ok v
  | SBoolean => res_map VStr (bool_xmlvalue v)
  | SDate => res_map VStr (date_xmlvalue O v)
  | SDateTime => res_map VStr (datetime_xmlvalue O v)
  | STime => res_map VStr (time_xmlvalue O v)
  | SDecimal _ _ | SInteger _ _ => res_map VStr (decimal_xmlvalue O v)
  | SMaxOccurs => res_map VStr (maxoccurs_xmlvalue O v)
  | SAbstract => Err NotImplemented
  end.

(** [self.pythonvalue(xmlvalue)]; the argument is a text, None, or an
    attribute's default. *)
Definition st_pythonvalue (O : oracle) (t : stype) (v : pyval) : res pyval :=
  match t with
  | SString _ _ | SLang _ => Ok v
  | SBoolean => bool_pythonvalue v
  | SDate => date_pythonvalue v
  | SDateTime => datetime_pythonvalue O v
  | STime => time_pythonvalue O v
  | SDecimal _ f => decimal_pythonvalue (decimal_accept O f) v
  | SInteger c u => decimal_pythonvalue (integer_accept O (mk_integer c u)) v
  | SMaxOccurs => maxoccurs_accept v
  | SAbstract => Err NotImplemented
  end.
