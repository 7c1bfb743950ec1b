(** Which classes say in their XSD document what they write, and which objects
    leave out nothing that is required. *)
From Coq Require Import String Ascii List ZArith NArith Bool QArith.
From Verif Require Import PyBase PyRe Xml PyVal XsdSimple XsdComplex LibClasses Py2Xsd SpecXsd SpecSimple SpecDate SpecRound SpecValid.
Import ListNotations.
Open Scope string_scope.
Open Scope list_scope.
Open Scope Z_scope.

(** ** Types *)

(** A number that is written without an exponent. *)
Definition plain_number (v : pyval) : Prop :=
  match v with
  | VInt _ => True
  | VFloat f => exists q, fl_val f = NFin q /\ number (fl_repr f) q
  | _ => False
  end.
Definition text_class (c : string) : Prop := In c ["String"; "AnyURI"]%string.
Definition number_class (c : string) : Prop := In c ["Decimal"; "Double"; "Float"]%string.
(** A type of the library, passed as a class. *)
Definition bare (u : stype) : Prop :=
  match u with
  | SString c f => text_class c /\ f = no_sfacets
  | SBoolean | SDate | SDateTime | STime => True
  | SDecimal c f => number_class c /\ f = no_dfacets
  | SInteger c f => unlisted u = false /\ f = no_dfacets
  | _ => False
  end.
(** A type of the library with facets, passed as an instance.  [mean p] is the
    regular expression with the text [p]. *)
Definition plain_facets (mean : string -> re) (G : decls) (f : dfacets) : Prop :=
  pattern_proper f /\ (forall r, df_pattern f = Some r -> mean (dc_re G r) = r) /\
  (forall b, In (Some b) [df_minIn f; df_minEx f; df_maxIn f; df_maxEx f] -> plain_number b).
Definition restricted (mean : string -> re) (G : decls) (u : stype) : Prop :=
  match u with
  | SString c f => text_class c /\ facets_proper f /\ forall r, sf_pattern f = Some r -> mean (dc_re G r) = r
  | SBoolean | SDate | SDateTime | STime => True
  | SDecimal c f => number_class c /\ plain_facets mean G f
  | SInteger c f => unlisted u = false /\ plain_facets mean G (mk_integer c f)
  | _ => False
  end.
(** The type of the class [st] of the schema, a string type with an enumeration or
    a pattern as class attributes. *)
Definition own_string (mean : string -> re) (st : stclass) (u : stype) : Prop :=
  exists c f, text_class c /\ sc_base st = SString c no_sfacets /\ sc_fraction st = VNone /\ u = SString (sc_name st) f /\ builtin u = None /\ facets_proper f /\
    sf_enum f = match strings (sc_enum st) with [] => None | l => Some l end /\
    sf_pattern f = match sc_pattern st with VStr (String a p) => Some (mean (String a p)) | _ => None end.

(** ** Classes *)

Definition occurrence_ok (i : indicator) (f : field) : Prop :=
  match f_kind f with
  | KElement => f_min f = Some 0 \/ f_min f = Some 1
  | KList => (exists m, f_min f = Some m) /\ f_max f <> ONone /\ f_max f <> OInt 0 /\ (i = IAll -> f_max f = OInt 1) /\
             exists t, f_tag f = Some t /\ t <> ""%string
  | _ => False
  end.
Definition type_ok (mean : string -> re) (G : decls) (s : gschema) (c : string) (f : field) : Prop :=
  if dc_class G c f then
    match f_type f with
    | TComplex c' => In c' (gs_complex s)
    | TSimple u => bare u \/ exists st, In st (gs_simple s) /\ own_string mean st u
    end
  else exists u, f_type f = TSimple u /\ restricted mean G u.
Definition field_ok (mean : string -> re) (G : decls) (s : gschema) (c : string) (i : indicator) (f : field) : Prop :=
  ncname_ok (tag_or_name f) = true /\ (f_ns f = None \/ f_ns f = Some (gs_tns s)) /\ occurrence_ok i f /\ type_ok mean G s c f.
(** A class that belongs to the schema. *)
Definition class_ok (mean : string -> re) (E : env) (G : decls) (s : gschema) (c : string) : Prop :=
  exists d, e_cls E c = Some d /\ cd_kind d <> CKHeader /\
    (forall si, cd_schema d = Some si -> si_tns si = Some (gs_tns s)) /\
    Forall (field_ok mean G s c (cd_ind d)) (cd_fields d).
(** No two types have the same name, nor have two elements. *)
Definition distinct_names (s : gschema) : Prop :=
  NoDup (map type_name (map sc_name (gs_simple s) ++ gs_complex s)) /\ NoDup (map fst (gs_elements s)).
Definition schema_ok (mean : string -> re) (E : env) (G : decls) (s : gschema) : Prop :=
  gs_tns s <> ""%string /\ distinct_names s /\ Forall (class_ok mean E G s) (gs_complex s) /\
  Forall (fun p => forall c, ge_type (snd p) = TComplex c ->
            if ge_class (snd p) then In c (gs_complex s) else class_ok mean E G s c) (gs_elements s).

(** ** Objects *)

Definition zone_ok (tz : option Z) : Prop := forall off, tz = Some off -> - 840 * minute_us <= off <= 840 * minute_us.
Definition ordinary (O : oracle) (u : stype) (v : pyval) : Prop :=
  match u, v with
  | SString _ f, VStr s => sf_pattern f <> None -> forall t, s <> (t ++ String nl "")%string
  | SBoolean, VBool _ => True
  | SInteger _ _, VInt _ => True
  | SDecimal _ _, _ => plain_number v
  | SDate, VXSDDate y m d tz => calendar_date y m d /\ (1000 <= y \/ o_year_pad O = true) /\ zone_ok tz
  | SDateTime, VDateTime t =>
      calendar_date (dt_year t) (dt_month t) (dt_day t) /\ (1000 <= dt_year t \/ o_year_pad O = true) /\
      clock_time (dt_hour t) (dt_min t) (dt_sec t) (dt_us t) /\ zone_ok (dt_tz t)
  | STime, VTime t => clock_time (tm_hour t) (tm_min t) (tm_sec t) (tm_us t) /\ zone_ok (tm_tz t)
  | _, _ => False
  end.
(** Nothing is written for the field [f]. *)
Definition absent (f : field) (v : pyval) : Prop :=
  (f_kind f = KElement /\ v = VNone) \/ (f_kind f = KList /\ exists b, v = VList b []).

(** Nothing required is missing.  Attributes hold what their types accept, and
    objects are of the declared class. *)
Inductive complete (O : oracle) (E : env) : ftype -> pyval -> Prop :=
| cp_simple u v : st_accept O u v = Ok v -> ordinary O u v -> complete O E (TSimple u) v
| cp_object c d xe fs : e_cls E c = Some d -> cd_ind d <> IChoice ->
    (forall f, In f (cd_fields d) -> exists v, assoc (f_name f) fs = Some v /\ given O E f v) ->
    complete O E (TComplex c) (VObj c xe fs)
| cp_choice c d xe fs before f after v : e_cls E c = Some d -> cd_ind d = IChoice -> cd_fields d = before ++ f :: after ->
    assoc (f_name f) fs = Some v -> given O E f v ->
    (forall g, In g (before ++ after) -> exists w, assoc (f_name g) fs = Some w /\ absent g w) ->
    complete O E (TComplex c) (VObj c xe fs)
with given (O : oracle) (E : env) : field -> pyval -> Prop :=
| gv_left_out f : f_kind f = KElement -> f_min f = Some 0 -> given O E f VNone
| gv_nil f : f_kind f = KElement -> f_nillable f = true -> given O E f VNil
| gv_value f v : f_kind f = KElement -> v <> VNone -> v <> VNil -> complete O E (f_type f) v -> given O E f v
| gv_list f b items : f_kind f = KList ->
    Forall (fun v => v = VNil /\ f_nillable f = true \/ v <> VNil /\ complete O E (f_type f) v) items ->
    given O E f (VList b items).
