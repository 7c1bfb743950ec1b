(** What a valid document says, and which classes read every valid document. *)
From Coq Require Import String Ascii List ZArith NArith Bool QArith.
From Verif Require Import PyBase PyRe Xml PyVal XsdSimple XsdComplex LibClasses Py2Xsd SpecXsd SpecSimple SpecDate SpecRound SpecTotal SpecValid SpecGiven.
Import ListNotations.
Open Scope string_scope.
Open Scope list_scope.
Open Scope Z_scope.

(** ** Texts *)
Definition day_is (l : list ascii) (y m d : Z) : Prop :=
  exists ys m1 m2 d1 d2, l = ys ++ ["-"; m1; m2; "-"; d1; d2]%char /\ length ys = 4%nat /\
    y = digits_Z ys /\ m = digits_Z [m1; m2] /\ d = digits_Z [d1; d2].
(** A fraction of a second in microseconds. *)
Definition micros (ds : list ascii) : Z := digits_Z (firstn 6 (ds ++ repeat "0"%char 6)).
Definition clock_is (l : list ascii) (h m s us : Z) : Prop :=
  exists h1 h2 m1 m2 s1 s2 fr, l = [h1; h2; ":"; m1; m2; ":"; s1; s2]%char ++ fr /\
    h = digits_Z [h1; h2] /\ m = digits_Z [m1; m2] /\ s = digits_Z [s1; s2] /\
    (fr = [] /\ us = 0 \/ exists ds, fr = "."%char :: ds /\ digits ds /\ ds <> [] /\ us = micros ds).
Definition zone_is (l : list ascii) (tz : option Z) : Prop :=
  (l = [] /\ tz = None) \/ (l = ["Z"%char] /\ tz = Some 0) \/ exists m, tz_suffix l m /\ tz = Some (m * minute_us).
(** A time without time zone is taken for UTC. *)
Definition or_utc (tz : option Z) : option Z := match tz with None => Some 0 | _ => tz end.

(** The value [v] of the type [u] is the one with the text [s]. *)
Inductive stands_for (O : oracle) : stype -> string -> pyval -> Prop :=
| fo_string c f s : stands_for O (SString c f) s (VStr s)
| fo_true : stands_for O SBoolean "true" (VBool true)
| fo_false : stands_for O SBoolean "false" (VBool false)
| fo_number c f s x : o_float O s = Ok x -> stands_for O (SDecimal c f) s (VFloat x)
| fo_whole c f s z : whole s z -> stands_for O (SInteger c f) s (VInt z)
| fo_date s day zone y m d tz : to_l s = day ++ zone -> day_is day y m d -> zone_is zone tz -> stands_for O SDate s (VXSDDate y m d tz)
| fo_time s clock zone h m sec us tz : to_l s = clock ++ zone -> clock_is clock h m sec us -> zone_is zone tz ->
    stands_for O STime s (VTime {| tm_hour := h; tm_min := m; tm_sec := sec; tm_us := us; tm_tz := or_utc tz |})
| fo_dateTime s day clock zone y mo d h m sec us tz : to_l s = day ++ "T"%char :: clock ++ zone -> day_is day y mo d -> clock_is clock h m sec us -> zone_is zone tz ->
    stands_for O SDateTime s (VDateTime {| dt_year := y; dt_month := mo; dt_day := d; dt_hour := h; dt_min := m; dt_sec := sec; dt_us := us; dt_tz := or_utc tz |}).

(** ** Elements *)
(** The name of a child element. *)
Definition child_tag (s : gschema) (n : string) : string := if String.eqb (gs_efd s) "qualified" then clark (gs_tns s) n else n.
Definition called (s : gschema) (n : string) (k : list node) : list node := filter (fun y => String.eqb (el_tag y) (child_tag s n)) k.
Definition is_nil (x : node) : Prop := assoc xsi_nil (el_attrs x) = Some "true"%string.

(** [v] is what the element [x] says.  An element without content is read as None. *)
Inductive says (O : oracle) (E : env) (s : gschema) : ftype -> node -> pyval -> Prop :=
| sy_empty u x : el_kids x = [] -> says O E s (TSimple u) x VNone
| sy_text u x t v : el_kids x = [Text t] -> stands_for O u t v -> says O E s (TSimple u) x v
| sy_object c d x fs : e_cls E c = Some d -> map fst fs = map f_name (cd_fields d) ->
    (forall f, In f (cd_fields d) -> exists v, assoc (f_name f) fs = Some v /\ holds O E s f (called s (tag_or_name f) (el_children x)) v) ->
    says O E s (TComplex c) x (VObj c (Some x) fs)
with holds (O : oracle) (E : env) (s : gschema) : field -> list node -> pyval -> Prop :=
| ho_absent f : f_kind f = KElement -> holds O E s f [] VNone
| ho_nil f x : f_kind f = KElement -> is_nil x -> holds O E s f [x] VNil
| ho_value f x v : f_kind f = KElement -> ~ is_nil x -> says O E s (f_type f) x v -> holds O E s f [x] v
| ho_list f xs vs : f_kind f = KList -> Forall2 (fun x v => is_nil x /\ v = VNil \/ ~ is_nil x /\ says O E s (f_type f) x v) xs vs -> holds O E s f xs (VList true vs).

(** Booleans are spelled true and false in [x]. *)
Inductive spelled (E : env) (s : gschema) : ftype -> node -> Prop :=
| sl_text u x : (u = SBoolean -> forall t, In (Text t) (el_kids x) -> t <> "0"%string /\ t <> "1"%string) -> spelled E s (TSimple u) x
| sl_object c d x : e_cls E c = Some d ->
    (forall f y, In f (cd_fields d) -> In y (called s (tag_or_name f) (el_children x)) -> spelled E s (f_type f) y) -> spelled E s (TComplex c) x.

(** ** Types and classes *)

(** A string type with no other facets than an enumeration and a pattern. *)
Definition plain_string (f : sfacets) : Prop := sf_length f = None /\ sf_minLength f = None /\ sf_maxLength f = None /\ sf_ws f = None.
(** No facets but bounds, none of them 0. *)
Definition plain_bounds (f : dfacets) : Prop :=
  df_enum f = None /\ df_fraction f = None /\ df_pattern f = None /\ df_total f = None /\
  forall b, In (Some b) [df_minIn f; df_minEx f; df_maxIn f; df_maxEx f] -> exists z, b = VInt z /\ z <> 0.
Definition type_plain (u : stype) : Prop :=
  match u with
  | SString _ f => plain_string f
  | SDecimal _ f => f = no_dfacets
  | SInteger _ f => plain_bounds f
  | _ => True
  end.
(** The facets of a type passed as an instance are described: there is an
    enumeration only for String itself, and a pattern has a text. *)
Definition facets_shown (G : decls) (u : stype) : Prop :=
  match u with
  | SString _ f => (sf_enum f <> None -> st_direct u = true) /\ forall r, sf_pattern f = Some r -> dc_re G r <> ""%string
  | _ => True
  end.
(** Children of one field are not taken for those of another. *)
Definition told_apart (fs : list field) : Prop :=
  forall f g, In f fs -> In g fs -> tag_or_name g = f_name f \/ f_tag f = Some (tag_or_name g) -> g = f.
Definition class_readable (O : oracle) (E : env) (G : decls) (c : string) : Prop :=
  exists d, e_cls E c = Some d /\ cd_ind d <> IChoice /\ In c (cd_mro d) /\ NoDup (map f_name (cd_fields d)) /\ told_apart (cd_fields d) /\
    (exists fs, new_instance O E c = Ok fs) /\
    Forall (fun f => f_default f = VNone /\ forall u, f_type f = TSimple u -> type_plain u /\ (dc_class G c f = false -> facets_shown G u)) (cd_fields d).
Definition schema_readable (O : oracle) (E : env) (G : decls) (s : gschema) : Prop :=
  gs_tns s <> ns_xsd /\ ~ In "}"%char (to_l (gs_tns s)) /\ Forall (class_readable O E G) (gs_complex s) /\
  Forall (fun p => forall c, ge_type (snd p) = TComplex c -> class_readable O E G c) (gs_elements s).
(** Python's float reads every decimal numeral. *)
Definition reads_numbers (O : oracle) : Prop := forall s q, number s q -> exists x, o_float O s = Ok x.
