(** Which classes and instances the round-trip property is about. *)
From Coq Require Import String Ascii List ZArith NArith Bool.
From Verif Require Import PyBase Xml PyVal XsdSimple XsdComplex SpecParse SpecSimple SpecDate.
Import ListNotations.
Open Scope Z_scope.

(** A simple value whose text is not empty and reads back as the value. *)
Definition leaf_ok (O : oracle) (s : stype) (v : pyval) : Prop :=
  v <> VNone /\ v <> VNil /\
  exists text, st_xmlvalue O s v = Ok (VStr text) /\ text <> ""%string /\ xml_text_ok text = true /\
    st_pythonvalue O s (VStr text) = Ok v /\ st_accept O s v = Ok v.

(** The same for an attribute, which may be empty. *)
Definition attr_ok (O : oracle) (s : stype) (v : pyval) : Prop :=
  v <> VNone /\ v <> VNil /\
  exists text, st_xmlvalue O s v = Ok (VStr text) /\ xml_text_ok text = true /\
    st_pythonvalue O s (VStr text) = Ok v /\ st_accept O s v = Ok v.

(** Values that round-trip.  [rt_typed t v]: content of an element of type [t];
    [rt_field f v]: value of field [f]. *)
Inductive rt_typed (O : oracle) (E : env) : ftype -> pyval -> Prop :=
| rt_leaf s v : leaf_ok O s v -> rt_typed O E (TSimple s) v
| rt_obj c d xe fs : e_cls E c = Some d -> map fst fs = map f_name (cd_fields d) ->
    (forall f v, In f (cd_fields d) -> assoc (f_name f) fs = Some v -> rt_field O E f v) ->
    rt_typed O E (TComplex c) (VObj c xe fs)
with rt_field (O : oracle) (E : env) : field -> pyval -> Prop :=
(* an optional element left out: the default must be None *)
| rf_none f : f_kind f = KElement -> f_default f = VNone -> rt_field O E f VNone
| rf_nil f : f_kind f = KElement -> f_nillable f = true -> rt_field O E f VNil
| rf_val f v : f_kind f = KElement -> v <> VNone -> v <> VNil -> rt_typed O E (f_type f) v ->
    rt_field O E f v
| rf_attr_none f s : f_kind f = KAttribute -> f_type f = TSimple s ->
    f_min f = Some 0 -> f_default f = VNone -> st_pythonvalue O s VNone = Ok VNone ->
    rt_field O E f VNone
| rf_attr f s v : f_kind f = KAttribute -> f_type f = TSimple s -> attr_ok O s v -> rt_field O E f v
| rf_list f items : f_kind f = KList ->
    (forall m, f_min f = Some m -> m <= Z.of_nat (length items)) ->
    (forall m, f_max f = OInt m -> Z.of_nat (length items) <= m) ->
    Forall (fun v => v = VNil /\ f_nillable f = true \/
                     v <> VNone /\ v <> VNil /\ rt_typed O E (f_type f) v) items ->
    rt_field O E f (VList true items)
| rf_group f ct v : f_kind f = KRef -> f_type f = TComplex ct -> rt_typed O E (TComplex ct) v ->
    rt_field O E f v.

(** The name under which an element field is written. *)
Definition out_name (f : field) : string :=
  match f_kind f with
  | KList => match f_tag f with Some t => t | None => ""%string end
  | _ => tag_or_name f
  end.
(** [g] would pick up what is written for [f]. *)
Definition confused (f g : field) : Prop := out_name f = f_name g \/ f_tag g = Some (out_name f).
Definition distinct_fields (f g : field) : Prop :=
  (is_attr f = true -> is_attr g = true -> f_name f <> f_name g) /\
  (is_plain f = true -> is_plain g = true -> ~ confused f g /\ ~ confused g f).

(** The fields of a class, groups replaced by their fields. *)
Inductive flat_fields (E : env) : string -> list field -> Prop :=
| fl_class c d blocks : e_cls E c = Some d -> Forall2 (flat_one E) (cd_fields d) blocks ->
    flat_fields E c (concat blocks)
with flat_one (E : env) : field -> list field -> Prop :=
| fl_own f : is_group f = false -> flat_one E f [f]
| fl_group f ct l : is_group f = true -> f_type f = TComplex ct -> flat_fields E ct l -> flat_one E f l.

(** The namespace can be written in a tag. *)
Definition ns_good (ns : option string) : Prop :=
  match ns with Some n => ~ In "}"%char (to_l n) | None => True end.

Definition field_good (E : env) (P : string -> Prop) (f : field) : Prop :=
  ncname_ok (out_name f) = true /\ ns_good (f_ns f) /\
  match f_kind f with
  | KElement => forall c, f_type f = TComplex c -> P c
  | KList => (exists t, f_tag f = Some t) /\ forall c, f_type f = TComplex c -> P c
  | KAttribute => tag_or_name f = f_name f
  | KRef => exists ct d, f_type f = TComplex ct /\ P ct /\ e_cls E ct = Some d /\ cd_kind d = CKGroup
  | KClassNamed | KContent => False
  end.

(** [P] is a set of classes that only refer to each other, each instantiable,
    without Choice, whose elements and attributes can be told apart. *)
Definition rt_classes (O : oracle) (E : env) (P : string -> Prop) : Prop :=
  forall c, P c -> exists d L, e_cls E c = Some d /\
    cd_kind d <> CKHeader /\ cd_ind d <> IChoice /\ In c (cd_mro d) /\
    ns_good (match cd_schema d with Some si => si_tns si | None => None end) /\
    NoDup (map f_name (cd_fields d)) /\
    (exists fs0, new_instance O E c = Ok fs0) /\
    (forall f, In f (cd_fields d) -> field_good E P f) /\
    flat_fields E c L /\ ForallOrdPairs distinct_fields L.

(** Nesting depth of objects. *)
Fixpoint vdepth (v : pyval) : nat :=
  match v with
  | VObj _ _ fs => S (list_max (map (fun p => vdepth (snd p)) fs))
  | VList _ l => list_max (map vdepth l)
  | _ => O
  end.

(** Everyday values with that property, described without the code. *)
Inductive everyday (O : oracle) : stype -> pyval -> Prop :=
| ev_str cls f s : facets_proper f -> facets_sat f s -> ws_normal (sf_ws f) s s ->
    s <> ""%string -> xml_text_ok s = true -> everyday O (SString cls f) (VStr s)
| ev_bool b : everyday O SBoolean (VBool b)
| ev_int c z : in_int_range c z -> everyday O (SInteger c no_dfacets) (VInt z)
| ev_date y m d tz : calendar_date y m d -> tz_ok tz -> (1000 <= y \/ o_year_pad O = true) ->
    everyday O SDate (VXSDDate y m d tz)
| ev_datetime t off : calendar_date (dt_year t) (dt_month t) (dt_day t) ->
    clock_time (dt_hour t) (dt_min t) (dt_sec t) 0 -> dt_us t = 0 ->
    (1000 <= dt_year t \/ o_year_pad O = true) -> dt_tz t = Some off -> tz_ok (dt_tz t) ->
    everyday O SDateTime (VDateTime t)
| ev_time t off : clock_time (tm_hour t) (tm_min t) (tm_sec t) 0 -> tm_us t = 0 ->
    tm_tz t = Some off -> tz_ok (tm_tz t) -> everyday O STime (VTime t).

(** Pretty-printing: white space between the children of elements that contain
    no text ([xml] of ComplexType serialises with [pretty_print=True]). *)
Definition blank (s : string) : Prop :=
  Forall (fun c => In c [" "; "009"; "010"; "013"]%char) (to_l s).
Inductive layout : node -> node -> Prop :=
| ly_same x : layout x x
| ly_elem t a k k' : k <> [] -> Forall (fun y => is_text y = false) k -> spaced k k' ->
    layout (Elem t a k) (Elem t a k')
with spaced : list node -> list node -> Prop :=
| sp_nil : spaced [] []
| sp_blank s k k' : blank s -> spaced k k' -> spaced k (Text s :: k')
| sp_node x x' k k' : layout x x' -> spaced k k' -> spaced (x :: k) (x' :: k').
