(** What the XML rendering of an object must look like.

    [shape] relates a value to an element holding its rendering, at any depth:
    which child elements appear, in which order, with which names, which
    attributes are written, and which text. *)
From Coq Require Import String Ascii List ZArith NArith Bool.
From Verif Require Import PyBase Xml PyVal XsdSimple XsdComplex.
Import ListNotations.
Open Scope Z_scope.

(** A field with its value and the namespace in force where it is rendered. *)
Definition entry : Type := (field * pyval * option string).

(** Namespace in force for the fields of an object of class [di] rendered as
    type [d]: that of the type's schema, else the one handed down (for a SOAP
    header: that of the object's schema). *)
Definition ns_in_force (d di : classdef) (ns ns1 : option string) : Prop :=
  match cd_schema d with
  | Some si => ns1 = si_tns si
  | None => match cd_kind d with
            | CKHeader => exists si, cd_schema di = Some si /\ ns1 = si_tns si
            | _ => ns1 = ns
            end
  end.

(** The fields of an object in order, group references replaced by the fields
    of the group. *)
Inductive flat (E : env) : option string -> string -> pyval -> list entry -> Prop :=
| flat_obj ns c d ci di xe fs ns1 blocks :
    e_cls E c = Some d -> e_cls E ci = Some di -> ns_in_force d di ns ns1 ->
    Forall2 (flat_field E fs ns1) (cd_fields di) blocks ->
    flat E ns c (VObj ci xe fs) (concat blocks)
with flat_field (E : env) : list (string * pyval) -> option string -> field -> list entry -> Prop :=
| ff_group fs ns1 f ct fv l :
    is_group f = true -> f_type f = TComplex ct -> assoc (f_name f) fs = Some fv ->
    is_group_obj E fv = true -> flat E ns1 ct fv l ->
    flat_field E fs ns1 f l
| ff_own fs ns1 f fv :
    assoc (f_name f) fs = Some fv -> (is_group f && is_group_obj E fv = false)%bool ->
    flat_field E fs ns1 f [(f, fv, ns1)].

(** Attributes written for one entry. *)
Definition entry_writes (O : oracle) (e : entry) (ws : list (string * string)) : Prop :=
  let '(f, v, _) := e in
  if is_attr f then
    (v = VNone /\ (f_min f = None \/ f_min f = Some 0) /\ ws = []) \/
    (v = VNil /\ f_nillable f = true /\ ws = [(tag_or_name f, "nil"%string)]) \/
    (v <> VNone /\ v <> VNil /\ exists s text, f_type f = TSimple s /\
       st_xmlvalue O s v = Ok (VStr text) /\ ws = [(tag_or_name f, text)])
  else ws = [].

(** The tag an element field gets: qualified with the field's namespace, or
    else the one in force, iff elementFormDefault is 'qualified'. *)
Definition form_qualified (efd : option string) : bool :=
  match efd with Some s => String.eqb s "qualified" | None => false end.
Definition elem_tag (f : field) (ns efd : option string) (name : string) : string :=
  match (match f_ns f with Some n => Some n | None => ns end) with
  | Some n => if (form_qualified efd && negb (String.eqb n ""))%bool then clark n name else name
  | None => name
  end.

(** A [Ref] to an ordinary complex type: qualified whenever a namespace is in
    force. *)
Definition ref_tag (ns : option string) (name : string) : string :=
  match ns with
  | Some n => if String.eqb n "" then name else clark n name
  | None => name
  end.

(** What a simple value leaves in its element. *)
Definition text_kids (y : pyval) (kids : list node) : Prop :=
  (y = VNone /\ kids = []) \/ (exists s, y = VStr s /\ kids = [Text s]).
Definition simple_attrs (s : stype) : list (string * string) :=
  match s with SLang _ => [(xml_lang, "en"%string)] | _ => [] end.

Inductive shape (O : oracle) (E : env) : option string -> option string -> ftype -> pyval -> node -> Prop :=
| sh_simple efd ns s v tag y kids :
    st_xmlvalue O s v = Ok y -> text_kids y kids ->
    shape O E efd ns (TSimple s) v (Elem tag (simple_attrs s) kids)
| sh_none efd ns c tag : shape O E efd ns (TComplex c) VNone (Elem tag [] [])
| sh_obj efd ns c v tag entries blocks wss :
    flat E ns c v entries ->
    Forall2 (children O E efd) entries blocks ->
    Forall2 (entry_writes O) entries wss ->
    shape O E efd ns (TComplex c) v
      (Elem tag (fold_left (fun a w => assoc_set (fst w) (snd w) a) (concat wss) []) (concat blocks))
(** The child elements for one entry. *)
with children (O : oracle) (E : env) : option string -> entry -> list node -> Prop :=
| ch_attr efd f v ns : is_attr f = true -> children O E efd (f, v, ns) []
| ch_element_none efd f ns : f_kind f = KElement -> children O E efd (f, VNone, ns) []
| ch_element efd f v ns x : f_kind f = KElement -> v <> VNone ->
    item O E efd f ns (tag_or_name f) v x -> children O E efd (f, v, ns) [x]
| ch_list efd f typed items ns kids : f_kind f = KList ->
    (forall m, f_min f = Some m -> m <> 0 -> m <= Z.of_nat (length items)) ->
    (forall m, f_max f = OInt m -> m <> 0 -> Z.of_nat (length items) <= m) ->
    Forall2 (fun v x => exists t, f_tag f = Some t /\ item O E efd f ns t v x) items kids ->
    children O E efd (f, VList typed items, ns) kids
| ch_ref efd f v ns x : is_group f = true -> v <> VNone -> is_group_obj E v = false ->
    el_tag x = ref_tag ns (tag_or_name f) -> shape O E efd ns (f_type f) v x ->
    children O E efd (f, v, ns) [x]
| ch_named_none efd f ns : f_kind f = KClassNamed -> children O E efd (f, VNone, ns) []
| ch_named_empty efd f c xe fs ns : f_kind f = KClassNamed ->
    assoc "value"%string fs = Some VNone -> children O E efd (f, VObj c xe fs, ns) []
| ch_named efd f c xe fs name ci xei fsi di si ns x : f_kind f = KClassNamed ->
    assoc "name"%string fs = Some name -> assoc "value"%string fs = Some (VObj ci xei fsi) ->
    e_cls E ci = Some di -> cd_schema di = Some si ->
    (forall s, name = VStr s -> ncname_ok s = true -> el_tag x = ref_tag (si_tns si) s) ->
    shape O E (Some (si_efd si)) (si_tns si) (f_type f) (VObj ci xei fsi) x ->
    children O E efd (f, VObj c xe fs, ns) [x]
(** One element of a field: its name, and NIL or the content. *)
with item (O : oracle) (E : env) : option string -> field -> option string -> string -> pyval -> node -> Prop :=
| it_nil efd f ns name : item O E efd f ns name VNil (Elem (elem_tag f ns efd name) [(xsi_nil, "true"%string)] [])
| it_val efd f ns name v x : v <> VNil -> el_tag x = elem_tag f ns efd name ->
    shape O E efd (match f_ns f with Some n => Some n | None => ns end) (f_type f) v x ->
    item O E efd f ns name v x.

(** Every field of every class has an XML name (a Python identifier is one),
    and references refer to complex types. *)
Definition names_ok (E : env) : Prop :=
  forall c d f, e_cls E c = Some d -> In f (cd_fields d) ->
    ncname_ok (tag_or_name f) = true /\
    (f_kind f = KList -> forall t, f_tag f = Some t -> ncname_ok t = true) /\
    (is_group f = true -> exists ct, f_type f = TComplex ct).
