(** The metaclass: how a class gets its list of fields
    (/repo/soapfish/xsd.py:546, 565-566, 825-857).

    Element objects live in a store, indexed by their creation number
    ([_creation_number], 565-566), because the same object can be an attribute
    of several classes and [_name] is set on it every time such a class is
    defined.

    Simplifications:
    - the interpreter linearises the base classes (C3); a class definition here
      comes with the resulting list of ancestors, which the theorems leave
      arbitrary;
    - attributes of a class other than Element objects are all alike;
    - class attributes are not changed after the class has been defined ([_meta]
      would not notice; the library does so in Document.parsexml only, for which
      see Texts.v);
    - an Element that is not in any class has no [_name] yet; the model has
      whatever name the descriptor came with, and nothing reads it. *)
From Coq Require Import String Ascii List ZArith NArith Bool.
From Verif Require Import PyBase PyVal XsdSimple XsdComplex PySort.
Import ListNotations.
Open Scope nat_scope.
Open Scope string_scope.
Open Scope list_scope.

(** An attribute of a class: the Element object number [d], or something else. *)
Inductive attrval := ADesc (d : nat) | AOther.
Definition namespace := list (string * attrval).

(** ComplexTypeMetaInfo, 825-847: lists of Element objects. *)
Record meta := mkMeta {
  mt_fields : list nat;
  mt_attributes : list nat;
  mt_groups : list nat;
  mt_allelements : list nat;
  mt_all : list nat }.

Record klass := mkK {
  k_dict : namespace;           (* __dict__ *)
  k_mro : list nat;             (* __mro__, the class itself first *)
  k_meta : meta }.              (* _meta *)

(** All Element objects by creation number, all classes in order of definition. *)
Record world := mkWorld { w_store : list field; w_classes : list klass }.
Definition empty_world : world := mkWorld [] [].

Definition dict_of (cs : list namespace) (c : nat) : namespace := nth c cs [].

(** [getattr(cls, name)]: the first class of the MRO that has it. *)
Fixpoint mro_get (cs : list namespace) (mro : list nat) (name : string) : option attrval :=
  match mro with
  | [] => None
  | c :: t => match assoc name (dict_of cs c) with
              | Some v => Some v
              | None => mro_get cs t name
              end
  end.

(** [dir(cls)]: the names in all classes of the MRO, each once, in alphabetical
    order. *)
Fixpoint insert_name (s : string) (l : list string) : list string :=
  match l with
  | [] => [s]
  | t :: r => match String.compare s t with
              | Lt => s :: t :: r
              | Eq => t :: r
              | Gt => t :: insert_name s r
              end
  end.
Definition dir (cs : list namespace) (mro : list nat) : list string :=
  fold_right insert_name [] (flat_map (fun c => map fst (dict_of cs c)) mro).

(** [item._name = attr] *)
Definition rename (name : string) (f : field) : field :=
  mkField name (f_kind f) (f_type f) (f_tag f) (f_min f) (f_max f) (f_nillable f) (f_default f) (f_ns f).
Fixpoint set_name (store : list field) (d : nat) (name : string) : list field :=
  match store, d with
  | [], _ => []
  | f :: t, O => rename name f :: t
  | f :: t, S d' => f :: set_name t d' name
  end.

(** The Element object number [d]. *)
Definition desc (store : list field) (d : nat) : field :=
  nth d store (mkField "" KElement (TComplex "") None None ONone false VNone None).

(** The loop over dir(cls), 832-842: the store after it, and the three lists in
    the order of dir(cls). *)
Fixpoint collect (cs : list namespace) (mro : list nat) (names : list string)
    (store : list field) : list field * list nat * list nat * list nat :=
  match names with
  | [] => (store, [], [], [])
  | attr :: rest =>
      match mro_get cs mro attr with
      | Some (ADesc d) =>
          let '(store', fields, attributes, groups) := collect cs mro rest (set_name store d attr) in
          if is_attr (desc store d) then (store', fields, d :: attributes, groups)
          else if is_group (desc store d) then (store', fields, attributes, d :: groups)
          else (store', d :: fields, attributes, groups)
      | _ => collect cs mro rest store
      end
  end.

(** [sorted(l, key=lambda f: f._creation_number)] *)
Definition by_creation (l : list nat) : list nat := sort_by (fun d => d) l.

(** ComplexTypeMetaInfo.__init__, 827-847. *)
Definition build_meta (cs : list namespace) (mro : list nat) (store : list field) : list field * meta :=
  let '(store', fields, attributes, groups) := collect cs mro (dir cs mro) store in
  let fields := by_creation fields in
  let attributes := by_creation attributes in
  let groups := by_creation groups in
  (store', mkMeta fields attributes groups (by_creation (fields ++ groups)) (by_creation (fields ++ groups ++ attributes))).

(** What a program does: create an Element object (Element.__init__, 548-570), or
    define a class with these attributes and ancestors (Complex_PythonType.__new__,
    850-857). *)
Inductive event :=
| NewElement (f : field)
| DefClass (dict : namespace) (ancestors : list nat).

(** A name must exist before it is used. *)
Definition known_attr (w : world) (a : string * attrval) : bool :=
  match snd a with ADesc d => (d <? length (w_store w))%nat | AOther => true end.

Definition exec (w : world) (e : event) : res world :=
  match e with
  | NewElement f => Ok (mkWorld (w_store w ++ [f]) (w_classes w))
  | DefClass dict ancestors =>
      if forallb (known_attr w) dict && forallb (fun c => (c <? length (w_classes w))%nat) ancestors then
        let mro := length (w_classes w) :: ancestors in
        let '(store', m) := build_meta (map k_dict (w_classes w) ++ [dict]) mro (w_store w) in
        Ok (mkWorld store' (w_classes w ++ [mkK dict mro m]))
      else Err NameError
  end.
Definition exec_all (w : world) (es : list event) : res world := foldM exec w es.

(** [cls._meta.all] of class number [c] as the library reads it: the Element
    objects with their present names.  This is [cd_fields] in XsdComplex.v. *)
Definition meta_of (w : world) (c : nat) : meta :=
  match nth_error (w_classes w) c with
  | Some k => k_meta k
  | None => mkMeta [] [] [] [] []
  end.
Definition class_fields (w : world) (c : nat) : list field := map (desc (w_store w)) (mt_all (meta_of w c)).
