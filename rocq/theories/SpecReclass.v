(** Vocabulary for classes that are generated from the XSD document generated
    from other classes: which schemas can be reproduced, and what it means that a
    class is the same. *)
From Coq Require Import String Ascii List ZArith NArith Bool.
From Verif Require Import PyBase Xml PyVal XsdSimple XsdComplex LibClasses Py2Xsd SpecXsd GenOrder Xsd2Py PyLoad XsdPrefixes SpecGenCode SpecUrl SpecService SpecLoadable.
Import ListNotations.
Open Scope nat_scope.
Open Scope string_scope.
Open Scope list_scope.

(** Print the classes of the schema [o] and import the module.  schema_to_py,
    xsd2py.py:120-153. *)
Definition import_schema (sort : sorter) (n : nat) (rt : runtime) (limit : nat) (O : oracle) (nss : list (option string)) (o : pyval) : res module :=
  code <- schema_to_py sort n nss [] o ;;
  load rt limit O code.
(** What a user does: read the document [x] (sent as [doc]), print its classes and
    import the module.  generate_code_from_xsd, xsd2py.py:51-75. *)
Definition regenerate (sort : sorter) (n : nat) (rt : runtime) (limit fuel : nat) (O : oracle) (L : env) (doc : xdocument) (x : node) : res module :=
  o <- parse_obj fuel O L (xs "Schema") x ;;
  import_schema sort n rt limit O (xsd_prefixes doc) o.

(** ** Which schemas *)

(** A type of the library without facets, which is listed in XML Schema and known
    to the generator. *)
Definition library_simple (t : stype) : Prop := lib_class (st_class t) = Some (MSimple t) /\ builtin t <> None /\ unlisted t = false.
(** A simple type class of the schema. *)
Definition own_simple (s : gschema) (t : stype) : Prop := In (st_class t) (map sc_name (gs_simple s)) /\ lib_class (st_class t) = None.
Definition type_known (s : gschema) (t : ftype) : Prop :=
  match t with TSimple u => library_simple u \/ own_simple s u | TComplex c => In c (gs_complex s) end.

(** A field of the class [c].  [rank] tells how deep classes are nested: a class
    that is there once in [n] is of a lower rank. *)
Definition field_reproducible (G : decls) (s : gschema) (rank : string -> nat) (c n : string) (f : field) : Prop :=
  dc_class G c f = true /\ word (tag_or_name f) /\ ~ In (tag_or_name f) ["create"; "INDICATOR"; "INHERITANCE"; "cls"] /\
  type_known s (f_type f) /\
  ((f_kind f = KList /\ many (f_max f) = true) \/
   (f_kind f = KElement /\ (f_min f = Some 0%Z \/ f_min f = Some 1%Z) /\ forall c', f_type f = TComplex c' -> rank c' < rank n)).
Definition class_reproducible (E : env) (G : decls) (s : gschema) (limit : nat) (rank : string -> nat) (c n : string) : Prop :=
  exists d, e_cls E c = Some d /\ NoDup (map (fun f => python_name (tag_or_name f)) (cd_fields d)) /\
    Forall (field_reproducible G s rank c n) (cd_fields d) /\ rank n < limit.
Definition simple_reproducible (st : stclass) : Prop :=
  library_simple (sc_base st) /\ Forall plain_text (strings (sc_enum st)) /\ forall p, sc_pattern st = VStr p -> plain_pattern p.

(** The elements whose type was passed as an instance: each has a class of its own. *)
Definition own_elements (s : gschema) : list (string * gelement) := filter (fun p => negb (ge_class (snd p))) (gs_elements s).
(** The classes of the module. *)
Definition class_names (s : gschema) : list string :=
  map sc_name (gs_simple s) ++ gs_complex s ++ map (fun p => capital (fst p)) (own_elements s).
Definition schema_reproducible (E : env) (G : decls) (limit : nat) (rank : string -> nat) (s : gschema) : Prop :=
  plain_text (gs_tns s) /\ ~ In (gs_tns s) [ns_xsd; ns_xsd2000] /\ gs_imports s = [] /\ gs_includes s = [] /\
  NoDup (map fst (gs_elements s)) /\ NoDup (class_names s) /\ Forall (fun n => usable_name n /\ capital n = n) (class_names s) /\
  Forall simple_reproducible (gs_simple s) /\
  Forall (fun c => class_reproducible E G s limit rank c c) (gs_complex s) /\
  Forall (fun p => plain_text (fst p) /\ (forall v, ge_subst (snd p) = Some v -> plain_quoted v) /\
            if ge_class (snd p) then type_known s (ge_type (snd p))
            else forall c, ge_type (snd p) = TComplex c -> class_reproducible E G s limit rank c (capital (fst p))) (gs_elements s).

(** The substitution group of an element as it is written in the document. *)
Definition written_group (v : string) : string := if String.prefix "sns:" v then v else ("sns:" ++ v)%string.

(** ** What is the same *)

(** The type [t'] of the module is the type [t] of the schema: the same class of
    the library, or the class with the same name. *)
Definition same_type (m : module) (t t' : ftype) : Prop :=
  match t with
  | TComplex c => t' = TComplex c
  | TSimple u => (library_simple u /\ t' = TSimple u) \/
                 (lib_class (st_class u) = None /\ exists u', t' = TSimple u' /\ provides m (st_class u) t')
  end.
(** The field [f'] is the field [f] under the name of its tag, without default and
    namespace. *)
Definition same_field (m : module) (f f' : field) : Prop :=
  tag_or_name f' = tag_or_name f /\ (forall t, f_tag f' = Some t -> t = tag_or_name f) /\ f_name f' = python_name (tag_or_name f) /\ f_kind f' = f_kind f /\ same_type m (f_type f) (f_type f') /\
  f_min f' = f_min f /\ (f_kind f = KList -> f_tag f' = Some (tag_or_name f) /\ f_max f' = f_max f) /\ f_nillable f' = f_nillable f /\
  f_default f' = VNone /\ f_ns f' = None.
(** The class [d'] called [n] has the fields of [d]. *)
Definition same_class (m : module) (n : string) (d d' : classdef) : Prop :=
  cd_mro d' = [n; "xsd.ComplexType"] /\ cd_kind d' = CKPlain /\ cd_ind d' = cd_ind d /\ Forall2 (same_field m) (cd_fields d) (cd_fields d').
