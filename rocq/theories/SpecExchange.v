(** Vocabulary for classes that are used in place of others: which classes lose
    nothing when they are regenerated from their XSD document. *)
From Coq Require Import String Ascii List ZArith NArith Bool.
From Verif Require Import PyBase PyRe Xml PyVal XsdSimple XsdComplex LibClasses Py2Xsd SpecXsd Xsd2Py PyLoad SpecGenCode SpecUrl SpecService SpecLoadable SpecReclass.
Import ListNotations.
Open Scope nat_scope.
Open Scope string_scope.
Open Scope list_scope.

(** The type [u] is that of the class [st], a subclass of a string type with an
    enumeration or a pattern as class attributes. *)
Definition string_class (rt : runtime) (st : stclass) (u : stype) : Prop :=
  (exists c, sc_base st = SString c no_sfacets) /\ sc_fraction st = VNone /\
  (sc_pattern st = VNone \/ exists p, sc_pattern st = VStr p /\ p <> "") /\
  u = SString (sc_name st)
        {| sf_enum := match strings (sc_enum st) with [] => None | l => Some l end;
           sf_pattern := match sc_pattern st with VStr p => Some (rt_re rt p) | _ => None end;
           sf_length := None; sf_minLength := None; sf_maxLength := None; sf_ws := None |}.
(** A field called like its tag (with an underscore if that is a keyword), without
    default and namespace. *)
Definition field_faithful (rt : runtime) (s : gschema) (f : field) : Prop :=
  f_name f = python_name (tag_or_name f) /\ f_tag f <> Some "" /\ f_default f = VNone /\ f_ns f = None /\ (f_kind f = KList -> f_tag f <> None) /\
  forall u, f_type f = TSimple u -> library_simple u \/ exists st, In st (gs_simple s) /\ string_class rt st u.
(** A class that belongs to the schema. *)
Definition class_faithful (rt : runtime) (E : env) (s : gschema) (c : string) : Prop :=
  exists d, e_cls E c = Some d /\ cd_kind d = CKPlain /\ In c (cd_mro d) /\
    cd_schema d = Some {| si_tns := Some (gs_tns s); si_efd := gs_efd s |} /\ Forall (field_faithful rt s) (cd_fields d).
Definition schema_faithful (rt : runtime) (E : env) (s : gschema) : Prop := Forall (class_faithful rt E s) (gs_complex s).

(** No class of the schema is derived from another one. *)
Definition flat (E : env) (s : gschema) : Prop :=
  forall c c' d, In c (gs_complex s) -> In c' (gs_complex s) -> e_cls E c = Some d -> In c' (cd_mro d) -> c' = c.

(** All objects in a value are instances of these classes. *)
Inductive made_of (cs : list string) : pyval -> Prop :=
| mo_obj c xe fs : In c cs -> Forall (fun p => made_of cs (snd p)) fs -> made_of cs (VObj c xe fs)
| mo_list b l : Forall (made_of cs) l -> made_of cs (VList b l)
| mo_other v : (forall c xe fs, v <> VObj c xe fs) -> (forall b l, v <> VList b l) -> made_of cs v.
