(** Comparing objects (/repo/soapfish/xsd.py:860, 893-905).

    Objects remember the element they were parsed from ([_xmlelement]) and are
    compared by its serialisation.  [tostring] stands for lxml's
    [etree.tostring] applied to the element and the text following it (its
    tail), [hash_bytes] for [hash] on bytes: both are arbitrary functions. *)
From Coq Require Import String Ascii List ZArith NArith Bool.
From Verif Require Import PyBase Xml PyVal XsdSimple XsdComplex.
Import ListNotations.
Open Scope Z_scope.

(** A Python object: identity, value, tail of its element. *)
Record robj := mkRobj { ro_id : Z; ro_val : pyval; ro_tail : string }.

Definition serialiser : Type := node -> string -> string.

(** [hasattr(self, '_xmlelement')], and then [etree.tostring(self._xmlelement)] *)
Definition ro_bytes (ts : serialiser) (r : robj) : option string :=
  match ro_val r with
  | VObj _ (Some x) _ => Some (ts x (ro_tail r))
  | _ => None
  end.

(** ComplexType.__hash__, 893-895. *)
Definition ro_hash (ts : serialiser) (hash_bytes : string -> Z) (r : robj) : Z :=
  match ro_bytes ts r with Some s => hash_bytes s | None => ro_id r end.

(** ComplexType.__eq__, 897-900; [!=] is its negation. *)
Definition ro_eq (ts : serialiser) (a b : robj) : bool :=
  match ro_bytes ts a, ro_bytes ts b with
  | Some s, Some t => String.eqb s t
  | _, _ => false
  end.
Definition ro_ne (ts : serialiser) (a b : robj) : bool := negb (ro_eq ts a b).

(** [<] on bytes: lexicographic. *)
Fixpoint bytes_lt (s t : string) : bool :=
  match s, t with
  | _, EmptyString => false
  | EmptyString, _ => true
  | String c s', String d t' =>
      if (code c <? code d)%N then true
      else if (code d <? code c)%N then false
      else bytes_lt s' t'
  end.

(** ComplexType.__lt__, 902-905. *)
Definition ro_lt (ts : serialiser) (a b : robj) : bool :=
  match ro_bytes ts a, ro_bytes ts b with
  | Some s, Some t => bytes_lt s t
  | _, _ => false
  end.

(** The methods functools.total_ordering (860) derives from [__lt__]. *)
Definition ro_gt (ts : serialiser) (a b : robj) : bool := negb (ro_lt ts a b) && ro_ne ts a b.
Definition ro_le (ts : serialiser) (a b : robj) : bool := ro_lt ts a b || ro_eq ts a b.
Definition ro_ge (ts : serialiser) (a b : robj) : bool := negb (ro_lt ts a b).

(** [obj.name = value] on such an object: [__setattr__] (878-886) replaces a
    field and leaves [_xmlelement] alone. *)
Definition ro_setattr (O : oracle) (E : env) (r : robj) (name : string) (v : pyval) : res robj :=
  match ro_val r with
  | VObj c xe fs =>
      d <- get_class E c ;;
      fs' <- setattr O E (cd_fields d) fs name v ;;
      Ok (mkRobj (ro_id r) (VObj c xe fs') (ro_tail r))
  | _ => Err AttributeError
  end.
