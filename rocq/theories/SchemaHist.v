(** The schemas of classes over the history of a program: the attribute SCHEMA,
    set by Schema.__init__ (/repo/soapfish/xsd.py:1100-1148) and read by
    ComplexType.render (/repo/soapfish/xsd.py:919-920), and the namespace of
    Element objects (1132-1135).

    Simplifications:
    - classes are those of an environment, by name; a class statement does not
      set SCHEMA, so it does not matter when it is carried out;
    - whether evaluating the types raises (1137-1142, C71) is part of the call;
    - that SCHEMA can be assigned by the user is left out. *)
From Coq Require Import String Ascii List ZArith NArith Bool.
From Verif Require Import PyBase PyVal XsdSimple XsdComplex.
Import ListNotations.
Open Scope nat_scope.
Open Scope string_scope.
Open Scope list_scope.

(** What an Element object was given as its type, xsd.py:563: a class, an
    instance of a complex type, or a name or simple type. *)
Inductive passed := PClass (c : string) | PObject (c : string) | PText (s : string).

(** [Schema(tns, efd, simpleTypes, attributeGroups, groups, complexTypes, elements)]:
    classes by name, Element objects by number; [sc_raises] if evaluating a type raises. *)
Record schema_call := mkCall {
  sc_tns : string;
  sc_efd : string;
  sc_simple : list string;
  sc_attrgroups : list string;
  sc_groups : list string;
  sc_complex : list string;
  sc_elements : list (string * nat);
  sc_raises : option exn }.

(** The Schema object in the SCHEMA of each class that has one of its own (by the
    number of the call), and the namespaces of the Element objects. *)
Record hist := mkHist {
  h_calls : list schema_call;
  h_schema : list (string * nat);
  h_ns : list (nat * string) }.

Fixpoint num_assoc {A} (n : nat) (l : list (nat * A)) : option A :=
  match l with [] => None | (k, v) :: t => if Nat.eqb n k then Some v else num_assoc n t end.

(** [__init_schema], 1144-1146 *)
Definition take_all (k : nat) (l : list string) (s : list (string * nat)) : list (string * nat) :=
  fold_left (fun s c => (c, k) :: s) l s.
(** The loop over the elements, 1131-1135; [P] tells what they were given. *)
Definition take_element (P : nat -> passed) (k : nat) (tns : string) (st : list (string * nat) * list (nat * string)) (e : string * nat)
    : list (string * nat) * list (nat * string) :=
  (match P (snd e) with PObject c => (c, k) :: fst st | _ => fst st end,
   match num_assoc (snd e) (snd st) with None => (snd e, tns) :: snd st | Some _ => snd st end).
(** Schema.__init__, 1100-1142: the state afterwards, and what is raised. *)
Definition make_schema (P : nat -> passed) (h : hist) (c : schema_call) : hist * option exn :=
  let k := length (h_calls h) in
  let s := take_all k (sc_complex c) (take_all k (sc_attrgroups c) (take_all k (sc_groups c) (take_all k (sc_simple c) (h_schema h)))) in
  let st := fold_left (take_element P k (sc_tns c)) (sc_elements c) (s, h_ns h) in
  (mkHist (h_calls h ++ [c]) (fst st) (snd st), sc_raises c).
(** A program that goes on after exceptions; [given] are the namespaces Element
    objects were made with. *)
Definition run_calls (P : nat -> passed) (given : list (nat * string)) (l : list schema_call) : hist :=
  fold_left (fun h c => fst (make_schema P h c)) l (mkHist [] [] given).

(** [cls.SCHEMA]: looked up along the bases. *)
Fixpoint schema_along (h : hist) (mro : list string) : option nat :=
  match mro with
  | [] => None
  | c :: t => match assoc c (h_schema h) with Some k => Some k | None => schema_along h t end
  end.
(** The classes with the schemas they have now. *)
Definition schema_at (h : hist) (mro : list string) : option sinfo :=
  match schema_along h mro with
  | Some k => match nth_error (h_calls h) k with
              | Some c => Some {| si_tns := Some (sc_tns c); si_efd := sc_efd c |}
              | None => None
              end
  | None => None
  end.
Definition env_now (h : hist) (E : env) : env :=
  mkEnv (fun n => match e_cls E n with
                  | Some d => Some (mkClass (cd_mro d) (cd_kind d) (cd_fields d) (cd_ind d) (schema_at h (cd_mro d)))
                  | None => None
                  end) (e_limit E).
