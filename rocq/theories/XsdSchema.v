(** Schema objects: element lookup along imports and the walk over imported
    schemas (/repo/soapfish/xsd.py:1093-1161, /repo/soapfish/utils.py:183-191,
    /repo/soapfish/soap.py:61-67).

    Schema objects refer to each other; they are modelled as the nodes of a
    graph [G], numbered by [nat] (object identity). *)
From Coq Require Import String Ascii List ZArith NArith Bool.
From Verif Require Import PyBase Xml PyVal XsdSimple XsdComplex.
Import ListNotations.
Open Scope list_scope.

(** A top-level element: xsd.Element as a value of [Schema.elements]. *)
Record selement := mkSel {
  se_type : ftype;
  se_subst : option string }.     (* substitutionGroup *)

Record schema := mkSchema {
  s_tns : option string;
  s_efd : string;
  s_elements : list (string * selement);
  s_imports : list nat;
  s_includes : list nat;
  s_location : option string }.

Definition sgraph : Type := nat -> schema.

(** [itertools.chain(self.imports, self.includes)] *)
Definition s_children (s : schema) : list nat := s_imports s ++ s_includes s.

(** The loop [for i in ...: e = get(i); if e is not None: return e]. *)
Fixpoint first_some {A B} (get : A -> res (option B)) (l : list A) : res (option B) :=
  match l with
  | [] => Ok None
  | x :: t => r <- get x ;; match r with Some e => Ok (Some e) | None => first_some get t end
  end.

(** Schema.get_element_by_name, xsd.py:1150-1161; [n] is the recursion limit. *)
Fixpoint get_element (n : nat) (G : sgraph) (s : nat) (name : string) : res (option selement) :=
  match n with
  | O => Err RecursionError
  | S n' =>
      match assoc name (s_elements (G s)) with
      | Some e => Ok (Some e)
      | None => first_some (fun i => get_element n' G i name) (s_children (G s))
      end
  end.

(** Service.find_element_by_name, soap.py:61-67. *)
Definition find_element_by_name (n : nat) (G : sgraph) (schemas : list nat) (name : string)
    : res (option selement) :=
  first_some (fun s => get_element n G s name) schemas.

(** Dictionary keyed by location (which may be None). *)
Definition loc_eqb (a b : option string) : bool :=
  match a, b with
  | Some x, Some y => String.eqb x y
  | None, None => true
  | _, _ => false
  end.
Definition loc_in {A} (l : option string) (seen : list (option string * A)) : bool :=
  existsb (fun p => loc_eqb l (fst p)) seen.
Fixpoint loc_get {A} (l : option string) (seen : list (option string * A)) : option A :=
  match seen with
  | [] => None
  | (k, v) :: t => if loc_eqb l k then Some v else loc_get l t
  end.

(** walk_schema_tree, utils.py:183-191.  [seen] is the dictionary built so far;
    [calls] lists the schemas the callback has been called with.  The callback
    may raise. *)
Fixpoint walk {A} (n : nat) (G : sgraph) (callback : nat -> res A) (schemas : list nat)
    (st : list (option string * A) * list nat) : res (list (option string * A) * list nat) :=
  match n with
  | O => Err RecursionError
  | S n' =>
      foldM (fun st s =>
        foldM (fun st item =>
          let loc := s_location (G item) in
          if loc_in loc (fst st) then Ok st
          else
            a <- callback item ;;
            walk n' G callback [item] (fst st ++ [(loc, a)], snd st ++ [item]))
          st (s_children (G s))) st schemas
  end.
Definition walk_schema_tree {A} (n : nat) (G : sgraph) (callback : nat -> res A) (schemas : list nat)
    : res (list (option string * A) * list nat) :=
  walk n G callback schemas ([], []).
