(** The orders in which the code generators emit schemas and types:
    wsdl2py.reorder_schemas (/repo/soapfish/wsdl2py.py:21-34) and
    xsd2py._reorder_complexTypes (/repo/soapfish/xsd2py.py:79-118). *)
From Coq Require Import String Ascii List ZArith NArith Bool.
From Verif Require Import PyBase PyVal.
Import ListNotations.
Open Scope nat_scope.
Open Scope string_scope.
Open Scope list_scope.

(** ** reorder_schemas *)

(** What it reads of a Schema: the target namespace and the namespaces of the
    imports.  [sd_code] is the object itself. *)
Record schema_doc := mkSD { sd_target : option string; sd_imports : list (option string); sd_code : pyval }.

(** [n in targets] *)
Definition ns_eqb (a b : option string) : bool :=
  match a, b with
  | None, None => true
  | Some s, Some t => String.eqb s t
  | _, _ => false
  end.
Definition ns_in (n : option string) (targets : list (option string)) : bool := existsb (ns_eqb n) targets.
(** [if l:] *)
Definition nonempty {A} (l : list A) : bool := match l with [] => false | _ => true end.

(** The loop, wsdl2py.py:23-34: [x] is the deque. *)
Fixpoint reorder_loop (counter : nat) (x schemas : list schema_doc) (targets : list (option string)) : list schema_doc :=
  match counter, x with
  | S counter', schema :: x' =>
      let ns := sd_imports schema in
      if nonempty x' && nonempty ns && nonempty (filter (fun n => negb (ns_in n targets)) ns)
      then reorder_loop counter' (x' ++ [schema]) schemas targets
      else reorder_loop counter' x' (schemas ++ [schema]) (sd_target schema :: targets)
  | _, _ => schemas ++ x
  end.
Definition reorder_schemas (schemas : list schema_doc) : list schema_doc :=
  reorder_loop (length schemas) schemas [] [].

(** ** _reorder_complexTypes *)

(** What it reads of a complex type: its name and, if it has complexContent, the
    bases of its extension and restriction.  Simplification: a type always has
    a name, and an extension or restriction a base (both are required in XSD);
    [xt_code] is the object itself. *)
Record xsd_type := mkXT { xt_name : string; xt_content : option (option string * option string); xt_code : pyval }.

(** The dictionary [weights]. *)
Definition weights := list (string * (Z * string)).

(** xsd2py.py:81-95.  [base] keeps its value where complexContent has neither
    extension nor restriction; before its first assignment that is an
    UnboundLocalError. *)
Fixpoint make_weights (n : Z) (base : option string) (w : weights) (types : list xsd_type) : res weights :=
  match types with
  | [] => Ok w
  | t :: rest =>
      let base' := match xt_content t with
                   | Some (Some e, _) => Some e
                   | Some (None, Some r) => Some r
                   | Some (None, None) => base
                   | None => Some ""
                   end in
      match base' with
      | Some b => make_weights (n + 1) base' (assoc_set (xt_name t) (n, b) w) rest
      | None => Err (Exn EUnboundLocalError "")
      end
  end.

Definition colon : ascii := ":"%char.
(** [weights[name]] *)
Definition weight (w : weights) (name : string) : res (Z * string) :=
  match assoc name w with Some p => Ok p | None => Err KeyError end.

(** _cmp, xsd2py.py:97-116, on names; [n] is the recursion limit. *)
Fixpoint cmp (n : nat) (w : weights) (a b : string) : res Z :=
  match n with
  | O => Err RecursionError
  | S n' =>
      wa <- weight w a ;;
      wb <- weight w b ;;
      let base_a := snd wa in
      let base_b := snd wb in
      if String.eqb base_a "" && String.eqb base_b "" then Ok (fst wa - fst wb)%Z
      else if String.eqb b base_a || char_in colon base_a then Ok 1%Z
      else if String.eqb a base_b || char_in colon base_b then Ok (-1)%Z
      else cmp n' w (if String.eqb base_a "" then a else base_a) (if String.eqb base_b "" then b else base_b)
  end.

(** [x < y] for the keys made by cmp_to_key. *)
Definition type_lt (n : nat) (w : weights) (x y : xsd_type) : res bool :=
  res_map (fun z => (z <? 0)%Z) (cmp n w (xt_name x) (xt_name y)).

(** The method list.sort, given [<]. *)
Definition sorter : Type := (xsd_type -> xsd_type -> res bool) -> list xsd_type -> res (list xsd_type).

(** xsd2py.py:79-118 *)
Definition reorder_types (sort : sorter) (n : nat) (types : list xsd_type) : res (list xsd_type) :=
  w <- make_weights 0 None [] types ;;
  sort (type_lt n w) types.
