(** Object identity: instances, TypedLists and the cached types of Element
    objects as cells of a heap (/repo/soapfish/xsd.py:572-591, 695-764, 785-793,
    868-886).  XsdComplex.v has the same code with values as trees; here two
    instances can refer to the same list.

    Simplifications:
    - a value that is neither an instance nor a list is immutable, also as the
      default of an Element;
    - what [accept] decides depends on the class of an instance only, and it
      returns the instance itself;
    - [_xmlelement] is not modelled. *)
From Coq Require Import String Ascii List ZArith NArith Bool.
From Verif Require Import PyBase PyVal XsdSimple XsdComplex.
Import ListNotations.
Open Scope nat_scope.
Open Scope string_scope.
Open Scope list_scope.

Definition loc := nat.
(** A value: immutable, or the address of a cell. *)
Inductive hval := HV (v : pyval) | HL (l : loc).
(** An instance of a class; a list: the TypedList of an Element object with its
    number, or a plain one. *)
Inductive cell :=
| CObj (cls : string) (dict : list (string * hval))
| CList (element : option (nat * field)) (items : list hval).

(** The heap, and the attribute [_type] of the Element objects by number. *)
Record hstate := mkHS { hs_heap : list cell; hs_types : nat -> option loc }.

(** Computations that may raise. *)
Definition M (A : Type) : Type := hstate -> hstate * res A.
Definition ret {A} (a : A) : M A := fun s => (s, Ok a).
Definition fail {A} (e : exn) : M A := fun s => (s, Err e).
Definition lift {A} (r : res A) : M A := fun s => (s, r).
Definition bindM {A B} (m : M A) (f : A -> M B) : M B := fun s =>
  match m s with
  | (s', Ok a) => f a s'
  | (s', Err e) => (s', Err e)
  end.
Notation "x <-- m ;; k" := (bindM m (fun x => k)) (at level 61, m at next level, right associativity).
Fixpoint forM {A} (f : A -> M unit) (l : list A) : M unit :=
  match l with [] => ret tt | x :: t => _ <-- f x ;; forM f t end.

Definition alloc (c : cell) : M loc := fun s =>
  (mkHS (hs_heap s ++ [c]) (hs_types s), Ok (length (hs_heap s))).
Definition load (l : loc) : M cell := fun s =>
  (s, match nth_error (hs_heap s) l with Some c => Ok c | None => Err (Exn (EOther "dangling") "") end).
Fixpoint update {A} (l : list A) (i : nat) (x : A) : list A :=
  match l, i with
  | [], _ => []
  | _ :: t, O => x :: t
  | y :: t, S i' => y :: update t i' x
  end.
Definition store (l : loc) (c : cell) : M unit := fun s =>
  (mkHS (update (hs_heap s) l c) (hs_types s), Ok tt).
Definition cached (id : nat) : M (option loc) := fun s => (s, Ok (hs_types s id)).
Definition cache (id : nat) (l : loc) : M unit := fun s =>
  (mkHS (hs_heap s) (fun i => if (i =? id)%nat then Some l else hs_types s i), Ok tt).

Section H.
  Variable O : oracle.
  Variable E : env.
  (** The number of the Element object that is the field of this name of this
      class. *)
  Variable num : string -> string -> nat.

  (** What [accept] sees of a value. *)
  Definition outside (v : hval) : M pyval :=
    match v with
    | HV v => ret v
    | HL l => c <-- load l ;; ret (match c with CObj cls _ => VObj cls None [] | CList _ _ => VList true [] end)
    end.
  (** The value that is kept: what accept returns, or the very object. *)
  Definition kept (v : hval) (v' : pyval) : hval := match v with HV _ => HV v' | HL l => HL l end.

  (** [cls()] for a class, see [hnew]. *)
  Variable rec : string -> M loc.

  (** Element._evaluate_type, 572-579, for a class-valued type: an instance is
      made when first needed and kept. *)
  Definition evaluate (id : nat) (f : field) : M (option loc) :=
    c <-- cached id ;;
    match c with
    | Some p => ret (Some p)
    | None => match f_type f with
              | TSimple _ => ret None
              | TComplex ct => p <-- rec ct ;; _ <-- cache id p ;; ret (Some p)
              end
    end.

  (** [copy.copy(instance)]: a new instance (via __new__) whose attributes are
      then overwritten with those of the original. *)
  Definition shallow_copy (p : loc) : M loc :=
    c <-- load p ;;
    match c with
    | CObj ct dict =>
        q <-- rec ct ;;
        c' <-- load q ;;
        match c' with
        | CObj _ dict' => _ <-- store q (CObj ct (fold_left (fun d b => assoc_set (fst b) (snd b) d) dict dict')) ;; ret q
        | CList _ _ => fail TypeError
        end
    | CList _ _ => fail TypeError
    end.

  (** empty_value: Element 581-588, Ref 721-723, Content 745-746, ListElement
      792-793. *)
  Definition empty_value (id : nat) (f : field) : M hval :=
    match f_kind f with
    | KList => l <-- alloc (CList (Some (id, f)) []) ;; ret (HL l)
    | KRef => p <-- evaluate id f ;;
              match p with
              | Some p => q <-- shallow_copy p ;; ret (HL q)
              | None => ret (HV (VOther "SimpleType"))
              end
    | KContent => ret (HV VNone)
    | _ => ret (HV (f_default f))
    end.

  (** ComplexType.__setattr__, 878-886, on the instance at [l]. *)
  Definition hset (l : loc) (name : string) (v : hval) : M unit :=
    c <-- load l ;;
    match c with
    | CObj cls _ =>
        d <-- lift (get_class E cls) ;;
        f <-- lift (find_field (cd_fields d) name) ;;
        _ <-- match f_kind f with KList => ret None | _ => evaluate (num cls (f_name f)) f end ;;
        x <-- outside v ;;
        y <-- lift (field_accept O E f x) ;;
        c <-- load l ;;
        match c with
        | CObj cls dict => store l (CObj cls (assoc_set name (kept v y) dict))
        | CList _ _ => fail AttributeError
        end
    | CList _ _ => fail AttributeError
    end.

  (** TypedList.append, 754-764; [append] of a plain list. *)
  Definition happend (l : loc) (v : hval) : M unit :=
    c <-- load l ;;
    match c with
    | CList (Some (id, f)) _ =>
        _ <-- evaluate id f ;;
        x <-- outside v ;;
        y <-- lift (match x with
                    | VNil => if f_nillable f then Ok VNil else Err ValueError
                    | _ => type_accept O E (f_type f) x
                    end) ;;
        c <-- load l ;;
        match c with
        | CList e items =>
            if exceeds (Z.of_nat (length items) + 1) (f_max f) then fail ValueError
            else store l (CList e (items ++ [kept v y]))
        | CObj _ _ => fail AttributeError
        end
    | CList None items => store l (CList None (items ++ [v]))
    | CObj _ _ => fail AttributeError
    end.
End H.

(** ComplexType.__new__, 868-872; [n] is the recursion limit. *)
Fixpoint hnew (n : nat) (O : oracle) (E : env) (num : string -> string -> nat) (c : string) : M loc :=
  match n with
  | O => fail RecursionError
  | S n' =>
      d <-- lift (get_class E c) ;;
      l <-- alloc (CObj c []) ;;
      _ <-- forM (fun f =>
              v <-- empty_value (hnew n' O E num) (num c (f_name f)) f ;;
              hset O E num (hnew n' O E num) l (f_name f) v) (cd_fields d) ;;
      ret l
  end.

(** ** Programs *)

(** A value in a program: a literal (immutable) or a variable. *)
Inductive arg := Lit (v : pyval) | Var (x : string).
(** Statements: [x = cls()], [x = [...]], [x = y.name], [x = y[i]],
    [x.name = a], [x.append(a)], and any other way of changing a list in place. *)
Inductive stmt :=
| SNew (x : string) (cls : string)
| SList (x : string) (items : list arg)
| SGet (x y name : string)
| SItem (x y : string) (i : nat)
| SSet (x name : string) (a : arg)
| SAppend (x : string) (a : arg)
| SReplace (x : string) (items : list arg).

(** The program of several parties, each with variables of its own. *)
Record machine := mkMachine { m_state : hstate; m_vars : nat -> list (string * hval) }.
Definition boot : machine := mkMachine (mkHS [] (fun _ => None)) (fun _ => []).

Section P.
  Variable n : nat.
  Variable O : oracle.
  Variable E : env.
  Variable num : string -> string -> nat.
  Let new := hnew n O E num.

  Definition var (vs : list (string * hval)) (x : string) : M hval :=
    match assoc x vs with Some v => ret v | None => fail NameError end.
  Definition eval_arg (vs : list (string * hval)) (a : arg) : M hval :=
    match a with Lit v => ret (HV v) | Var x => var vs x end.
  Fixpoint eval_args (vs : list (string * hval)) (l : list arg) : M (list hval) :=
    match l with
    | [] => ret []
    | a :: t => v <-- eval_arg vs a ;; r <-- eval_args vs t ;; ret (v :: r)
    end.
  Definition addr (v : hval) : M loc := match v with HL l => ret l | HV _ => fail AttributeError end.

  (** A statement: what it assigns to its variable, if anything. *)
  Definition run (vs : list (string * hval)) (s : stmt) : M (option (string * hval)) :=
    match s with
    | SNew x c => l <-- new c ;; ret (Some (x, HL l))
    | SList x items => vals <-- eval_args vs items ;; l <-- alloc (CList None vals) ;; ret (Some (x, HL l))
    | SGet x y name =>
        v <-- var vs y ;; l <-- addr v ;; c <-- load l ;;
        match c with
        | CObj _ dict => match assoc name dict with Some v => ret (Some (x, v)) | None => fail AttributeError end
        | CList _ _ => fail AttributeError
        end
    | SItem x y i =>
        v <-- var vs y ;; l <-- addr v ;; c <-- load l ;;
        match c with
        | CList _ items => match nth_error items i with Some v => ret (Some (x, v)) | None => fail IndexError end
        | CObj _ _ => fail TypeError
        end
    | SSet x name a => v <-- var vs x ;; l <-- addr v ;; b <-- eval_arg vs a ;; _ <-- hset O E num new l name b ;; ret None
    | SAppend x a => v <-- var vs x ;; l <-- addr v ;; b <-- eval_arg vs a ;; _ <-- happend O E new l b ;; ret None
    | SReplace x items =>
        v <-- var vs x ;; l <-- addr v ;; vals <-- eval_args vs items ;; c <-- load l ;;
        match c with
        | CList e _ => _ <-- store l (CList e vals) ;; ret None
        | CObj _ _ => fail TypeError
        end
    end.

  (** One step of party [k]; a statement that raises keeps the effects it had. *)
  Definition step (m : machine) (k : nat) (s : stmt) : machine :=
    match run (m_vars m k) s (m_state m) with
    | (st, Ok (Some (x, v))) =>
        mkMachine st (fun j => if (j =? k)%nat then assoc_set x v (m_vars m j) else m_vars m j)
    | (st, _) => mkMachine st (m_vars m)
    end.
  Definition run_all (p : list (nat * stmt)) : machine := fold_left (fun m q => step m (fst q) (snd q)) p boot.
End P.

(** ** Observation *)
(** What a party sees at the end of a path of attributes and indices from one of
    its variables. *)
Inductive access := Attr (name : string) | Index (i : nat).
Inductive sight := Value (v : pyval) | Instance (cls : string) | Items (len : nat) | Nothing.
Fixpoint look (h : list cell) (v : hval) (path : list access) : sight :=
  match path with
  | [] => match v with
          | HV v => Value v
          | HL l => match nth_error h l with
                    | Some (CObj c _) => Instance c
                    | Some (CList _ items) => Items (length items)
                    | None => Nothing
                    end
          end
  | a :: rest =>
      match v with
      | HV _ => Nothing
      | HL l => match nth_error h l, a with
                | Some (CObj _ dict), Attr name =>
                    match assoc name dict with Some v' => look h v' rest | None => Nothing end
                | Some (CList _ items), Index i =>
                    match nth_error items i with Some v' => look h v' rest | None => Nothing end
                | _, _ => Nothing
                end
      end
  end.
Definition sees (m : machine) (k : nat) (x : string) (path : list access) : sight :=
  match assoc x (m_vars m k) with
  | Some v => look (hs_heap (m_state m)) v path
  | None => Nothing
  end.
