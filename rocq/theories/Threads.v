(** Several threads in the type layer (/repo/soapfish/xsd.py:528-579, 754-764).

    A step of a thread is one reading or one writing of an attribute that other
    threads can see; between two steps any other thread can run.  That is what
    the language promises: the interpreter's lock makes fewer schedules possible.

    Simplifications:
    - a class object is made in one step apart from the types its [__new__]
      evaluates (868-872), and the empty values of its fields are accepted;
    - the recursion limit is left out (C65). *)
From Coq Require Import String Ascii List ZArith NArith Bool.
From Verif Require Import PyBase PyVal XsdComplex.
Import ListNotations.
Open Scope nat_scope.
Open Scope string_scope.
Open Scope list_scope.

(** ** Element._evaluate_type *)

(** An instance of a type class: made by a thread, or in the source (None). *)
Record instance := mkInst { in_class : string; in_maker : option nat }.
(** What an Element is given as its type: a dotted name, a class, an instance. *)
Inductive given := GName (path : string) | GClass (c : string) | GInstance (i : instance).

(** The attributes [_passed_type] and [_type] of an Element object (567-568). *)
Record slot := mkSlot { sl_passed : given; sl_type : option instance }.
Definition memory := nat -> slot.
Definition put (m : memory) (e : nat) (s : slot) : memory := fun i => if (i =? e)%nat then s else m i.

(** Where a thread is in [_evaluate_type] (572-579) and the use of [_type] after
    it (593-602): the next thing it does. *)
Inductive point :=
| TestType                      (* self._type is None *)
| TestName                      (* isinstance(self._passed_type, str) *)
| ReadName                      (* the argument self._passed_type of import_type *)
| Import (g : given)            (* import_type(...) *)
| StoreClass (g : given)        (* self._passed_type = ... *)
| TestInstance                  (* isinstance(self._passed_type, Type) *)
| ReadInstance                  (* self._passed_type, to be assigned *)
| ReadClass                     (* self._passed_type, to be called *)
| Call (g : given)              (* (...)() *)
| StoreType (i : instance)      (* self._type = ... *)
| Use.                          (* self._type.accept(...) *)

(** Evaluating the type of the Element number [e]; making an instance of a class,
    with the Element objects whose types are still to be evaluated. *)
Inductive frame :=
| Evaluate (e : nat) (at_ : point)
| Construct (c : string) (todo : list nat).
Inductive thread :=
| Running (stack : list frame)
| Finished (i : instance)
| Raised (e : exn).

Section T.
  (** [getattr(importlib.import_module(module), name)] of a dotted name; the
      Element objects whose types a call of a class evaluates, in order. *)
  Variable attribute : string -> res given.
  Variable fields : string -> list nat.

  (** import_type, 528-533; [in] on a class or an instance is a TypeError. *)
  Definition import_type (g : given) : res given :=
    match g with
    | GName path => if char_in "." path then attribute path else Err ValueError
    | _ => Err TypeError
    end.

  (** One step of thread [k], whose innermost call is [f]. *)
  Definition advance (k : nat) (m : memory) (f : frame) (rest : list frame) : memory * thread :=
    match f with
    | Construct c (e :: todo) => (m, Running (Evaluate e TestType :: Construct c todo :: rest))
    | Construct c [] =>
        match rest with
        | Evaluate e _ :: rest' => (m, Running (Evaluate e (StoreType (mkInst c (Some k))) :: rest'))
        | _ => (m, Finished (mkInst c (Some k)))
        end
    | Evaluate e p =>
        let goto q := (m, Running (Evaluate e q :: rest)) in
        match p with
        | TestType => match sl_type (m e) with None => goto TestName | Some _ => goto Use end
        | TestName => match sl_passed (m e) with GName _ => goto ReadName | _ => goto TestInstance end
        | ReadName => goto (Import (sl_passed (m e)))
        | Import g => match import_type g with Ok g' => goto (StoreClass g') | Err x => (m, Raised x) end
        | StoreClass g => (put m e (mkSlot g (sl_type (m e))), Running (Evaluate e TestInstance :: rest))
        | TestInstance => match sl_passed (m e) with GInstance _ => goto ReadInstance | _ => goto ReadClass end
        | ReadInstance => match sl_passed (m e) with
                          | GInstance i => goto (StoreType i)
                          | _ => (m, Raised TypeError)
                          end
        | ReadClass => goto (Call (sl_passed (m e)))
        | Call g => match g with
                    | GClass c => (m, Running (Construct c (fields c) :: Evaluate e p :: rest))
                    | _ => (m, Raised TypeError)
                    end
        | StoreType i => (put m e (mkSlot (sl_passed (m e)) (Some i)), Running (Evaluate e Use :: rest))
        | Use => match sl_type (m e) with
                 | None => (m, Raised AttributeError)
                 | Some i => match rest with [] => (m, Finished i) | _ => (m, Running rest) end
                 end
        end
    end.

  (** The Element objects and the threads. *)
  Record tstate := mkTS { ts_mem : memory; ts_threads : nat -> thread }.
  Definition move (s : tstate) (k : nat) : tstate :=
    match ts_threads s k with
    | Running (f :: rest) =>
        let (m, t) := advance k (ts_mem s) f rest in
        mkTS m (fun i => if (i =? k)%nat then t else ts_threads s i)
    | _ => s
    end.
  (** A schedule: which thread makes each step. *)
  Definition moves (s : tstate) (schedule : list nat) : tstate := fold_left move schedule s.
  (** What a thread does: use the Element number [e], or make an instance. *)
  Inductive job := Uses (e : nat) | Makes (c : string).
  Definition launch (m : memory) (jobs : nat -> job) : tstate :=
    mkTS m (fun k => Running [match jobs k with
                              | Uses e => Evaluate e TestType
                              | Makes c => Construct c (fields c)
                              end]).
End T.

(** ** Element.__init__ *)

(** [self._creation_number = Element._creation_counter] and
    [Element._creation_counter += 1] (565-566).  The second statement reads and
    writes; [whole]: nothing comes in between. *)
Inductive count_point := ReadNumber | AddRead | AddStore (n : nat).
(** The creation numbers of the Element objects a thread has made, in order; how
    many it still makes; the next thing it does. *)
Record maker := mkMaker { mk_numbers : list nat; mk_todo : nat; mk_at : count_point }.
Record cstate := mkCS { cs_counter : nat; cs_makers : nat -> maker }.

Definition count_step (whole : bool) (s : cstate) (k : nat) : cstate :=
  let t := cs_makers s k in
  let set n t := mkCS n (fun i => if (i =? k)%nat then t else cs_makers s i) in
  let n := cs_counter s in
  match mk_at t, mk_todo t with
  | ReadNumber, O => s
  | ReadNumber, S _ => set n (mkMaker (mk_numbers t ++ [n]) (mk_todo t) AddRead)
  | AddRead, todo => if whole then set (S n) (mkMaker (mk_numbers t) (pred todo) ReadNumber)
                     else set n (mkMaker (mk_numbers t) todo (AddStore n))
  | AddStore n', todo => set (S n') (mkMaker (mk_numbers t) (pred todo) ReadNumber)
  end.
Definition count_all (whole : bool) (s : cstate) (schedule : list nat) : cstate :=
  fold_left (count_step whole) schedule s.
(** Thread [k] makes [makes k] Element objects; [n] is the counter before. *)
Definition count_start (n : nat) (makes : nat -> nat) : cstate :=
  mkCS n (fun k => mkMaker [] (makes k) ReadNumber).

(** ** TypedList.append *)

(** [append] of values that have been accepted (754-764): the comparison with
    maxOccurs (762) and the call of [list.append] (764) are two steps.  A thread
    has the values it still appends, whether the next one has passed the
    comparison, and how many it was refused (ValueError). *)
Record appender := mkApp { ap_todo : list pyval; ap_passed : bool; ap_refused : nat }.
Record lstate := mkLS { ls_items : list pyval; ls_threads : nat -> appender }.

Definition append_step (max : occurs) (s : lstate) (k : nat) : lstate :=
  let t := ls_threads s k in
  let set l t := mkLS l (fun i => if (i =? k)%nat then t else ls_threads s i) in
  match ap_todo t with
  | [] => s
  | v :: todo =>
      if ap_passed t then set (ls_items s ++ [v]) (mkApp todo false (ap_refused t))
      else if exceeds (Z.of_nat (length (ls_items s)) + 1) max
      then set (ls_items s) (mkApp todo false (S (ap_refused t)))
      else set (ls_items s) (mkApp (v :: todo) true (ap_refused t))
  end.
Definition append_all (max : occurs) (s : lstate) (schedule : list nat) : lstate :=
  fold_left (append_step max) schedule s.
(** Thread [k] appends the values [work k] to the list [l]. *)
Definition append_start (l : list pyval) (work : nat -> list pyval) : lstate :=
  mkLS l (fun k => mkApp (work k) false 0).
