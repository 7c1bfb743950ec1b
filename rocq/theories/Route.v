(** Binding functions to the methods of a service: Service.route (soap.py:69-77). *)
From Coq Require Import String List Bool Arith.
From Verif Require Import PyBase Dispatch Client.
Import ListNotations.
Open Scope string_scope.
Open Scope list_scope.

(** [method.function = func] *)
Definition set_fn (f : string) (m : method) : method :=
  mkMethod (m_op m) (m_action m) (m_in m) (m_out m) (m_ih m) (m_oh m) (Some f).
Fixpoint change {A} (k : nat) (g : A -> A) (l : list A) : list A :=
  match l, k with
  | [], _ => []
  | a :: l', O => g a :: l'
  | a :: l', S k' => a :: change k' g l'
  end.
(** get_method, soap.py:58-59, as the place of the object found: the list holds
    objects, and the decorator keeps a reference to one of them.  (No object is
    in the list twice.) *)
Fixpoint place_of (methods : list method) (operation : string) : res nat :=
  match methods with
  | [] => Err (Exn EStopIteration "")
  | m :: l => if String.eqb (m_op m) operation then Ok 0 else bind (place_of l operation) (fun k => Ok (S k))
  end.

(** What a program can do: [d = service.route(operation)], and [d(func)] for the
    decorator it got from the [k]th successful call of route. *)
Inductive routing :=
| RRoute (operation : string)
| RBind (k : nat) (func : string).
(** The methods, and the methods the decorators refer to. *)
Definition rstate := (list method * list nat)%type.
(** route and wrapper, soap.py:69-77: wrapper returns the function it is given.
    The program keeps its decorators in a list: IndexError if there are fewer. *)
Definition do_routing (s : rstate) (e : routing) : rstate * res (option string) :=
  let (ms, ds) := s in
  match e with
  | RRoute op => match place_of ms op with Ok k => ((ms, ds ++ [k]), Ok None) | Err er => (s, Err er) end
  | RBind k f => match nth_error ds k with Some i => ((change i (set_fn f) ms, ds), Ok (Some f)) | None => (s, Err IndexError) end
  end.
Fixpoint run_routing (s : rstate) (h : list routing) : rstate :=
  match h with
  | [] => s
  | e :: h' => run_routing (fst (do_routing s e)) h'
  end.
(** The methods after [h]. *)
Definition routed (ms : list method) (h : list routing) : list method := fst (run_routing (ms, []) h).
