(** Vocabulary for histories of Service.route. *)
From Coq Require Import String List Bool Arith.
From Verif Require Import PyBase Dispatch Client SpecDispatch Route.
Import ListNotations.
Open Scope string_scope.
Open Scope list_scope.

(** The operations of the decorators a program has after [h], in a service with
    the operations [known]: one for each call of route that names one of them. *)
Fixpoint decorators (known : list string) (h : list routing) : list string :=
  match h with
  | [] => []
  | RRoute op :: h' => if in_dec string_dec op known then op :: decorators known h' else decorators known h'
  | RBind _ _ :: h' => decorators known h'
  end.
(** After [h] comes a call that binds [f] to [op]. *)
Definition binds (known : list string) (h : list routing) (e : routing) (op f : string) : Prop :=
  exists k, e = RBind k f /\ nth_error (decorators known h) k = Some op.
(** [f] is the function bound last to [op] in [h]. *)
Definition bound_last (known : list string) (h : list routing) (op f : string) : Prop :=
  exists h1 e h2, h = h1 ++ e :: h2 /\ binds known h1 e op f /\
    forall h3 e' h4 g, h2 = h3 ++ e' :: h4 -> ~ binds known (h1 ++ e :: h3) e' op g.
Definition never_bound (known : list string) (h : list routing) (op : string) : Prop :=
  forall h1 e h2 g, h = h1 ++ e :: h2 -> ~ binds known h1 e op g.
(** Equal up to the function. *)
Definition same_but_function (m m' : method) : Prop :=
  m_op m' = m_op m /\ m_action m' = m_action m /\ m_in m' = m_in m /\ m_out m' = m_out m /\ m_ih m' = m_ih m /\ m_oh m' = m_oh m.
(** The dispatcher, its service having the methods [ms]. *)
Definition with_methods {W} (D : dispatcher W) (ms : list method) : dispatcher W :=
  mkDisp (mkService (sv_version (d_service D)) (sv_schemas (d_service D)) ms (sv_ih (d_service D)) (sv_fns (d_service D)))
    (d_middlewares D) (d_hooks D) (d_wsdl D) (d_xsds D) (d_strict D).
