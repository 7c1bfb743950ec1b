(** C88: binding functions to operations. *)
From Coq Require Import String List Bool Arith.
From Verif Require Import PyBase Xml PyVal XsdSimple XsdComplex XsdSchema PyHttp Soap Dispatch Client Route
  SpecParse SpecSoap SpecDispatch SpecRoute PfRoute ExEnv ExSoap.
Import ListNotations.
Open Scope nat_scope.
Open Scope string_scope.
Open Scope list_scope.

(** ** C88 *)
(** After any history of calls of Service.route and of the decorators they
    returned, in any order, the method found for an operation is the same object
    with the function bound to that operation last. *)
Theorem C88_last :
  forall ms h op m, first_with (fun m => m_op m = op) ms m ->
  exists m', first_with (fun m => m_op m = op) (routed ms h) m' /\ same_but_function m m' /\
    (forall f, bound_last (map m_op ms) h op f -> m_fn m' = Some f) /\ (never_bound (map m_op ms) h op -> m_fn m' = m_fn m).
Proof. exact route_last. Qed.
Print Assumptions C88_last.
(** These are the only two cases, and there is only one last function. *)
Theorem C88_decided :
  forall known h op, ((exists f, bound_last known h op f) \/ never_bound known h op) /\
  (forall f g, bound_last known h op f -> bound_last known h op g -> f = g) /\
  (forall f, bound_last known h op f -> ~ never_bound known h op).
Proof. exact (fun known h op => conj (bound_or_never known h op) (conj (bound_one known h op) (bound_not_never known h op))). Qed.
Print Assumptions C88_decided.
(** All other methods are as before: those of operations never bound, and those
    that come after another method with the same operation name. *)
Theorem C88_frame :
  forall ms h, length (routed ms h) = length ms /\
  forall i m, nth_error ms i = Some m ->
    never_bound (map m_op ms) h (m_op m) \/ (exists j m0, j < i /\ nth_error ms j = Some m0 /\ m_op m0 = m_op m) -> nth_error (routed ms h) i = Some m.
Proof. exact route_frame. Qed.
Print Assumptions C88_frame.
(** An operation the service does not have: StopIteration, at the call of route,
    and nothing changes. *)
Theorem C88_unknown :
  forall ms h op, ~ In op (map m_op ms) ->
  do_routing (run_routing (ms, []) h) (RRoute op) = (run_routing (ms, []) h, Err (Exn EStopIteration "")).
Proof. exact route_unknown. Qed.
Print Assumptions C88_unknown.
(** Otherwise route succeeds, and the decorator returns the function it is given. *)
Theorem C88_returns :
  forall ms h, (forall op, In op (map m_op ms) -> snd (do_routing (run_routing (ms, []) h) (RRoute op)) = Ok None) /\
  forall k f op, nth_error (decorators (map m_op ms) h) k = Some op -> snd (do_routing (run_routing (ms, []) h) (RBind k f)) = Ok (Some f).
Proof. exact (fun ms h => conj (route_known ms h) (route_returns ms h)). Qed.
Print Assumptions C88_returns.
(** What a dispatcher calls afterwards, under any middlewares and hooks: the
    function bound last to an operation, with an argument of the type of that
    operation. *)
Theorem C88_dispatch :
  forall (W : Type) P (D : dispatcher W) ms h w rq w' tr r, NoDup (map m_op ms) ->
  dispatch P (with_methods D (routed ms h)) w rq = (w', tr, r) -> forall f body, In (ECalled f body) tr ->
  exists m t, In m ms /\ input_type P D m t /\ (exists x, pf_valid P x = Ok tt /\ read_as P t x = Ok body) /\
    (bound_last (map m_op ms) h (m_op m) f \/ never_bound (map m_op ms) h (m_op m) /\ m_fn m = Some f).
Proof. exact @route_dispatch. Qed.
Print Assumptions C88_dispatch.
(** The function a request reaches is the one bound last to the method of that
    request. *)
Theorem C88_reaches :
  forall (W : Type) P (D : dispatcher W) ms h rq rq' f, NoDup (map m_op ms) -> reaches_handler P (with_methods D (routed ms h)) rq rq' f ->
  exists m m', In m ms /\ same_but_function m m' /\ rq_method rq' = Some m' /\
    (bound_last (map m_op ms) h (m_op m) f \/ never_bound (map m_op ms) h (m_op m) /\ m_fn m = Some f).
Proof. exact @route_reaches. Qed.
Print Assumptions C88_reaches.

Definition plain_method (op : string) : method := mkMethod op ("urn:" ++ op) (IOName "echoRequest") (IOName "echoResponse") None None None.
(** Decorators used late, twice and out of order; an unknown operation between
    them; two methods with the same operation name. *)
Definition history : list routing := [RRoute "Echo"; RRoute "Ping"; RBind 1 "ping"; RBind 0 "first"; RRoute "Nope"; RRoute "Echo"; RBind 2 "second"; RBind 7 "lost"].
Example C88_nonvacuous :
  map m_fn (routed [plain_method "Idle"; plain_method "Echo"; plain_method "Ping"; plain_method "Echo"] history) = [None; Some "second"; Some "ping"; None] /\
  bound_last ["Idle"; "Echo"; "Ping"] history "Echo" "second" /\ never_bound ["Idle"; "Echo"; "Ping"] history "Idle" /\
  map m_fn (routed [plain_method "Idle"; plain_method "Echo"; plain_method "Ping"] (history ++ [RBind 0 "first"])) = [None; Some "first"; Some "ping"].
Proof.
  split; [reflexivity|]. split; [|split; [|reflexivity]].
  - exists [RRoute "Echo"; RRoute "Ping"; RBind 1 "ping"; RBind 0 "first"; RRoute "Nope"; RRoute "Echo"], (RBind 2 "second"), [RBind 7 "lost"].
    split; [reflexivity|]. split; [exists 2; split; reflexivity|]. intros [|e3 [|? ?]] e' h4 g E; try discriminate E. injection E as <- <-. intros (k & [= <- <-] & H). discriminate H.
  - intros h1 e h2 g E (k & -> & H). unfold history in E.
    repeat (destruct h1 as [|? h1]; [try discriminate E; injection E as <- <- <-; discriminate H|injection E as <- E]). destruct h1; discriminate E.
Qed.
(** A request to a service whose only function was bound by a history. *)
Example C88_dispatch_nonvacuous :
  NoDup (map m_op [plain_method "Echo"; plain_method "Ping"]) /\
  (let D := with_methods (echo_D [] []) (routed [plain_method "Echo"; plain_method "Ping"] history) in
   exists tr r, dispatch echo_P D [] (echo_post "" "hello") = (["hello"], tr, r) /\ exists b, In (ECalled "second" b) tr).
Proof.
  split; [cbn; repeat (constructor; [cbn; intuition discriminate|]); constructor|]. cbv zeta. eexists _, _. split; [vm_compute; reflexivity|]. eexists. cbn. auto.
Qed.
