(** C48, continued: names that are refused; C41, continued: content types. *)
From Coq Require Import String Ascii List ZArith Bool.
From Verif Require Import PyBase Xml PyVal PyHttp Soap Dispatch SpecDispatch ExSoap PfHooks.
Import ListNotations.

(** The first name that does not begin with a documented one is refused, with a
    KeyError naming it, whatever comes after it. *)
Theorem C48_refused : forall good n rest,
  (forall m, In m good -> exists d, In d documented_hooks /\ String.prefix d m = true) ->
  ~ (exists d, In d documented_hooks /\ String.prefix d n = true) ->
  check_hooks (good ++ n :: rest) = Err (Exn EKeyError ("Invalid dispatcher hook name: " ++ n)%string).
Proof. exact hooks_refused. Qed.
Print Assumptions C48_refused.
Example C48_refused_nonvacuous :
  In "xsd-request"%string documented_hooks /\
  ~ (exists d, In d documented_hooks /\ String.prefix d "soap_request" = true) /\
  check_hooks ["xsd-request"; "soap_request"; "other"]%string = Err (Exn EKeyError "Invalid dispatcher hook name: soap_request").
Proof.
  split; [cbn; tauto|]. split; [|reflexivity]. intros (d & I & H). cbn in I.
  repeat (destruct I as [<-|I]; [discriminate|]). exact I.
Qed.

(** Every answer to a SOAP request, fault or not, has a content and the content
    type of the service's version of SOAP, and the other headers the handler or
    the middlewares set. *)
Theorem C41_content_type : forall W P (D : dispatcher W) w rq w' tr rs,
  no_hooks D -> request_method rq "POST" -> dispatch P D w rq = (w', tr, Ok rs) ->
  assoc "Content-Type" (rs_headers rs) = Some (media_type (sv_version (d_service D))) /\ (exists t, rs_content rs = Some t) /\
  (forall s tr' q, stack P D (d_middlewares D) (w, rq) [] = (s, tr', Ok q) ->
     forall k, k <> "Content-Type"%string -> assoc k (rs_headers rs) = assoc k (rs_headers (as_response q))).
Proof. exact @soap_headers. Qed.
Print Assumptions C41_content_type.
Example C41_content_type_nonvacuous :
  no_hooks (echo_D [] []) /\ request_method (echo_post "" "hello") "POST" /\
  match dispatch echo_P (echo_D [] []) [] (echo_post "" "hello") with
  | (_, _, Ok rs) => assoc "Content-Type" (rs_headers rs) = Some "text/xml"%string
  | _ => False
  end.
Proof. split; [reflexivity|]. split; [|vm_compute; reflexivity]. vm_compute. reflexivity. Qed.
