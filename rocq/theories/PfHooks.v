(** Proofs for C48 and C41, continued. *)
From Coq Require Import String Ascii List ZArith Bool.
From Verif Require Import PyBase Xml PyVal XsdSimple XsdComplex PyHttp Soap Dispatch SpecDispatch PfBase PfSoap PfDispatch PfDispatch2.
Import ListNotations.

Lemma hooks_refused good n rest :
  (forall m, In m good -> exists d, In d documented_hooks /\ String.prefix d m = true) ->
  ~ (exists d, In d documented_hooks /\ String.prefix d n = true) ->
  check_hooks (good ++ n :: rest) = Err (Exn EKeyError ("Invalid dispatcher hook name: " ++ n)%string).
Proof.
  intros G N. assert (S : forall n, hook_name_ok n = true <-> exists d, In d documented_hooks /\ String.prefix d n = true).
  { intros m. unfold hook_name_ok. apply existsb_exists. }
  unfold check_hooks. induction good as [|m good IH]; cbn [app foldM].
  - destruct (hook_name_ok n) eqn:E; [|reflexivity]. destruct N. now apply S.
  - rewrite (proj2 (S m) (G m (or_introl eq_refl))). cbn [bind]. apply IH. intros x I. apply G. now right.
Qed.

(** ** Content types *)
Lemma build_headers {W} P (D : dispatcher W) rq r rs : build_response P D rq r = Ok rs ->
  assoc "Content-Type" (rs_headers rs) = Some (media_type (sv_version (d_service D))) /\ (exists t, rs_content rs = Some t) /\
  (forall q, r = Ok q -> forall k, k <> "Content-Type"%string -> assoc k (rs_headers rs) = assoc k (rs_headers (as_response q))).
Proof.
  unfold build_response. intros H. apply bind_ok in H as (q & Hq & H).
  assert (X : exists st t, rs = set_resp D (as_response q) st t).
  { destruct (rs_body (as_response q)) as [v|c m a].
    - apply bind_ok in H as (m & Hm & H). destruct (m_out m); try discriminate. apply bind_ok in H as (x & Hx & H). injection H as <-. eauto.
    - apply bind_ok in H as (x & Hx & H). injection H as <-. eauto. }
  destruct X as (st & t & ->). split; [rewrite content_type_set; now destruct (sv_version (d_service D))|]. split; [now exists t|].
  intros q' -> k N. injection Hq as <-. cbn [set_resp rs_headers]. now apply assoc_set_other.
Qed.
Lemma soap_headers {W} P (D : dispatcher W) w rq w' tr rs : no_hooks D -> request_method rq "POST" -> dispatch P D w rq = (w', tr, Ok rs) ->
  assoc "Content-Type" (rs_headers rs) = Some (media_type (sv_version (d_service D))) /\ (exists t, rs_content rs = Some t) /\
  (forall s tr' q, stack P D (d_middlewares D) (w, rq) [] = (s, tr', Ok q) ->
     forall k, k <> "Content-Type"%string -> assoc k (rs_headers rs) = assoc k (rs_headers (as_response q))).
Proof.
  intros H R. rewrite (dispatch_soap _ _ _ _ _ R), (soap_no_hooks _ _ _ _ _ H).
  destruct (stack P D (d_middlewares D) (w, rq) []) as [[[w2 rq2] tr2] r]. intros [= <- <- Eb].
  apply build_headers in Eb as (A & B & C). split; [exact A|]. split; [exact B|]. intros s tr' q [= _ _ ->] k. now apply C.
Qed.
