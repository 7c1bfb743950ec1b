(** Reading envelopes and faults back. *)
From Coq Require Import String Ascii List ZArith NArith Bool Lia.
From Verif Require Import PyBase Xml PyVal XsdSimple XsdComplex PyHttp Soap SpecSoap PfBase PfSoap.
Import ListNotations.
Open Scope string_scope.
Open Scope list_scope.

Section P.
  Variable O : oracle.
  Variable U : string -> option classdef.
  Variable lim : nat.
  Notation E := (soap_env U lim).

  (** A class with two element fields and nothing else. *)
  Lemma parse_two n c mro k f1 f2 sch fs0 x :
    get_class E c = Ok (mkClass mro k [f1; f2] ISequence sch) -> new_instance O E c = Ok fs0 ->
    is_plain f1 = true -> is_plain f2 = true ->
    parse_obj (S n) O E c x =
    (subs1 <- find_sub f1 (el_children x) ;;
     fs1 <- foldM (fun fs s => parse_field O E (parse_obj n O E) [f1; f2] f1 fs s) fs0 subs1 ;;
     subs2 <- find_sub f2 (el_children x) ;;
     fs2 <- foldM (fun fs s => parse_field O E (parse_obj n O E) [f1; f2] f2 fs s) fs1 subs2 ;;
     Ok (VObj c (Some x) fs2)).
  Proof.
    intros G N P1 P2. cbn [parse_obj]. rewrite G. cbn [bind cd_fields cd_ind]. rewrite N. cbn [bind].
    assert (A : forall f, is_plain f = true -> is_attr f = false /\ is_group f = false).
    { unfold is_plain. intros f. destruct (is_attr f), (is_group f); auto. }
    destruct (A _ P1) as [A1 B1], (A _ P2) as [A2 B2].
    cbn [filter]. rewrite A1, A2, B1, B2, P1, P2. cbn [foldM bind].
    destruct (find_sub f1 _) as [s1|]; cbn [bind]; auto.
    destruct (foldM _ fs0 s1) as [fs1|]; cbn [bind]; auto.
    destruct (find_sub f2 _) as [s2|]; cbn [bind]; auto.
    destruct (foldM _ fs1 s2) as [fs2|]; cbn [bind]; auto.
  Qed.

  Definition header_field v := s_elem "Header" (TComplex (header_cls v)) 1 true None.
  Definition body_field v := s_elem "Body" (TComplex (body_cls v)) 1 false None.
  Definition fault_field v := s_elem "Fault" (TComplex (fault_cls v)) 0 false None.

  Lemma parse_envelope_eq n v x : parse_obj (S n) O E (envelope_cls v) x =
    (subs1 <- find_sub (header_field v) (el_children x) ;;
     fs1 <- foldM (fun fs s => parse_field O E (parse_obj n O E) (envelope_fields v) (header_field v) fs s) [("Header", VNone); ("Body", VNone)] subs1 ;;
     subs2 <- find_sub (body_field v) (el_children x) ;;
     fs2 <- foldM (fun fs s => parse_field O E (parse_obj n O E) (envelope_fields v) (body_field v) fs s) fs1 subs2 ;;
     Ok (VObj (envelope_cls v) (Some x) fs2)).
  Proof.
    unfold envelope_fields. fold (header_field v) (body_field v).
    eapply parse_two with (mro := [envelope_cls v; "ComplexType"]) (k := CKPlain) (sch := Some (env_si v)); auto; destruct v; reflexivity.
  Qed.
  Lemma parse_body_eq n v x : parse_obj (S n) O E (body_cls v) x =
    (subs1 <- find_sub message_field (el_children x) ;;
     fs1 <- foldM (fun fs s => parse_field O E (parse_obj n O E) (body_fields v) message_field fs s) [("message", VNone); ("Fault", VNone)] subs1 ;;
     subs2 <- find_sub (fault_field v) (el_children x) ;;
     fs2 <- foldM (fun fs s => parse_field O E (parse_obj n O E) (body_fields v) (fault_field v) fs s) fs1 subs2 ;;
     Ok (VObj (body_cls v) (Some x) fs2)).
  Proof.
    destruct (get_body U lim v) as (mro & G).
    unfold body_fields in *. fold (fault_field v) in *. eapply parse_two; eauto. destruct v; reflexivity.
  Qed.
  Lemma parse_header_eq n v x : parse_obj (S n) O E (header_cls v) x = Ok (VObj (header_cls v) (Some x) []).
  Proof. destruct v; reflexivity. Qed.

  Definition not_nil (x : node) : Prop := el_get x xsi_nil <> Some "true".
  Lemma nil_test x : not_nil x -> match el_get x xsi_nil with Some s => String.eqb s "true" | None => false end = false.
  Proof. unfold not_nil. destruct (el_get x xsi_nil) as [s|]; auto. intros H. apply String.eqb_neq. congruence. Qed.

  (** Reading a Header element into an envelope. *)
  Lemma parse_field_header n v h b x : not_nil x ->
    parse_field O E (parse_obj (S n) O E) (envelope_fields v) (header_field v) [("Header", h); ("Body", b)] x =
    Ok [("Header", VObj (header_cls v) (Some x) []); ("Body", b)].
  Proof.
    intros N. unfold parse_field, header_field, s_elem. cbn [f_kind f_name f_type]. rewrite (nil_test _ N).
    cbn [parse_type]. rewrite parse_header_eq. cbn [bind]. destruct v; reflexivity.
  Qed.
  Lemma parse_field_body n v h b x fs : not_nil x ->
    parse_obj n O E (body_cls v) x = Ok (VObj (body_cls v) (Some x) fs) ->
    parse_field O E (parse_obj n O E) (envelope_fields v) (body_field v) [("Header", h); ("Body", b)] x =
    Ok [("Header", h); ("Body", VObj (body_cls v) (Some x) fs)].
  Proof.
    intros N H. unfold parse_field, body_field, s_elem. cbn [f_kind f_name f_type]. rewrite (nil_test _ N).
    cbn [parse_type]. rewrite H. cbn [bind]. destruct v; reflexivity.
  Qed.

  (** What the dispatcher or a client gets from an envelope with at most one
      Header. *)
  Definition is_nil (x : node) : bool := match el_get x xsi_nil with Some s => String.eqb s "true" | None => false end.
  Definition read_header v (hx : list node) : pyval :=
    match hx with x :: _ => if is_nil x then VNil else VObj (header_cls v) (Some x) [] | [] => VNone end.

  Lemma parse_field_header' n v h b x :
    parse_field O E (parse_obj (S n) O E) (envelope_fields v) (header_field v) [("Header", h); ("Body", b)] x =
    Ok [("Header", read_header v [x]); ("Body", b)].
  Proof.
    unfold read_header. destruct (is_nil x) eqn:N.
    - unfold parse_field, header_field, s_elem. cbn [f_kind f_name f_type]. unfold is_nil in N. rewrite N. destruct v; reflexivity.
    - apply parse_field_header. unfold is_nil, not_nil in *. destruct (el_get x xsi_nil); [|discriminate]. apply String.eqb_neq in N. congruence.
  Qed.

  Lemma parse_soap_envelope n v hx ks fs : one_header v hx ->
    parse_obj (S n) O E (body_cls v) (Elem (clark (envelope_ns v) "Body") [] ks) = Ok (VObj (body_cls v) (Some (Elem (clark (envelope_ns v) "Body") [] ks)) fs) ->
    parse_obj (S (S n)) O E (envelope_cls v) (soap_envelope (envelope_ns v) hx ks) =
    Ok (VObj (envelope_cls v) (Some (soap_envelope (envelope_ns v) hx ks))
          [("Header", read_header v hx); ("Body", VObj (body_cls v) (Some (Elem (clark (envelope_ns v) "Body") [] ks)) fs)]).
  Proof.
    intros Hh Hb. rewrite parse_envelope_eq. set (B := Elem (clark (envelope_ns v) "Body") [] ks) in *.
    assert (C : el_children (soap_envelope (envelope_ns v) hx ks) = hx ++ [B]).
    { unfold el_children, soap_envelope. cbn [el_kids]. fold B. destruct Hh as [->|(a & k & ->)]; reflexivity. }
    rewrite C.
    assert (S1 : find_sub (header_field v) (hx ++ [B]) = Ok hx).
    { destruct Hh as [->|(a & k & ->)]; destruct v; reflexivity. }
    assert (S2 : find_sub (body_field v) (hx ++ [B]) = Ok [B]).
    { destruct Hh as [->|(a & k & ->)]; destruct v; reflexivity. }
    rewrite S1. cbn [bind].
    replace (foldM (fun fs0 s => parse_field O E (parse_obj (S n) O E) (envelope_fields v) (header_field v) fs0 s)
      [("Header", VNone); ("Body", VNone)] hx) with (@Ok (list (string * pyval)) [("Header", read_header v hx); ("Body", VNone)]).
    2:{ destruct Hh as [->|(a & k & ->)]; [reflexivity|]. cbn [foldM]. rewrite parse_field_header'. reflexivity. }
    cbn [bind]. rewrite S2. cbn [bind foldM].
    assert (N : not_nil B) by (unfold not_nil, B; intro X; vm_compute in X; discriminate X).
    rewrite (parse_field_body _ _ _ _ _ _ N Hb). reflexivity.
  Qed.

  (** A Body whose children are not called message or Fault. *)
  Lemma parse_plain_body n v x : find_sub message_field (el_children x) = Ok [] -> find_sub (fault_field v) (el_children x) = Ok [] ->
    parse_obj (S n) O E (body_cls v) x = Ok (VObj (body_cls v) (Some x) [("message", VNone); ("Fault", VNone)]).
  Proof. intros M F. rewrite parse_body_eq, M, F. reflexivity. Qed.
  Lemma not_sub f t a k : local_name t <> f_name f -> f_tag f = None -> find_sub f [Elem t a k] = Ok [].
  Proof.
    intros N T. cbn. rewrite T. apply String.eqb_neq in N. rewrite N. reflexivity.
  Qed.
  Lemma parse_message_body n v t a k : local_name t <> "message" -> local_name t <> "Fault" ->
    parse_obj (S n) O E (body_cls v) (Elem (clark (envelope_ns v) "Body") [] [Elem t a k]) =
    Ok (VObj (body_cls v) (Some (Elem (clark (envelope_ns v) "Body") [] [Elem t a k])) [("message", VNone); ("Fault", VNone)]).
  Proof. intros M F. apply parse_plain_body; now apply not_sub. Qed.

  (** Faults *)
  Lemma parse_fault_eq n v code msg actor : code <> "" -> msg <> "" -> (forall a, actor = Some a -> a <> "") ->
    exists f, parse_obj (S (S (S n))) O E (body_cls v) (Elem (clark (envelope_ns v) "Body") [] [fault_node v code msg actor]) =
      Ok (VObj (body_cls v) (Some (Elem (clark (envelope_ns v) "Body") [] [fault_node v code msg actor])) [("message", VNone); ("Fault", f)]) /\
      parse_fault_message v f = Ok (VStr code, VStr msg, opt_str actor) /\ f <> VNone.
  Proof.
    intros C M A. destruct v, actor as [a|]; eexists; (split; [vm_compute; reflexivity|split; [reflexivity|discriminate]]).
  Qed.
End P.
