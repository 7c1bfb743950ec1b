(** SOAP faults and versions: the proofs behind PropSoap. *)
From Coq Require Import String Ascii List ZArith NArith Bool Lia.
From Verif Require Import PyBase Xml PyVal XsdSimple XsdComplex PyHttp Soap SpecSoap PfBase PfSoap PfSoap2.
Import ListNotations.
Open Scope string_scope.
Open Scope list_scope.

Section F.
  Variable O : oracle.
  Variable U : string -> option classdef.
  Variable lim : nat.
  Notation E := (soap_env U lim).

  Lemma header_nodes_one n v h hx : header_nodes O U lim n v h = Ok hx -> one_header v hx.
  Proof.
    assert (R : forall x, render_obj n O E (header_cls v) (header_elem v) h (Some (envelope_ns v)) (Some qualified) = Ok x ->
              exists a k, [x] = [Elem (clark (envelope_ns v) "Header") a k]).
    { intros x H. assert (T : has_tag (clark (envelope_ns v) "Header") x).
      { eapply (render_tag O E n); [|exact H]. unfold header_elem. repeat eexists. }
      destruct T as (a & k & ->). eauto. }
    destruct h; cbn [header_nodes]; intros H;
      try (apply bind_ok in H as (x & Hx & H); injection H as <-; right; apply (R _ Hx));
      injection H as <-; [left; reflexivity | right; eauto].
  Qed.

  Lemma wire_header v hx : one_header v hx -> exists hx', one_header v hx' /\
    forall ks, merge_text (map wire ks) = ks -> wire (soap_envelope (envelope_ns v) hx ks) = soap_envelope (envelope_ns v) hx' ks.
  Proof.
    intros [->|(a & k & ->)].
    - exists []. split; [left; reflexivity|]. intros ks H. unfold soap_envelope. cbn [app wire map merge_text]. now rewrite H.
    - exists [Elem (clark (envelope_ns v) "Header") a (merge_text (map wire k))]. split; [right; eauto|].
      intros ks H. unfold soap_envelope. cbn [app wire map merge_text]. now rewrite H.
  Qed.

  Lemma wire_text s : s <> "" -> merge_text (map wire [Text s]) = [Text s].
  Proof. intros H. cbn. destruct (String.eqb_spec s ""); [contradiction|reflexivity]. Qed.

  Lemma wire_fault v code msg actor : code <> "" -> msg <> "" -> (forall a, actor = Some a -> a <> "") ->
    merge_text (map wire [fault_node v code msg actor]) = [fault_node v code msg actor].
  Proof.
    intros C M A. destruct actor as [a|].
    - specialize (A a eq_refl). apply String.eqb_neq in C, M, A.
      destruct v; cbn [fault_node fault11 fault12 app map wire merge_text]; unfold fault_node, fault11, fault12; cbn [app map wire merge_text];
        rewrite ?C, ?M, ?A; reflexivity.
    - apply String.eqb_neq in C, M.
      destruct v; unfold fault_node, fault11, fault12; cbn [app map wire merge_text]; rewrite ?C, ?M; reflexivity.
  Qed.

  Lemma fault_roundtrip n v code msg actor h doc :
    text_good code -> text_good msg -> opt_good actor ->
    error_response (4 + n) O E v code msg h actor = Ok doc ->
    client_reads_fault (4 + n) O E v (wire doc) = Ok (VStr code, VStr msg, opt_str actor).
  Proof.
    intros [C1 C2] [M1 M2] A H. change (4 + n) with (S (S (S (S n)))) in *. rewrite error_eq in H.
    apply bind_ok in H as (hx & Hh & H). destruct (texts_ok _ _ _); [|discriminate]. injection H as <-.
    assert (A1 : forall a, actor = Some a -> a <> "") by (intros a ->; exact (proj1 A)).
    destruct (wire_header v hx (header_nodes_one _ _ _ _ Hh)) as (hx' & Ho & Hw).
    rewrite (Hw _ (wire_fault v code msg actor C1 M1 A1)).
    destruct (parse_fault_eq O U lim n v code msg actor C1 M1 A1) as (f & Hp & Hf & _).
    unfold client_reads_fault. rewrite (parse_soap_envelope _ _ _ _ v hx' _ _ Ho Hp).
    cbn [bind]. cbn. exact Hf.
  Qed.

  Lemma fault_sent n v code msg actor : text_good code -> text_good msg -> opt_good actor ->
    error_response (4 + n) O E v code msg VNone actor =
    Ok (soap_envelope (envelope_ns v) [] [match v with V11 => fault11 | V12 => fault12 end (envelope_ns v) code msg actor]).
  Proof.
    intros [_ C] [_ M] A. change (4 + n) with (S (S (S (S n)))). rewrite error_eq. cbn [header_nodes bind].
    unfold texts_ok. rewrite C, M. replace (match actor with Some a => xml_text_ok a | None => true end) with true.
    - destruct v; reflexivity.
    - destruct actor as [a|]; auto. symmetry. exact (proj2 A).
  Qed.

  (** An empty message comes back as None, a control character makes the server raise. *)
  Lemma fault_empty n v code : text_good code ->
    exists doc, error_response (4 + n) O E v code "" VNone None = Ok doc /\
      client_reads_fault (4 + n) O E v (wire doc) = Ok (VStr code, VNone, VNone).
  Proof.
    intros [C1 C2]. change (4 + n) with (S (S (S (S n)))). rewrite error_eq. cbn [header_nodes bind].
    unfold texts_ok. rewrite C2. cbn [andb xml_text_ok]. eexists. split; [reflexivity|].
    apply String.eqb_neq in C1.
    destruct v; unfold fault_node, fault11, fault12, soap_envelope; cbn [app map wire merge_text String.eqb]; rewrite C1; vm_compute; reflexivity.
  Qed.
  Lemma fault_control n v code msg h hx actor : header_nodes O U lim (3 + n) v h = Ok hx -> xml_text_ok msg = false ->
    error_response (4 + n) O E v code msg h actor = Err ValueError.
  Proof.
    intros H M. change (4 + n) with (S (S (S (S n)))). rewrite error_eq. change (S (S (S n))) with (3 + n). rewrite H. cbn [bind].
    unfold texts_ok. rewrite M, andb_false_r. reflexivity.
  Qed.

  Lemma version_select ns v : get_version ns = Ok v <-> ns = envelope_ns v \/ ns = binding_ns v.
  Proof.
    unfold get_version. split.
    - destruct (String.eqb_spec ns (envelope_ns V11)); cbn [orb].
      { injection 1 as <-. auto. }
      destruct (String.eqb_spec ns (binding_ns V11)).
      { injection 1 as <-. auto. }
      destruct (String.eqb_spec ns (envelope_ns V12)); cbn [orb].
      { injection 1 as <-. auto. }
      destruct (String.eqb_spec ns (binding_ns V12)); [|discriminate]. injection 1 as <-. auto.
    - destruct v; intros [-> | ->]; reflexivity.
  Qed.
  Lemma version_reject ns : (forall v, ns <> envelope_ns v /\ ns <> binding_ns v) -> get_version ns = Err ValueError.
  Proof.
    intros H. destruct (get_version ns) as [v|e] eqn:G.
    - apply version_select in G. destruct (H v) as [A B]. now destruct G.
    - unfold get_version in G. destruct (_ || _); [discriminate|]. destruct (_ || _); [discriminate|]. now injection G as <-.
  Qed.
End F.
Lemma version_reject_list ns : ~ In ns ["http://schemas.xmlsoap.org/soap/envelope/"; "http://schemas.xmlsoap.org/wsdl/soap/";
    "http://www.w3.org/2003/05/soap-envelope"; "http://schemas.xmlsoap.org/wsdl/soap12/"] -> get_version ns = Err ValueError.
Proof.
  intros H. apply version_reject. intros v. split; intros ->; apply H; destruct v; cbn; tauto.
Qed.
