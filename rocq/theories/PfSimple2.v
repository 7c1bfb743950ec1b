(** Proofs for C05, C06 and C16, continued. *)
From Coq Require Import String Ascii List ZArith NArith Bool QArith Lia.
From Verif Require Import PyBase PyRe Xml PyVal XsdDate XsdSimple SpecSimple PfRe PfSimple.
Import ListNotations.
Open Scope Z_scope.

Lemma accept_text O c s : s <> "nil"%string ->
  st_accept O (SInteger c no_dfacets) (VStr s) = st_pythonvalue O (SInteger c no_dfacets) (VStr s).
Proof.
  intros N. cbn [st_accept st_pythonvalue]. unfold decimal_pythonvalue.
  do 4 (destruct s as [|[[|] [|] [|] [|] [|] [|] [|] [|]] s]; try reflexivity). now destruct N.
Qed.
Lemma accept_nil O c : st_accept O (SInteger c no_dfacets) (VStr "nil") = Err ValueError.
Proof. now destruct c. Qed.
Lemma integer_assign O c :
  st_accept O (SInteger c no_dfacets) VNone = Ok VNone /\
  forall s, (forall v, st_accept O (SInteger c no_dfacets) (VStr s) = Ok v <->
                       exists z, int_text s z /\ in_int_range c z /\ v = VInt z) /\
            (forall e, st_accept O (SInteger c no_dfacets) (VStr s) = Err e -> e = ValueError).
Proof.
  split; [reflexivity|]. intros s. destruct (String.eqb_spec s "nil") as [->|N].
  - rewrite accept_nil. split; [|congruence]. intros v. split; [discriminate|]. intros (z & H & _). now apply int_text_nil in H.
  - rewrite accept_text by exact N. split; [|intros e; apply integer_text_err]. intros v. rewrite integer_text_ok. split; [|auto].
    intros [[C _]|H]; [now destruct N | exact H].
Qed.
Lemma none_text O t : (exists c u, t = SInteger c u) \/ (exists c f, t = SDecimal c f) ->
  st_xmlvalue O t VNone = Ok (VStr "None").
Proof. now intros [(c & u & ->)|(c & f & ->)]. Qed.
Lemma none_unread O c : st_pythonvalue O (SInteger c no_dfacets) (VStr "None") = Err ValueError.
Proof. now destruct c. Qed.

Lemma py_in_num v q : num_of v = Some q -> py_in v [VStr "unbounded"; UNBOUNDED] = num_eqb q NPInf.
Proof.
  intros H. unfold py_in. cbn [existsb]. unfold py_eqb. rewrite H. cbn.
  now destruct (num_eqb q NPInf).
Qed.
Lemma py_in_str s : py_in (VStr s) [VStr "unbounded"; UNBOUNDED] = String.eqb s "unbounded".
Proof. cbn. now destruct (String.eqb s "unbounded"). Qed.
Lemma maxoccurs_assign O :
  st_accept O SMaxOccurs VNone = Ok VNone /\
  (forall v, v = VStr "unbounded" \/ num_of v = Some NPInf -> st_accept O SMaxOccurs v = Ok UNBOUNDED) /\
  (forall s v, s <> "unbounded"%string ->
     (st_accept O SMaxOccurs (VStr s) = Ok v <-> exists z, int_text s z /\ v = VInt z)) /\
  (forall s e, st_accept O SMaxOccurs (VStr s) = Err e -> e = ValueError) /\
  (forall v q, num_of v = Some (NFin q) -> exists z, st_accept O SMaxOccurs v = Ok (VInt z) /\
     Z.abs z * QDen q <= Z.abs (Qnum q) < (Z.abs z + 1) * QDen q /\ 0 <= z * Qnum q) /\
  (forall v, num_of v = Some NNInf -> st_accept O SMaxOccurs v = Err (Exn EOverflowError "")) /\
  (forall v, num_of v = Some NNaN -> st_accept O SMaxOccurs v = Err ValueError) /\
  (forall v, v <> VNone -> (forall s, v <> VStr s) -> num_of v = None -> st_accept O SMaxOccurs v = Err TypeError).
Proof.
  assert (U : forall v, v <> VNone -> st_accept O SMaxOccurs v =
    if py_in v [VStr "unbounded"; UNBOUNDED] then Ok UNBOUNDED else res_map VInt (py_int v)) by (intros [] N; try reflexivity; now destruct N).
  assert (NU : forall v n, num_of v = Some n -> st_accept O SMaxOccurs v = if num_eqb n NPInf then Ok UNBOUNDED else res_map VInt (num_trunc n)).
  { intros v n H. rewrite U by (intros ->; discriminate). rewrite (py_in_num v n H). unfold py_int. rewrite H. destruct v; try reflexivity. discriminate H. }
  split; [reflexivity|]. split; [|split; [|split; [|split; [|split; [|split]]]]].
  - intros v [->|H]; [reflexivity|]. now rewrite (NU v _ H).
  - intros s v N. rewrite U by discriminate. rewrite py_in_str. destruct (String.eqb_spec s "unbounded") as [|_]; [now destruct N|].
    cbn [py_int]. split.
    + destruct (int_of_str s) as [z|] eqn:E; [|discriminate]. intros [= <-]. exists z. split; [now apply int_of_str_iff|reflexivity].
    + intros (z & H & ->). apply int_of_str_iff in H. now rewrite H.
  - intros s e. rewrite U by discriminate. rewrite py_in_str. destruct (String.eqb s "unbounded"); [discriminate|].
    cbn [py_int]. destruct (int_of_str s) as [z|e'] eqn:E; [discriminate|]. intros [= <-]. revert E. apply int_of_str_err.
  - intros v q H. rewrite (NU v _ H). cbn. exists (Z.quot (Qnum q) (QDen q)). split; [reflexivity|].
    assert (D : 0 < QDen q) by reflexivity. rewrite <- Z.quot_abs by lia. rewrite (Z.abs_eq (QDen q)) by lia.
    rewrite Z.quot_div_nonneg by lia. pose proof (Z.div_mod (Z.abs (Qnum q)) (QDen q)). pose proof (Z.mod_pos_bound (Z.abs (Qnum q)) (QDen q) D).
    split; [nia|]. destruct (Z.le_gt_cases 0 (Qnum q)).
    + apply Z.mul_nonneg_nonneg; [apply Z.quot_pos; lia|lia].
    + rewrite <- (Z.opp_involutive (Qnum q)) at 1. rewrite Z.quot_opp_l by lia. pose proof (Z.quot_pos (- Qnum q) (QDen q)). nia.
  - intros v H. now rewrite (NU v _ H).
  - intros v H. now rewrite (NU v _ H).
  - intros v N1 N2 H. rewrite U by exact N1. unfold py_in. cbn [existsb]. unfold py_eqb, py_int. rewrite H. cbn.
    destruct v; try reflexivity; exfalso; now eapply N2.
Qed.
