(** Proofs about the header blocks of generated services: the fields (C91). *)
From Coq Require Import String Ascii List ZArith NArith Bool Lia.
From Verif Require Import PyBase PfBase PyVal XsdSimple XsdComplex XsdMeta Dispatch Soap PyLoad PyService SpecMeta SpecGenCode SpecService SpecHeaders PfMeta PfMeta2
  PfHeaders PfHeaders2.
Import ListNotations.
Open Scope nat_scope.
Open Scope string_scope.
Open Scope list_scope.

Lemma same_refl f : same_declaration f f.
Proof. repeat split. Qed.
Lemma same_trans f g h : same_declaration f g -> same_declaration g h -> same_declaration f h.
Proof. unfold same_declaration. intuition congruence. Qed.
Lemma named_same cs mro names store d : d < length store -> same_declaration (desc (named cs mro store names) d) (desc store d).
Proof.
  intros L. destruct (in_dec Nat.eq_dec d (raw cs mro names)) as [I|I].
  - destruct (named_hit cs mro names store d L I) as (n & _ & _ & E). rewrite E. repeat split.
  - rewrite named_miss by exact I. apply same_refl.
Qed.
Lemma grows_element w w' d : grows w w' -> d < length (w_store w) -> same_declaration (desc (w_store w') d) (desc (w_store w) d).
Proof.
  intros (es & E). revert w E. induction es as [|e es IH]; intros w E L; unfold exec_all in E; cbn [foldM] in E; [injection E as <-; apply same_refl|].
  apply bind_ok in E as (w1 & X & E). destruct e as [f|dict anc].
  - cbn [exec] in X. injection X as <-. eapply same_trans; [apply (IH _ E); cbn [w_store]; rewrite app_length; lia|]. cbn [w_store]. unfold desc.
    rewrite app_nth1 by exact L. apply same_refl.
  - apply exec_def in X as (k & _ & _ & _ & _ & _ & _ & St). eapply same_trans; [apply (IH _ E); rewrite St, named_length; exact L|]. rewrite St. now apply named_same.
Qed.

Lemma blocks_kept w w' schemas els plan hs c : reached w -> (exists es, exec_all w es = Ok w') -> elements_there w els ->
  (forall c name k, has_field w' c name k -> now_named w schemas els plan name k) -> named_once w schemas els plan ->
  hs <> [] -> heads_class w' schemas els hs (Some c) ->
  exists i e, first_schema schemas hs i /\ nth_error els i = Some e /\
    forall q n, In q hs -> assoc (pp_element q) e = Some n ->
      exists f g, element w n g /\ element w' n f /\ f_name f = pp_name q /\ same_declaration f g /\ find_field (class_fields w' c) (pp_name q) = Ok f.
Proof.
  intros (es & R) G El Hn No NE H. destruct hs as [|x hs]; [congruence|]. destruct H as (c' & i & e & [= <-] & Fw & He & H).
  exists i, e. split; [exact Fw|]. split; [exact He|]. intros q n I E.
  assert (F : has_field w' c (pp_name q) n) by (apply H; eauto).
  pose proof (reachable_inv es w R) as Iv. destruct (grows_facts _ _ Iv G) as (Iv' & L1 & _).
  assert (O : one_name_each w') by (intros c1 c2 n1 n2 d H1 H2; apply (No n1 n2 d); eauto).
  assert (L : n < length (w_store w)) by (eapply El; [eapply nth_error_In; exact He|eapply assoc_in; exact E]).
  exists (desc (w_store w') n), (desc (w_store w) n). split; [now apply element_desc|]. split; [apply element_desc; lia|].
  split; [eapply one_name_keeps; eauto|]. split; [now apply grows_element|now apply find_own].
Qed.
