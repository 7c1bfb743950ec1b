(** Lemmas for SpecOrder2.v. *)
From Coq Require Import String Ascii List ZArith NArith Bool Permutation.
From Verif Require Import PyBase PfBase PyVal XsdSimple XsdComplex Soap Py2Xsd LibClasses GenOrder SpecOrder PfOrder Xsd2Py PyModule Wsdl2Py SpecGenCode PfGenCode PfGenCode5 PfGenCode9 PfService PfLoad2 PfFiles6 SpecOrder2.
Import ListNotations.
Open Scope nat_scope.
Open Scope string_scope.
Open Scope list_scope.

Lemma jget_has o n s : jget o n = VStr s -> has o n (VStr s).
Proof.
  destruct o; try discriminate. cbn [jget]. destruct (assoc n _) eqn:E; [|discriminate]. intros ->. repeat eexists. exact E.
Qed.
Lemma entry_target o ns : sd_target (schema_entry o) = Some ns <-> target o ns.
Proof.
  unfold schema_entry, target. cbn [sd_target]. split.
  - intros H. apply jget_has. destruct (jget o "targetNamespace"); try discriminate. cbn in H. congruence.
  - intros H. now rewrite (has_jget _ _ _ H).
Qed.
Lemma entry_imports o ns : In (Some ns) (sd_imports (schema_entry o)) <-> imports_ns o ns.
Proof.
  unfold schema_entry, imports_ns. cbn [sd_imports]. split.
  - intros H. destruct (jget o "imports") eqn:E; try contradiction. apply in_map_iff in H as (i & Ei & Hi).
    destruct o; try discriminate. cbn [jget] in E. destruct (assoc "imports" _) eqn:Ea; [|discriminate]. subst.
    eexists _, _, i. split; [repeat eexists; exact Ea|]. split; [exact Hi|]. apply jget_has. destruct (jget i "namespace"); try discriminate. cbn in Ei. congruence.
  - intros (k & l & i & H & Hi & Hn). rewrite (has_jget _ _ _ H). apply in_map_iff. exists i. split; [|exact Hi]. now rewrite (has_jget _ _ _ Hn).
Qed.
Lemma entries l : map sd_code (map schema_entry l) = l.
Proof. induction l; cbn; [reflexivity|now f_equal]. Qed.
Lemma entries_of l l' : Permutation l' (map schema_entry l) -> l' = map schema_entry (map sd_code l').
Proof.
  intros P. rewrite map_map. rewrite <- (map_id l') at 1. apply map_ext_in. intros e He. apply (Permutation_in _ P) in He. apply in_map_iff in He as (o & <- & _). reflexivity.
Qed.
Lemma schema_tns sort n nss known o code ns : schema_to_py sort n nss known o = Ok code -> target o ns -> gz_tns (snd code) = ns.
Proof.
  intros H T. unfold schema_to_py in H. apply bind_ok in H as (x & Sx & H).
  assert (E : jget x "targetNamespace" = VStr ns).
  { unfold sorted_schema in Sx. apply bind_ok in Sx as (cts & _ & Sx). apply bind_ok in Sx as (l & _ & Sx). injection Sx as <-.
    rewrite with_types_get by discriminate. exact (has_jget _ _ _ T). }
  unfold schema_code in H. apply bind_ok in H as (p & _ & H). apply bind_ok in H as (st & Hs & H). injection H as <-. cbn [snd].
  unfold schema_statement in Hs. rewrite E in Hs.
  repeat (apply bind_ok in Hs as (? & ? & Hs)). injection Hs as <-. cbn. congruence.
Qed.
Lemma Forall2_flip {A B} (R : A -> B -> Prop) l l' : Forall2 R l l' -> Forall2 (fun b a => R a b) l' l.
Proof. induction 1; constructor; auto. Qed.
Lemma Forall2_weaken {A B} (R Q : A -> B -> Prop) l l' : (forall a b, R a b -> Q a b) -> Forall2 R l l' -> Forall2 Q l l'.
Proof. intros H. induction 1; constructor; auto. Qed.
Lemma code_order sort n fuel O L md5 checked server nss root d l code :
  parse_obj fuel O L (wn (version_from_xml root) "Definitions") root = Ok d -> schemas_of d l ->
  code_for_wsdl sort n fuel O L md5 checked server nss root = Ok code ->
  exists order, Permutation order l /\ Forall2 (statement_for md5) (wc_schemas code) order /\
    ((exists names, Forall2 target l names /\ NoDup names) ->
     (forall o o' ns, In o l -> In o' l -> imports_ns o ns -> target o' ns -> imports_nothing o') ->
     forall before o after o' ns, order = before ++ o :: after -> In o' after -> target o' ns -> ~ imports_ns o ns).
Proof.
  intros P Hl H. unfold code_for_wsdl in H. rewrite P in H. cbn [bind] in H.
  apply bind_ok in H as (im & _ & H). apply bind_ok in H as (ims & _ & H). destruct ims; [|discriminate].
  apply bind_ok in H as (ty & Ht & H). apply bind_ok in H as (ss & Hs & H). apply bind_ok in H as (codes & Hc & H). apply bind_ok in H as (sv & _ & H). injection H as <-.
  cbn [wc_schemas].
  assert (Es : ss = l).
  { destruct Hl as [[Hd ->] | (t & c & xe & fs & k & Hd & -> & Hk)]; rewrite (has_get _ _ _ Hd) in Ht; injection Ht as <-.
    - cbn in Hs. congruence.
    - cbn [py_truthy] in Hs. rewrite (has_get _ _ _ Hk) in Hs. cbn in Hs. congruence. }
  subst ss. clear Hs Ht.
  exists (map sd_code (reorder_schemas (map schema_entry l))).
  pose proof (reorder_perm (map schema_entry l)) as Pm.
  split; [|split].
  - rewrite <- (entries l) at 2. now apply Permutation_map.
  - apply mapM_forall2, Forall2_flip in Hc. eapply Forall2_weaken; [|exact Hc]. cbn. intros p o Hp.
    apply bind_ok in Hp as (cd & Hcd & Hp). apply bind_ok in Hp as (nm & Hn & Hp). injection Hp as <-. cbn [fst snd].
    unfold schema_var in Hn. apply bind_ok in Hn as (nn & Hn & Hv). injection Hv as <-.
    assert (T : exists ns, target o ns /\ nn = md5 ns).
    { unfold schema_name in Hn. destruct o; try discriminate. apply bind_ok in Hn as (tv & Hg & Hn). destruct tv; try discriminate. injection Hn as <-.
      unfold py_get, obj_parts, getattr in Hg. cbn in Hg. destruct (assoc "targetNamespace" _) eqn:E; [|discriminate]. injection Hg as ->.
      eexists. split; [repeat eexists; exact E|reflexivity]. }
    destruct T as (ns & T & ->). exists ns. split; [exact T|]. split; [reflexivity|]. exact (schema_tns _ _ _ _ _ _ _ Hcd T).
  - intros (names & Fn & Nd) Hi before o after o' ns E Ho' T I.
    pose proof (entries_of _ _ Pm) as Ee.
    assert (SF : imports_first (reorder_schemas (map schema_entry l))).
    { apply schemas_sorted.
      - assert (Em : map sd_target (map schema_entry l) = map Some names).
        { clear -Fn. induction Fn; cbn; [reflexivity|]. f_equal; [now apply entry_target|assumption]. }
        rewrite Em. apply FinFun.Injective_map_NoDup; [|exact Nd]. intros ? ? [=]. assumption.
      - intros s t Hs Ht Im. apply in_map_iff in Hs as (os & <- & Hos). apply in_map_iff in Ht as (ot & <- & Hot). unfold imports in Im.
        assert (X : exists ns', target ot ns').
        { clear -Fn Hot. induction Fn; [contradiction|]. destruct Hot as [<- | Hot]; eauto. }
        destruct X as (ns' & Tt). rewrite (proj2 (entry_target _ _) Tt) in Im. apply entry_imports in Im.
        destruct (Hi os ot ns' Hos Hot Im Tt) as (k & Hk). unfold schema_entry. cbn [sd_imports]. now rewrite (has_jget _ _ _ Hk). }
    rewrite E in Ee. rewrite map_app in Ee. cbn [map] in Ee.
    refine (SF (map schema_entry before) (schema_entry o) (map schema_entry after) (schema_entry o') Ee (in_map _ _ _ Ho') _).
    unfold imports. rewrite (proj2 (entry_target _ _) T). now apply entry_imports.
Qed.
