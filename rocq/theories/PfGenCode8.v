(** Generated classes: recursive types, and the built-in types. *)
From Coq Require Import String Ascii List ZArith NArith Bool Lia.
From Verif Require Import PyBase PyRe PyVal XsdSimple XsdComplex XsdMeta LibClasses Py2Xsd GenNames Xsd2Py PyLoad SpecXsd SpecSimple SpecNames SpecGenCode
  PfBase PfMeta PfMeta2 PfLoad PfLoad2 PfSimple PfGenCode PfGenCode2 PfGenCode3 PfGenCode4 PfGenCode5 PfGenCode6 PfGenCode7.
Import ListNotations.
Open Scope nat_scope.
Open Scope string_scope.
Open Scope list_scope.

Lemma foldM_in {A B} (g : A -> B -> res A) l x : In x l -> forall a b, foldM g a l = Ok b -> exists a' b', g a' x = Ok b'.
Proof.
  induction l as [|y l IH]; intros I a b H; [destruct I|]. cbn in H. apply bind_ok in H as (a1 & H1 & H). destruct I as [<- | I]; eauto.
Qed.
Lemma recursive_never O E c d f : e_cls E c = Some d -> In f (cd_fields d) -> f_kind f <> KList -> f_type f = TComplex c ->
  forall n fs, new_inst n O E c <> Ok fs.
Proof.
  intros Hd If Nk Ft. induction n as [|n IH]; intros fs H; [discriminate|]. cbn [new_inst] in H. unfold get_class in H. rewrite Hd in H. cbn [bind] in H.
  destruct (foldM_in _ _ _ If _ _ H) as (a & b & X). rewrite Ft in X. apply bind_ok in X as (i & Hi & _).
  assert (Hr : exists r, res_map Some (new_inst n O E c) = Ok r) by (destruct (f_kind f); try contradiction; eauto).
  destruct Hr as (r & Hr). destruct (new_inst n O E c) as [fs'|] eqn:En; [now apply (IH fs')|discriminate].
Qed.

Lemma recursive_type rt limit O nss known x code m bl cts ct name i els attrs eps aps p pr : Forall (fun n => identifier n = true) known ->
  schema_code nss known x = Ok code ->
  has x "complexTypes" (VList bl cts) -> In ct cts -> has ct "name" (VStr name) ->
  Forall2 states_element els eps -> Forall2 states_attribute attrs aps -> usable (aps ++ eps) ->
  lacks ct "complexContent" -> states_content ct i els attrs ->
  In p eps -> many (pt_max p) = false -> qualified_name (pt_type p) pr name -> ~ In pr nss ->
  load rt limit O code <> Ok m.
Proof.
  intros Kn C Hx I Hn Se Sa U Lc Sc Ip Mn Q Np L.
  destruct (plain_class rt limit O nss known x code m bl cts ct name i els attrs eps aps Kn C L Hx I Hn Se Sa U Lc Sc) as (d & Md & _ & _ & _ & Mi).
  assert (Hf : exists f, In f (cd_fields d) /\ mirrors m nss p f).
  { clear - Mi Ip. assert (Ip' : In p (aps ++ eps)) by (apply in_or_app; now right). clear Ip. induction Mi as [|p' f ps fs H F IH]; [destruct Ip'|].
    destruct Ip' as [<- | Ip']; [exists f; split; [now left|exact H]|]. destruct (IH Ip') as (f' & If & Hf). exists f'. split; [now right|exact Hf]. }
  destruct Hf as (f & If & (_ & _ & _ & (pr' & local & Q' & _ & D) & _ & _ & _ & K)).
  destruct (qualified_unique _ _ _ _ _ Q Q') as [<- <-]. destruct D as [[D _]|[_ D]]; [contradiction|]. unfold provides in D.
  assert (At : pt_attr p = false).
  { clear - Se Ip. induction Se as [|e p' es ps H F IH]; [destruct Ip|]. destruct Ip as [<- | Ip]; [apply H|auto]. }
  rewrite At, Mn in K. destruct K as [K _].
  destruct (schema_parts _ _ _ _ C) as (sts & ags & gs & cts0 & els1 & p1 & c2 & c3 & p4 & c5 & _ & _ & _ & J & _ & _ & _ & _ & _ & _ & _ & _ & _ & _ & N4 & _).
  rewrite (has_jget _ _ _ Hx) in J. injection J as <-.
  destruct (schema_executed _ _ _ _ _ L) as (ms & tops & els' & Fm & _ & _ & _ & _ & _ & Ex).
  destruct (load_spec _ _ _ _ _ L) as (ms' & Fm' & G & Gm & _ & Ww & Wn & Wc & _ & _). rewrite Fm in Fm'. injection Fm' as <-.
  destruct (mapM_in _ _ _ _ N4 I) as (cn & Hcn & Icn). rewrite (has_jget _ _ _ Hn) in Hcn. cbn [cap] in Hcn. apply capital_ok in Hcn as [-> _].
  destruct (Ex (capital name)) as (_ & c & Ac & _ & Fo); [rewrite !in_app_iff; auto|].
  assert (Md' := Md). unfold module_class, module_env in Md'. cbn [e_cls] in Md'. rewrite Wn in Md', D. rewrite Ac in Md', D. injection Md' as Ed.
  rewrite <- Ed in If. unfold class_def in If. cbn [cd_fields] in If. apply in_map_iff in If as (f0 & Ef & If0). rewrite Ww in If0.
  destruct (Fo f0 If0) as (t & Ht). unfold force in Ht. apply bind_ok in Ht as (t' & Rt & Ht).
  assert (Et : t' = TComplex (capital name)).
  { rewrite <- Ef in D. unfold retype in D. cbn [f_type] in D. rewrite Rt in D. congruence. }
  subst t'. apply bind_ok in Ht as (fs & Hfs & _). unfold new_instance in Hfs.
  apply (recursive_never O (module_env limit (md_state m)) (capital name) d f) with (n := e_limit (module_env limit (md_state m))) (fs := fs); auto.
  - rewrite <- Ed, <- Ef. unfold class_def. cbn [cd_fields]. apply in_map. now rewrite Ww.
  - rewrite K. discriminate.
Qed.

Lemma builtins s n : bare s -> builtin s = Some n -> library_provides (capital n) (TSimple s).
Proof.
  intros B H. destruct s as [c f|f| | | | |c f|c f| |]; cbn in B; try subst f; cbn [builtin] in H; try discriminate.
  - destruct (assoc_in _ _ _ H) as [E | [E | [E | [E | [E | [E | [E | []]]]]]]]; injection E as <- <-; reflexivity.
  - injection H as <-. reflexivity.
  - injection H as <-. reflexivity.
  - injection H as <-. reflexivity.
  - injection H as <-. reflexivity.
  - destruct (assoc_in _ _ _ H) as [E | [E | [E | []]]]; injection E as <- <-; reflexivity.
  - destruct c; injection H as <-; reflexivity.
Qed.
