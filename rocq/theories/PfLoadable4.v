(** Modules that can be imported: the order of the types. *)
From Coq Require Import String Ascii List ZArith NArith Bool Permutation Lia.
From Verif Require Import PyBase PyVal XsdSimple XsdComplex XsdMeta LibClasses Py2Xsd GenOrder SpecOrder PfOrder PfOrder2 Xsd2Py PyLoad SpecNames SpecGenCode
  SpecUrl SpecService SpecLoadable PfBase PfGenCode PfGenCode3 PfGenCode4 PfGenCode9 PfLoadable PfLoadable2 PfLoadable3.
Import ListNotations.
Open Scope nat_scope.
Open Scope string_scope.
Open Scope list_scope.

Definition entry_is (t : xsd_type) (p : complex_plan) : Prop :=
  xt_name t = cp_name p /\ xt_content t = match cp_base p with None => None | Some q => Some (Some q, None) end.
Lemma is_a_truthy o c : is_a o c -> py_truthy o = true.
Proof. intros (xe & fs & ->). reflexivity. Qed.
Lemma entry_of ct p : states_complex ct p -> entry_is (type_entry ct) p.
Proof.
  intros [Hn Hc]. unfold type_entry, entry_is. cbn [xt_name xt_content]. rewrite (has_jget _ _ _ Hn). split; [reflexivity|].
  destruct (cp_base p) as [q|].
  - destruct Hc as (cc & ex & Hcc & Icc & Lr & Hex & Iex & Hb & _). rewrite (has_jget _ _ _ Hcc), (is_a_truthy _ _ Icc), (has_jget _ _ _ Hex), (lacks_jget _ _ Lr).
    unfold base_text. now rewrite (is_a_truthy _ _ Iex), (has_jget _ _ _ Hb).
  - destruct Hc as [Lc _]. now rewrite (lacks_jget _ _ Lc).
Qed.
Lemma entries l ps : Forall2 states_complex l ps -> Forall2 (fun t p => states_complex (xt_code t) p /\ entry_is t p) (map type_entry l) ps.
Proof. induction 1 as [|ct p l ps S F IH]; constructor; [|exact IH]. split; [exact S|now apply entry_of]. Qed.
Lemma forall2_left {A B} (R : A -> B -> Prop) l l' : Forall2 R l l' -> forall a, In a l -> exists b, In b l' /\ R a b.
Proof.
  induction 1 as [|a b l l' H F IH]; intros a' I; [destruct I|]. destruct I as [<- | I]; [exists b; split; [now left|exact H]|].
  destruct (IH a' I) as (b' & Ib & Hb). exists b'. split; [now right|exact Hb].
Qed.
Lemma forall2_right {A B} (R : A -> B -> Prop) l l' : Forall2 R l l' -> forall b, In b l' -> exists a, In a l /\ R a b.
Proof.
  induction 1 as [|a b l l' H F IH]; intros b' I; [destruct I|]. destruct I as [<- | I]; [exists a; split; [now left|exact H]|].
  destruct (IH b' I) as (a' & Ia & Ha). exists a'. split; [now right|exact Ha].
Qed.
Lemma entry_based t p b : entry_is t p -> based_on t b <-> cp_base p = Some b.
Proof.
  intros [_ E]. unfold based_on. rewrite E. destruct (cp_base p) as [q|]; split.
  - intros [(r & [=]) | [=]]; congruence.
  - intros [= ->]. left. eauto.
  - intros [(r & [=]) | [=]].
  - discriminate.
Qed.
Lemma entry_plain t p : entry_is t p -> plain_type t <-> cp_base p = None.
Proof. intros [_ E]. unfold plain_type. rewrite E. destruct (cp_base p); split; congruence. Qed.
Lemma names_eq l ps : Forall2 entry_is l ps -> map xt_name l = map cp_name ps.
Proof. induction 1 as [|t p l ps [E _] F IH]; [reflexivity|]. cbn. now rewrite E, IH. Qed.
Lemma nodup_map_inv {A B} (f : A -> B) l : NoDup (map f l) -> NoDup l.
Proof.
  induction l as [|x l IH]; [constructor|]. cbn. intros N. inversion_clear N as [|? ? Nx Nl]. constructor; [|auto]. intros I. apply Nx. now apply in_map.
Qed.
Lemma nodup_split {A} (a a' : list A) x b b' : NoDup (a ++ x :: b) -> a ++ x :: b = a' ++ x :: b' -> a = a' /\ b = b'.
Proof.
  revert a'. induction a as [|y a IH]; intros [|z a'] N E; cbn in *.
  - injection E as <-. auto.
  - injection E as <- Eb. inversion_clear N as [|? ? Nx _]. exfalso. apply Nx. rewrite Eb. apply in_or_app. right. now left.
  - injection E as -> Ea. inversion_clear N as [|? ? Nx _]. exfalso. apply Nx. apply in_or_app. right. now left.
  - injection E as <- E. inversion_clear N as [|? ? _ Nl]. destruct (IH a' Nl E) as [<- <-]. auto.
Qed.
Lemma nodup_right {A} (l1 l2 : list A) : NoDup (l1 ++ l2) -> NoDup l2.
Proof. induction l1 as [|x l1 IH]; [auto|]. cbn [app]. intros N. inversion_clear N as [|? ? Nx Nl]. auto. Qed.

Section Order.
  Variables (sort : sorter) (n : nat) (nss : list (option string)) (limit : nat) (others : list schema_plan) (s : schema_plan) (rank : string -> nat).
  Hypothesis LS : list_sort sort.
  Hypothesis W : document_works nss n limit others s rank.
  Variables (l : list xsd_type).
  Hypothesis En : Forall2 (fun t p => states_complex (xt_code t) p /\ entry_is t p) l (sc_complexes s).

  Lemma entries_only : Forall2 entry_is l (sc_complexes s).
  Proof. clear - En. induction En as [|t p l' ps [_ E] F IH]; constructor; auto. Qed.
  Lemma complex_ok p : In p (sc_complexes s) -> complex_works nss limit (joined others s) rank p.
  Proof. intros I. destruct W as (_ & _ & _ & _ & _ & _ & _ & F & _). rewrite Forall_forall in F. apply F, in_or_app. now left. Qed.
  Lemma own_filled q m : own_type nss q m -> q <> "".
  Proof.
    intros (p & local & [_ Q] & _ & Nl & _). destruct p as [p|]; [|now subst]. destruct Q as [_ ->]. destruct p; discriminate.
  Qed.
  Lemma entries_formed : well_formed l.
  Proof.
    destruct W as (N & U & _). split.
    - rewrite (names_eq _ _ entries_only). apply nodup_right, nodup_left in N. unfold complex_names in N. rewrite <- (map_map cp_name capital) in N.
      now apply nodup_map_inv in N.
    - intros t It. destruct (forall2_left _ _ _ entries_only t It) as (p & Ip & E). split.
      + rewrite (proj1 E). rewrite Forall_forall in U. destruct (U (capital (cp_name p))) as ((c & r & Ec & _) & _).
        { apply in_or_app. right. apply in_or_app. left. unfold complex_names. apply (in_map (fun p => capital (cp_name p)) _ _ Ip). }
        intros E0. rewrite E0 in Ec. discriminate.
      + destruct (cp_base p) as [q|] eqn:Eb; [right|left; now apply (entry_plain t p)]. exists q. split; [now apply (entry_based t p)|].
        destruct (complex_ok p Ip) as (_ & _ & B). destruct (B q Eb) as (m & O & _). exact (own_filled _ _ O).
  Qed.
  Lemma entries_apart : NoDup l.
  Proof. apply (nodup_map_inv xt_name). apply entries_formed. Qed.
  Lemma sorted_ok : exists l', reorder_types sort n l = Ok l' /\ Permutation l' l /\
    forall m1 t m2 b, l' = m1 ++ t :: m2 -> based_on t b ->
      (exists u, In u m1 /\ own_type nss b (capital (xt_name u))) \/ (exists c, own_type nss b c /\ In c (flat_map complex_names others)).
  Proof.
    destruct W as (_ & _ & _ & _ & _ & _ & [(depth & Hd & Hb) | [Hn Hb]] & _).
    - destruct (reorder_local sort n l LS entries_formed) as (l' & R & P & F).
      + exists depth. split.
        * intros t It. destruct (forall2_left _ _ _ entries_only t It) as (p & Ip & E). rewrite (proj1 E). auto.
        * intros t b It Bt. destruct (forall2_left _ _ _ entries_only t It) as (p & Ip & E). apply (entry_based t p b E) in Bt.
          destruct (Hb p b Ip Bt) as (Nc & p' & Ip' & <- & D). split; [exact Nc|].
          destruct (forall2_right _ _ _ entries_only p' Ip') as (u & Iu & E'). exists u. split; [exact Iu|]. split; [apply E'|]. rewrite (proj1 E). exact D.
      + exists l'. split; [exact R|]. split; [exact P|]. intros m1 t m2 b El Bt. destruct (F m1 t m2 b El Bt) as (u & Iu & <-). left. exists u. split; [exact Iu|].
        assert (It : In t l) by (apply (Permutation_in _ P); rewrite El; apply in_or_app; right; now left).
        destruct (forall2_left _ _ _ entries_only t It) as (p & Ip & E). apply (entry_based t p _ E) in Bt.
        destruct (complex_ok p Ip) as (_ & _ & B). destruct (B _ Bt) as (m & (pr & local & [Cl Q] & Np & Nl & Em) & _).
        destruct (Hb p _ Ip Bt) as (Nc & _). destruct pr as [pr|].
        * destruct Q as [_ Q]. exfalso. apply Nc. unfold holds. rewrite Q, PfBase.to_l_app. apply in_or_app. right. now left.
        * exists None, (xt_name u). rewrite Q in *. repeat split; auto.
    - destruct (reorder_prefixed sort n l LS Hn entries_formed) as (pl & de & R & Hp & Hde & K).
      + intros t b It Bt. destruct (forall2_left _ _ _ entries_only t It) as (p & Ip & E). apply (entry_based t p b E) in Bt.
        apply in_split in Ip as (l1 & l2 & Ep). destruct (Hb l1 p l2 b Ep Bt) as [Hh _]. exact Hh.
      + assert (P : Permutation (pl ++ de) l) by (eapply reorder_once; eauto). exists (pl ++ de). split; [exact R|]. split; [exact P|].
        intros m1 t m2 b El Bt.
        assert (It : In t l) by (apply (Permutation_in _ P); rewrite El; apply in_or_app; right; now left).
        assert (Nd : NoDup (pl ++ de)) by (apply (Permutation_NoDup (Permutation_sym P)), entries_apart).
        assert (Nt : ~ plain_type t) by (intros Pt; unfold plain_type in Pt; destruct Bt as [(r & Bt) | Bt]; congruence).
        assert (Id : In t de) by (apply Hde; auto). apply in_split in Id as (d1 & d2 & Ed).
        assert (Em : m1 = pl ++ d1).
        { rewrite Ed, app_assoc in El. symmetry. apply (nodup_split (pl ++ d1) m1 t d2 m2); [|exact El]. now rewrite <- app_assoc, <- Ed. }
        apply in_split in It as (l1 & l2 & Ell). assert (F := entries_only). rewrite Ell in F. apply Forall2_app_inv_l in F as (p1 & p2 & F1 & F2 & Ep).
        destruct p2 as [|p p2']; [inversion F2|]. assert (E : entry_is t p) by (inversion F2; assumption). clear F2. rewrite Em.
        apply (entry_based t p b E) in Bt. destruct (Hb p1 p p2' b Ep Bt) as (_ & [(p' & Hp' & O) | X]); [left|now right].
        destruct Hp' as [Ip | [Ip Np]].
        * destruct (forall2_right _ _ _ F1 p' Ip) as (u & Iu & E'). exists u. rewrite (proj1 E'). split; [|exact O].
          assert (Iul : In u l) by (rewrite Ell; apply in_or_app; now left).
          destruct (cp_base p') as [q'|] eqn:Eb.
          -- assert (Nu : ~ plain_type u) by (rewrite (entry_plain u p' E'); congruence).
             apply in_split in Iu as (a1 & a2 & Ea). destruct (K a1 u a2 t l2) as (e1 & e2 & e3 & Ee); [rewrite Ell, Ea, <- app_assoc; reflexivity|exact Nu|exact Nt|].
             assert (Nd2 : NoDup ((e1 ++ u :: e2) ++ t :: e3)) by (apply nodup_right in Nd; rewrite Ee in Nd; rewrite <- app_assoc; exact Nd).
             destruct (nodup_split (e1 ++ u :: e2) d1 t e3 d2 Nd2) as [E1 _]; [rewrite <- app_assoc; cbn [app]; rewrite <- Ee; exact Ed|].
             apply in_or_app. right. rewrite <- E1. apply in_or_app. right. now left.
          -- apply in_or_app. left. apply Hp. split; [exact Iul|]. now apply (entry_plain u p').
        * destruct (forall2_right _ _ _ entries_only p' Ip) as (u & Iu & E'). exists u. rewrite (proj1 E'). split; [|exact O].
          apply in_or_app. left. apply Hp. split; [exact Iu|]. now apply (entry_plain u p').
  Qed.
End Order.

Lemma content_moved nss s s' rank c o : (forall n, In n (simple_names s) -> In n (simple_names s')) -> (forall n, In n (complex_names s) -> In n (complex_names s')) ->
  content_works nss s rank c o -> content_works nss s' rank c o.
Proof.
  intros Hs Hc (U & N & P). split; [exact U|]. split; [exact N|]. intros p Ip. destruct (P p Ip) as (Wn & Mi & T). split; [exact Wn|]. split; [exact Mi|].
  destruct T as [T | (n & O & [I | [I R]])]; [now left|right; exists n; split; [exact O|left; auto]|right; exists n; split; [exact O|right; auto]].
Qed.

Lemma in_order_from sort n nss limit others pre s rank x : list_sort sort -> document_works nss n limit others s rank -> states_schema x s ->
  incl (flat_map simple_names others) (flat_map simple_names pre) -> incl (flat_map complex_names others) (flat_map complex_names pre) ->
  NoDup (simple_names (joined pre s) ++ complex_names (joined pre s) ++ own_names (joined pre s)) ->
  (forall m, In m (flat_map complex_names pre ++ flat_map own_names pre) -> rank m < limit) ->
  exists x' cs, sorted_schema sort n x = Ok x' /\ Permutation (sc_complexes s) cs /\
    let s' := mkPlan (sc_tns s) (sc_efd s) (sc_simples s) cs (sc_tops s) in states_schema x' s' /\ ordered_works nss limit pre s' rank.
Proof.
  intros LS W (Ht & He & H1 & (b2 & cts & H2 & F2) & (b3 & els & H3 & F3) & (b4 & H4) & (b5 & H5)) Is Ic Nd Rp.
  pose proof (entries _ _ F2) as En. destruct (sorted_ok sort n nss limit others s rank LS W (map type_entry cts) En) as (l' & R & P & B).
  destruct (Permutation_Forall2 (Permutation_sym P) En) as (cs & Pc & F').
  exists (with_types x (map xt_code l')), cs. split.
  { unfold sorted_schema. rewrite (has_jget _ _ _ H2). cbn [jlist bind]. rewrite R. reflexivity. }
  split; [exact Pc|]. cbn zeta. set (s' := mkPlan (sc_tns s) (sc_efd s) (sc_simples s) cs (sc_tops s)).
  assert (Pn : Permutation (complex_names s) (complex_names s')) by (apply Permutation_map; exact Pc). split.
  - split; [now apply with_types_other|]. split; [now apply with_types_other|].
    split; [destruct H1 as (b1 & l1 & H1 & F1); exists b1, l1; split; [now apply with_types_other|exact F1]|].
    split; [|split; [exists b3, els; split; [now apply with_types_other|exact F3]|split; eexists; (apply with_types_other; [discriminate|eassumption])]].
    exists b2, (map xt_code l'). split; [now apply with_types_has with cts|].
    clear - F'. induction F' as [|t p l ps [S _] F IH]; constructor; auto.
  - destruct W as (_ & U & Pt & Pe & Pp & Ws & _ & Wc & Wt).
    assert (Pa : Permutation (simple_names s ++ complex_names s ++ own_names s) (simple_names s' ++ complex_names s' ++ own_names s')).
    { apply Permutation_app_head, Permutation_app_tail, Pn. }
    assert (Pj : Permutation (complex_names (joined pre s)) (complex_names (joined pre s'))).
    { rewrite !joined_complex. now apply Permutation_app_head. }
    assert (Ms : forall m, In m (simple_names (joined others s)) -> In m (simple_names (joined pre s'))).
    { intros m. rewrite !joined_simple. intros I. apply in_app_or in I as [I | I]; apply in_or_app; [left; now apply Is|now right]. }
    assert (Mc : forall m, In m (complex_names (joined others s)) -> In m (complex_names (joined pre s'))).
    { intros m. rewrite !joined_complex. intros I. apply in_app_or in I as [I | I]; apply in_or_app; [left; now apply Ic|right; now apply (Permutation_in _ Pn)]. }
    assert (Mv : forall p before, complex_works nss limit (joined others s) rank p -> (forall q, cp_base p = Some q -> exists m, own_type nss q m /\ In m (map (fun b => capital (cp_name b)) before)) ->
      complex_ordered nss limit (joined pre s') rank before p).
    { intros p before (C & Rk & Bs) Hb. split; [now apply content_moved with (joined others s)|]. split; [exact Rk|].
      intros q Eq. destruct (Bs q Eq) as (m & (pr & local & Q & Np & Nl & Em) & _ & Rm). destruct (Hb q Eq) as (m' & (pr' & local' & Q' & Np' & Nl' & Em') & Im).
      destruct (qualified_unique _ _ _ _ _ Q Q') as [<- <-]. exists m. split; [exists pr, local; auto|]. split; [congruence|exact Rm]. }
    rewrite Forall_forall in Wc.
    split; [|split].
    + apply (Permutation_NoDup (l := simple_names (joined pre s) ++ complex_names (joined pre s) ++ own_names (joined pre s))); [|exact Nd].
      apply Permutation_app_head, Permutation_app_tail, Pj.
    + intros m I. apply in_app_or in I as [I | I].
      * rewrite joined_complex in I. apply in_app_or in I as [I | I]; [apply Rp, in_or_app; now left|]. apply (Permutation_in _ (Permutation_sym Pn)) in I.
        unfold complex_names in I. apply in_map_iff in I as (p & <- & I). apply (Wc p). apply in_or_app. now left.
      * rewrite joined_own in I. apply in_app_or in I as [I | I]; [apply Rp, in_or_app; now right|].
        unfold own_names in I. apply in_map_iff in I as (p & <- & I). apply (Wc p). apply in_or_app. now right.
    + split; [rewrite Forall_forall in *; intros m I; apply U; now apply (Permutation_in _ (Permutation_sym Pa))|].
      split; [exact Pt|]. split; [exact Pe|]. split; [exact Pp|]. split; [|split; [|split]].
      * intros l1 p l2 E. destruct (Ws l1 p l2 E) as (Wb & We & Wf). split; [|split; [exact We|exact Wf]]. destruct Wb as [Wb | (m & O & I)]; [now left|right].
        exists m. split; [exact O|]. rewrite map_app in *. apply in_app_or in I as [I | I]; apply in_or_app; [left|now right].
        assert (J : In m (flat_map simple_names pre)).
        { apply Is. apply in_map_iff in I as (b & <- & I). apply in_flat_map in I as (d & Id & I). apply in_flat_map. exists d. split; [exact Id|].
          unfold simple_names. apply (in_map (fun b => capital (sp_name b)) _ _ I). }
        apply in_flat_map in J as (d & Id & J). unfold simple_names in J. apply in_map_iff in J as (b & <- & J).
        apply (in_map (fun b => capital (sp_name b))). apply in_flat_map. eauto.
      * intros l1 p l2 E. cbn [sc_complexes s'] in E. rewrite E in F'. apply Forall2_app_inv_r in F' as (m1 & mt & F1 & F2' & El).
        inversion F2' as [|t ? m2 ? [St Et] F2'' E1 E2]; subst.
        apply Mv; [apply Wc, in_or_app; left; apply (Permutation_in _ (Permutation_sym Pc)), in_or_app; right; now left|].
        intros q Eq. destruct (B m1 t m2 q eq_refl) as [(u & Iu & O) | (c & O & I)]; [now apply (entry_based t p)| |].
        -- destruct (forall2_left _ _ _ F1 u Iu) as (b & Ib & [_ Eb]). exists (capital (xt_name u)). split; [exact O|]. rewrite (proj1 Eb).
           apply (in_map (fun b => capital (cp_name b))). apply in_or_app. now right.
        -- exists c. split; [exact O|]. rewrite map_app. apply in_or_app. left. apply Ic in I. apply in_flat_map in I as (d & Id & J). unfold complex_names in J.
           apply in_map_iff in J as (b & <- & J). apply (in_map (fun b => capital (cp_name b))). apply in_flat_map. eauto.
      * intros p I. apply Mv; [apply Wc, in_or_app; now right|]. intros q Eq. exfalso. unfold own_tops in I. apply in_flat_map in I as (t & _ & I).
        destruct (tp_content t); cbn in I; [contradiction|]. destruct I as [<- | []]. discriminate.
      * intros t q It Et. destruct (Wt t q It Et) as [L | (m & O & I)]; [now left|right]. exists m. split; [exact O|].
        apply in_app_or in I as [I | I]; apply in_or_app; [left; now apply Ms|right; now apply Mc].
Qed.
Lemma in_order sort n nss limit s rank x : list_sort sort -> schema_works nss n limit s rank -> states_schema x s ->
  exists x' cs, schema_to_py sort n nss [] x = schema_code nss [] x' /\ Permutation (sc_complexes s) cs /\
    let s' := mkPlan (sc_tns s) (sc_efd s) (sc_simples s) cs (sc_tops s) in states_schema x' s' /\ ordered_works nss limit [] s' rank.
Proof.
  intros LS W S. destruct (in_order_from sort n nss limit [] [] s rank x LS W S) as (x' & cs & X & P & H).
  - apply incl_refl.
  - apply incl_refl.
  - apply W.
  - intros m [].
  - exists x', cs. split; [|split; [exact P|exact H]]. unfold schema_to_py. rewrite X. reflexivity.
Qed.

(** Such a module can be imported, and its classes can be called. *)
Lemma loadable sort n rt nss limit s rank O x : list_sort sort -> schema_works nss n limit s rank -> states_schema x s ->
  exists code m, schema_to_py sort n nss [] x = Ok code /\ load rt limit O code = Ok m /\
    Permutation (map fst (ms_names (md_state m))) (simple_names s ++ complex_names s ++ own_names s) /\
    forall c, In c (complex_names s ++ own_names s) -> exists fs, new_instance O (module_env limit (md_state m)) c = Ok fs.
Proof.
  intros LS W S. destruct (in_order sort n nss limit s rank x LS W S) as (x' & cs & -> & P & S' & W'). cbn zeta in *.
  set (s' := mkPlan (sc_tns s) (sc_efd s) (sc_simples s) cs (sc_tops s)) in *.
  assert (Pn : Permutation (complex_names s') (complex_names s)) by (apply Permutation_map; now apply Permutation_sym).
  destruct (importable rt nss limit s' rank O x' W' S') as (code & m & C & L & B). exists code, m. split; [exact C|]. split; [exact L|]. split.
  - rewrite (bt_names _ _ _ _ B). unfold all_names. cbn [app]. apply Permutation_app_head, Permutation_app_tail, Pn.
  - intros c I. apply (new_total nss limit [] s' rank O [] [] W' known_none (Permutation_refl _) _ _ B). apply in_app_or in I as [I | I]; apply in_or_app; [left|now right].
    now apply (Permutation_in _ (Permutation_sym Pn)).
Qed.

(** Its classes have the elements and attributes of the types. *)
Lemma loadable_classes sort n rt nss limit s rank O x : list_sort sort -> schema_works nss n limit s rank -> states_schema x s ->
  exists code m, schema_to_py sort n nss [] x = Ok code /\ load rt limit O code = Ok m /\
  forall p, In p (sc_complexes s) -> cp_base p = None ->
  exists d, module_class m (capital (cp_name p)) d /\ cd_mro d = [capital (cp_name p); "xsd.ComplexType"] /\ cd_kind d = CKPlain /\
    cd_ind d = match co_ind (cp_content p) with Some i => i | None => ISequence end /\
    cd_schema d = Some {| si_tns := Some (sc_tns s); si_efd := sc_efd s |} /\
    Forall2 (mirrors m nss) (co_attrs (cp_content p) ++ co_elems (cp_content p)) (cd_fields d).
Proof.
  intros LS W S. destruct (loadable sort n rt nss limit s rank O x LS W S) as (code & m & C & L & _). exists code, m. split; [exact C|]. split; [exact L|].
  intros p Ip Bp. destruct S as (Ht & He & _ & (b2 & cts & H2 & F2) & _). destruct (forall2_right _ _ _ F2 p Ip) as (ct & Ic & [Hn Hc]). rewrite Bp in Hc.
  destruct Hc as [Lc (els & attrs & Sc & Se & Sa)].
  assert (Wp : complex_works nss limit (joined [] s) rank p) by exact (complex_ok n nss limit [] s rank W p Ip). destruct Wp as ((U & _) & _).
  destruct (plain_class_printed sort n rt limit O nss [] x code m b2 cts ct (cp_name p) (co_ind (cp_content p)) els attrs (co_elems (cp_content p)) (co_attrs (cp_content p))
    LS (Forall_nil _) C L H2 Ic Hn Se Sa U Lc Sc) as (d & Md & Mr & Kd & In_ & Mi).
  exists d. split; [exact Md|]. split; [exact Mr|]. split; [exact Kd|]. split; [exact In_|]. split; [|exact Mi].
  destruct W as (_ & _ & Pt & Pe & _).
  exact (class_namespace_printed sort n rt limit O nss [] x code m b2 cts ct (cp_name p) d (sc_tns s) (sc_efd s) LS C L H2 Ic Hn Md Ht He Pt Pe).
Qed.
