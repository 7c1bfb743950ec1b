(** The orders of generated code. *)
From Coq Require Import String Ascii List ZArith NArith Bool Lia Permutation.
From Verif Require Import PyBase GenOrder SpecOrder PfBase.
Import ListNotations.
Open Scope nat_scope.
Open Scope string_scope.
Open Scope list_scope.

(** ** Schemas *)
Lemma ns_eqb_spec a b : ns_eqb a b = true <-> a = b.
Proof.
  destruct a as [a|], b as [b|]; cbn; try (split; congruence). rewrite String.eqb_eq. split; congruence.
Qed.
Lemma ns_in_spec n l : ns_in n l = true <-> In n l.
Proof.
  unfold ns_in. rewrite existsb_exists. split.
  - intros (x & I & E). apply ns_eqb_spec in E. now subst.
  - intros I. exists n. split; [exact I|]. now apply ns_eqb_spec.
Qed.
Lemma loop_perm counter : forall x schemas targets, Permutation (reorder_loop counter x schemas targets) (schemas ++ x).
Proof.
  induction counter as [|k IH]; intros [|s x] schemas targets; cbn [reorder_loop]; try reflexivity.
  destruct (nonempty x && _ && _).
  - rewrite IH. apply Permutation_app_head. rewrite Permutation_app_comm. reflexivity.
  - rewrite IH. rewrite <- app_assoc. reflexivity.
Qed.
Lemma reorder_perm l : Permutation (reorder_schemas l) l.
Proof. apply loop_perm. Qed.

Definition missing (targets : list (option string)) (s : schema_doc) : list (option string) :=
  filter (fun n => negb (ns_in n targets)) (sd_imports s).
Lemma missing_nil targets s : missing targets s = [] <-> forall n, In n (sd_imports s) -> In n targets.
Proof.
  unfold missing. split.
  - intros H n I. apply ns_in_spec. destruct (ns_in n targets) eqn:E; [reflexivity|].
    assert (X : In n []) by (rewrite <- H; apply filter_In; rewrite E; auto). destruct X.
  - intros H. destruct (filter _ _) as [|n r] eqn:E; [reflexivity|].
    assert (X : In n (n :: r)) by now left. rewrite <- E in X. apply filter_In in X as [I N].
    apply H, ns_in_spec in I. now rewrite I in N.
Qed.
Definition closed (l : list schema_doc) : Prop := forall l1 s l2 n, l = l1 ++ s :: l2 -> In n (sd_imports s) -> In n (map sd_target l1).
Lemma closed_all l : closed l <-> all_imported l.
Proof.
  split; intros H l1 s l2 n E I; specialize (H l1 s l2 n E I).
  - apply in_map_iff in H as (t & <- & It). eauto.
  - destruct H as (t & It & <-). now apply in_map.
Qed.
Lemma snoc_split {A} (a : list A) x l1 y l2 : a ++ [x] = l1 ++ y :: l2 -> (l2 = [] /\ y = x /\ l1 = a) \/ exists l3, l2 = l3 ++ [x] /\ a = l1 ++ y :: l3.
Proof.
  intros H. destruct (@exists_last _ (y :: l2)) as (l3 & z & E); [discriminate|].
  rewrite E, app_assoc in H. apply app_inj_tail in H as [H ->].
  destruct l3 as [|w l3]; injection E as -> ->; [left|right].
  - rewrite app_nil_r in H. auto.
  - exists l3. auto.
Qed.
Lemma closed_snoc l s : closed l -> (forall n, In n (sd_imports s) -> In n (map sd_target l)) -> closed (l ++ [s]).
Proof.
  intros C H l1 t l2 n E I. apply snoc_split in E as [(-> & -> & ->)|(l3 & -> & ->)]; [auto|]. eapply C; eauto.
Qed.
Lemma loop_parts rest : forall def acc targets,
  (forall n, In n targets <-> In n (map sd_target acc)) -> Forall (fun s => sd_imports s <> []) def -> closed acc ->
  exists A D, reorder_loop (length rest) (rest ++ def) acc targets = A ++ D /\ Forall (fun s => sd_imports s <> []) D /\
    (closed A \/ (D = [] /\ exists A' s, A = A' ++ [s] /\ closed A')).
Proof.
  induction rest as [|s rest IH]; intros def acc targets T Df C; cbn [length app reorder_loop].
  - exists acc, def. split; [destruct def; reflexivity|]. auto.
  - fold (missing targets s). destruct (nonempty (rest ++ def) && nonempty (sd_imports s) && nonempty (missing targets s)) eqn:B.
    + apply andb_prop in B as [B _]. apply andb_prop in B as [_ B]. rewrite <- app_assoc. apply IH; auto.
      apply Forall_app. split; [exact Df|]. constructor; [|constructor]. destruct (sd_imports s); discriminate.
    + assert (T' : forall n, In n (sd_target s :: targets) <-> In n (map sd_target (acc ++ [s]))).
      { intros n. rewrite map_app, in_app_iff. cbn. rewrite T. tauto. }
      assert (Cs : missing targets s = [] -> closed (acc ++ [s])).
      { intros M. apply closed_snoc; [exact C|]. intros n I. apply T. revert n I. now apply missing_nil. }
      destruct (missing targets s) as [|m ms] eqn:M; [now apply IH; auto|].
      destruct (sd_imports s) as [|i is] eqn:Is; [unfold missing in M; rewrite Is in M; discriminate|].
      cbn in B. rewrite !andb_true_r in B. destruct (rest ++ def) as [|y ys] eqn:R; [|discriminate].
      apply app_eq_nil in R as [-> ->]. exists (acc ++ [s]), []. split; [cbn [length reorder_loop]; now rewrite app_nil_r|].
      split; [constructor|]. right. split; [reflexivity|]. eauto.
Qed.
Lemma app_split {A} (a b l1 : list A) x l2 : a ++ b = l1 ++ x :: l2 ->
  (exists a2, a = l1 ++ x :: a2 /\ l2 = a2 ++ b) \/ exists b1, b = b1 ++ x :: l2 /\ l1 = a ++ b1.
Proof.
  revert l1. induction a as [|y a IH]; intros l1 H; cbn in H.
  - right. exists l1. auto.
  - destruct l1 as [|z l1]; injection H as -> H.
    + left. exists a. auto.
    + destruct (IH l1 H) as [(a2 & -> & ->)|(b1 & -> & ->)]; [left; exists a2; auto|right; exists b1; auto].
Qed.
Lemma schemas_sorted l : NoDup (map sd_target l) -> (forall s t, In s l -> In t l -> imports s t -> sd_imports t = []) ->
  imports_first (reorder_schemas l).
Proof.
  intros N H. destruct (loop_parts l [] [] []) as (A & D & E & FD & C); [tauto|constructor|intros [|] ? ? ? [=]|].
  rewrite app_nil_r in E. assert (P : Permutation (A ++ D) l) by (rewrite <- E; apply reorder_perm).
  assert (N' : NoDup (map sd_target (A ++ D))) by (eapply Permutation_NoDup; [apply Permutation_map, Permutation_sym, P|exact N]).
  intros l1 s l2 t R It Im. fold (reorder_schemas l) in E. rewrite E in R.
  assert (Ht : sd_imports t = []).
  { apply (H s t); [..|exact Im]; apply (Permutation_in _ P); rewrite R; apply in_or_app; right; [left|right]; auto. }
  assert (ND : ~ In t D) by (intros I; rewrite Forall_forall in FD; now apply (FD t I)).
  destruct (app_split _ _ _ _ _ R) as [(a2 & -> & ->)|(b1 & -> & ->)].
  2: { apply ND. apply in_or_app. right. now right. }
  apply in_app_or in It as [It|It]; [|contradiction].
  assert (X : In (sd_target t) (map sd_target l1)).
  { destruct C as [C|(-> & A' & s' & EA & C)]; [exact (C l1 s a2 _ eq_refl Im)|].
    symmetry in EA. apply snoc_split in EA as [(-> & _)|(l3 & -> & ->)]; [destruct It|]. exact (C l1 s l3 _ eq_refl Im). }
  rewrite <- app_assoc, map_app in N'. cbn [map app] in N'. apply NoDup_remove in N' as [N' _]. revert N' X. rewrite map_app.
  intros N' X. apply in_map with (f := sd_target) in It. clear -N' X It.
  induction (map sd_target l1) as [|y ys IH]; [destruct X|]. cbn in N'. inversion N' as [|? ? Ny N2]; subst.
  destruct X as [-> | X]; [apply Ny, in_or_app; right; apply in_or_app; now left|auto].
Qed.
Lemma loop_closed rest : forall acc targets, (forall n, In n targets <-> In n (map sd_target acc)) -> closed (acc ++ rest) ->
  reorder_loop (length rest) rest acc targets = acc ++ rest.
Proof.
  induction rest as [|s rest IH]; intros acc targets T C; cbn [length reorder_loop]; [reflexivity|].
  fold (missing targets s). assert (M : missing targets s = []).
  { apply missing_nil. intros n I. apply T. exact (C acc s rest n eq_refl I). }
  rewrite M. cbn [nonempty]. rewrite !andb_false_r. rewrite IH.
  - now rewrite <- app_assoc.
  - intros n. rewrite map_app, in_app_iff. cbn. rewrite T. tauto.
  - now rewrite <- app_assoc.
Qed.
Lemma schemas_kept l : all_imported l -> reorder_schemas l = l.
Proof. intros H. apply (loop_closed l [] []); [tauto|now apply closed_all]. Qed.
Lemma chain_wrong a b c : sd_imports a = [sd_target b] -> sd_imports b = [sd_target c] -> sd_imports c = [] ->
  reorder_schemas [a; b; c] = [c; a; b].
Proof.
  intros Ha Hb Hc. unfold reorder_schemas. cbn [length reorder_loop app nonempty]. rewrite Ha. cbn [nonempty filter ns_in existsb negb andb].
  rewrite Hb. cbn [nonempty filter ns_in existsb negb andb app]. rewrite Hc. reflexivity.
Qed.

(** ** Stable sorting *)
Section U.
  Context {A : Type} (le : A -> A -> bool).
  Definition sorted (l : list A) : Prop := forall l1 x l2 y l3, l = l1 ++ x :: l2 ++ y :: l3 -> le x y = true.
  Let eqv x y := le x y && le y x.
  Lemma sorted_tail x l : sorted (x :: l) -> sorted l.
  Proof. intros S l1 y l2 z l3 ->. apply (S (x :: l1) y l2 z l3 eq_refl). Qed.
  Lemma sorted_head x l : sorted (x :: l) -> forall y, In y l -> le x y = true.
  Proof. intros S y I. apply in_split in I as (l1 & l2 & ->). exact (S [] x l1 y l2 eq_refl). Qed.
  Lemma unique_stable l : forall c, (forall x, In x l \/ In x c -> le x x = true) ->
    (forall x y z, le x y = true -> le y z = true -> (In x l \/ In x c) -> (In y l \/ In y c) -> (In z l \/ In z c) -> le x z = true) ->
    sorted l -> sorted c -> (forall x, In x l \/ In x c -> filter (eqv x) l = filter (eqv x) c) -> l = c.
  Proof.
    induction l as [|x l IH]; intros [|y c] Rf Tr Sl Sc F; [reflexivity|..].
    - exfalso. specialize (F y (or_intror (or_introl eq_refl))). cbn in F. unfold eqv in F. rewrite (Rf y) in F by (right; now left). discriminate.
    - exfalso. specialize (F x (or_introl (or_introl eq_refl))). cbn in F. unfold eqv in F. rewrite (Rf x) in F by (left; now left). discriminate.
    - assert (Hx : le x x = true) by (apply Rf; left; now left).
      assert (Hy : le y y = true) by (apply Rf; right; now left).
      assert (Ex : eqv x x = true) by (unfold eqv; now rewrite Hx).
      assert (Ey : eqv y y = true) by (unfold eqv; now rewrite Hy).
      assert (Ix : In x (y :: c)).
      { specialize (F x (or_introl (or_introl eq_refl))). cbn [filter] in F. rewrite Ex in F.
        assert (I : In x (filter (eqv x) (y :: c))) by (cbn [filter]; rewrite <- F; now left). now apply filter_In in I. }
      assert (Iy : In y (x :: l)).
      { specialize (F y (or_intror (or_introl eq_refl))). cbn [filter] in F. rewrite Ey in F.
        assert (I : In y (filter (eqv y) (x :: l))) by (cbn [filter]; rewrite F; now left). now apply filter_In in I. }
      assert (Lyx : le y x = true) by (destruct Ix as [-> | Ix]; [exact Hx|apply (sorted_head _ _ Sc _ Ix)]).
      assert (Lxy : le x y = true) by (destruct Iy as [-> | Iy]; [exact Hy|apply (sorted_head _ _ Sl _ Iy)]).
      assert (E : x = y).
      { specialize (F x (or_introl (or_introl eq_refl))). cbn [filter] in F.
        assert (Exy : eqv x y = true) by (unfold eqv; now rewrite Lxy, Lyx). rewrite Ex, Exy in F. now injection F. }
      subst y. f_equal. apply IH.
      + intros z Hz. apply Rf. cbn. tauto.
      + intros a b d H1 H2 H3 H4 H5. apply (Tr a b d); auto; cbn; tauto.
      + eapply sorted_tail; eauto.
      + eapply sorted_tail; eauto.
      + intros z Hz. specialize (F z ltac:(cbn; tauto)). cbn [filter] in F. destruct (eqv z x); [now injection F|exact F].
  Qed.
End U.

(** ** Types *)
Definition base_of (t : xsd_type) : string :=
  match xt_content t with
  | Some (Some e, _) => e
  | Some (None, Some r) => r
  | _ => ""
  end.
Lemma based_base t b : based_on t b -> base_of t = b.
Proof. unfold based_on, base_of. intros [(r & ->)| ->]; reflexivity. Qed.
Lemma well_cases l : well_formed l -> forall t, In t l -> xt_name t <> "" /\ (plain_type t /\ base_of t = "" \/ based_on t (base_of t) /\ base_of t <> "").
Proof.
  intros [_ W] t I. destruct (W t I) as [N [P | (b & B & Nb)]]; (split; [exact N|]).
  - left. split; [exact P|]. unfold base_of. now rewrite P.
  - right. rewrite (based_base _ _ B). auto.
Qed.
Lemma make_weights_spec types : forall n base w, NoDup (map xt_name types) ->
  (forall t, In t types -> plain_type t \/ exists b, based_on t b) ->
  exists w', make_weights n base w types = Ok w' /\
    (forall l1 t l2, types = l1 ++ t :: l2 -> assoc (xt_name t) w' = Some ((n + Z.of_nat (length l1))%Z, base_of t)) /\
    (forall x, ~ In x (map xt_name types) -> assoc x w' = assoc x w).
Proof.
  induction types as [|t types IH]; intros n base w N W; cbn [make_weights].
  - exists w. split; [reflexivity|]. split; [intros [|] ? ? [=]|auto].
  - inversion N as [|? ? Nt N']; subst.
    assert (E : exists base', match xt_content t with
                   | Some (Some e, _) => Some e | Some (None, Some r) => Some r
                   | Some (None, None) => base | None => Some "" end = Some base' /\ base' = base_of t).
    { unfold base_of. destruct (W t (or_introl eq_refl)) as [P | (b & [(r & B) | B])].
      - rewrite P. eauto. - rewrite B. eauto. - rewrite B. eauto. }
    destruct E as (b & -> & ->).
    destruct (IH (n + 1)%Z (Some (base_of t)) (assoc_set (xt_name t) (n, base_of t) w) N') as (w' & Hw & H1 & H2); [intros u Iu; apply W; now right|].
    exists w'. split; [exact Hw|]. split.
    + intros [|u l1] v l2 [= <- ->].
      * rewrite H2 by exact Nt. cbn. rewrite assoc_set_same. now rewrite Z.add_0_r.
      * rewrite (H1 l1 v l2 eq_refl). f_equal. f_equal. cbn [length]. lia.
    + intros x I. rewrite H2 by (cbn in I; tauto). apply assoc_set_other. cbn in I. intros ->. tauto.
Qed.

Section T.
  Variable n : nat.
  Variable l : list xsd_type.
  Hypothesis WF : well_formed l.
  Variable w : weights.
  Hypothesis Hw : make_weights 0 None [] l = Ok w.
  Lemma weight_of l1 t l2 : l = l1 ++ t :: l2 -> weight w (xt_name t) = Ok (Z.of_nat (length l1), base_of t).
  Proof.
    intros E. destruct (make_weights_spec l 0 None [] (proj1 WF)) as (w' & Hw' & H1 & _).
    { intros u I. destruct (proj2 WF u I) as [_ [P | (b & B & _)]]; eauto. }
    rewrite Hw in Hw'. injection Hw' as <-. unfold weight. now rewrite (H1 _ _ _ E).
  Qed.
  Definition pos (name : string) : Z := match weight w name with Ok p => fst p | Err _ => 0%Z end.
  Definition par (name : string) : string := match weight w name with Ok p => snd p | Err _ => "" end.
  Lemma weight_in t : In t l -> weight w (xt_name t) = Ok (pos (xt_name t), par (xt_name t)) /\ par (xt_name t) = base_of t.
  Proof. intros I. apply in_split in I as (l1 & l2 & E). unfold pos, par. rewrite (weight_of _ _ _ E). auto. Qed.
  Lemma pos_split l1 t l2 : l = l1 ++ t :: l2 -> pos (xt_name t) = Z.of_nat (length l1).
  Proof. intros E. unfold pos. now rewrite (weight_of _ _ _ E). Qed.
  Lemma pos_inj t u : In t l -> In u l -> pos (xt_name t) = pos (xt_name u) -> t = u.
  Proof.
    intros It Iu. apply in_split in It as (l1 & l2 & E). apply in_split in Iu as (l3 & l4 & E').
    rewrite (pos_split _ _ _ E), (pos_split _ _ _ E'). intros L. assert (L' : length l1 = length l3) by lia.
    rewrite E in E'. clear -E' L'. revert l3 E' L'. induction l1 as [|x l1 IH]; intros [|y l3] E L; cbn in *; try lia; [now injection E|].
    injection E as _ E. eapply IH; eauto.
  Qed.
  Lemma name_inj t u : In t l -> In u l -> xt_name t = xt_name u -> t = u.
  Proof. intros It Iu E. apply pos_inj; auto. now rewrite E. Qed.

  (** *** Bases without a prefix *)
  Section L.
    Variable depth : string -> nat.
    Hypothesis Hd : forall t, In t l -> S (depth (xt_name t)) < n.
    Hypothesis Hb : forall t b, In t l -> based_on t b -> ~ In colon (list_ascii_of_string b) /\
      exists u, In u l /\ xt_name u = b /\ depth b < depth (xt_name t).

    Fixpoint up (k : nat) (a : string) : string * nat :=
      if String.eqb (par a) "" then (a, 0)
      else match k with
           | O => (a, 0)
           | S k' => (fst (up k' (par a)), S (snd (up k' (par a))))
           end.
    Definition known (a : string) : Prop := exists t, In t l /\ xt_name t = a.
    Lemma known_cases a : known a -> a <> "" /\ weight w a = Ok (pos a, par a) /\
      (par a = "" \/ par a <> "" /\ char_in colon (par a) = false /\ known (par a) /\ depth (par a) < depth a).
    Proof.
      intros (t & It & <-). destruct (well_cases l WF t It) as [Nn B]. destruct (weight_in t It) as [Ww Pb].
      split; [exact Nn|]. split; [exact Ww|]. rewrite Pb. destruct B as [[_ B] | [B Nb]]; [left; exact B|right].
      destruct (Hb t _ It B) as (Nc & u & Iu & Nu & D). split; [exact Nb|]. split.
      - destruct (char_in colon (base_of t)) eqn:C; [|reflexivity]. apply char_in_spec in C. contradiction.
      - split; [exists u; auto|exact D].
    Qed.
    Lemma up_enough k : forall k' a, known a -> depth a < k -> depth a < k' -> up k a = up k' a.
    Proof.
      induction k as [|k IH]; intros [|k'] a K L L'; try lia. cbn [up].
      destruct (String.eqb_spec (par a) "") as [E|E]; [reflexivity|].
      destruct (known_cases a K) as (_ & _ & [C | (_ & _ & K' & D)]); [contradiction|].
      rewrite (IH k' (par a) K') by lia. reflexivity.
    Qed.
    Definition key (a : string) : string * nat := up n a.
    Lemma depth_n a : known a -> S (depth a) < n.
    Proof. intros (t & It & <-). auto. Qed.
    Lemma key_root a : par a = "" -> key a = (a, 0).
    Proof. intros E. unfold key. destruct n; cbn [up]; now rewrite E. Qed.
    Lemma key_up a : known a -> par a <> "" -> key a = (fst (key (par a)), S (snd (key (par a)))).
    Proof.
      intros K N. destruct (known_cases a K) as (_ & _ & [C | (_ & _ & K' & D)]); [contradiction|].
      pose proof (depth_n a K). unfold key. destruct n as [|k] eqn:En; [lia|]. cbn [up].
      destruct (String.eqb_spec (par a) "") as [E|E]; [contradiction|].
      rewrite (up_enough k (S k) (par a) K') by lia. reflexivity.
    Qed.
    Lemma key_bound a : known a -> snd (key a) <= depth a.
    Proof.
      remember (depth a) as d eqn:Ed. revert a Ed. induction d as [d IH] using lt_wf_ind. intros a -> K.
      destruct (known_cases a K) as (_ & _ & [C | (N & _ & K' & D)]); [rewrite key_root by exact C; cbn; lia|].
      rewrite key_up by assumption. cbn [snd]. specialize (IH _ D _ eq_refl K'). lia.
    Qed.
    Lemma root_known a : known a -> known (fst (key a)).
    Proof.
      remember (depth a) as d eqn:Ed. revert a Ed. induction d as [d IH] using lt_wf_ind. intros a -> K.
      destruct (known_cases a K) as (_ & _ & [C | (N & _ & K' & D)]); [rewrite key_root by exact C; exact K|].
      rewrite key_up by assumption. cbn [fst]. exact (IH _ D _ eq_refl K').
    Qed.

    Lemma cmp_spec m : forall a b, known a -> known b -> snd (key a) <= m -> snd (key b) <= m ->
      exists z, cmp (S m) w a b = Ok z /\
        (fst (key a) <> fst (key b) -> z = (pos (fst (key a)) - pos (fst (key b)))%Z) /\
        (fst (key a) = fst (key b) -> Z.sgn z = Z.sgn (Z.of_nat (snd (key a)) - Z.of_nat (snd (key b)))).
    Proof.
      induction m as [|m IH]; intros a b Ka Kb La Lb;
        destruct (known_cases a Ka) as (Na & Wa & Ca), (known_cases b Kb) as (Nb & Wb & Cb);
        cbn [cmp]; rewrite Wa, Wb; cbn [bind fst snd].
      - assert (Ra : par a = "") by (destruct Ca as [C | (N & _)]; [exact C|rewrite (key_up a Ka N) in La; cbn in La; lia]).
        assert (Rb : par b = "") by (destruct Cb as [C | (N & _)]; [exact C|rewrite (key_up b Kb N) in Lb; cbn in Lb; lia]).
        rewrite Ra, Rb. cbn [String.eqb andb]. rewrite (key_root a Ra), (key_root b Rb). cbn [fst snd].
        eexists. split; [reflexivity|]. split; [auto|]. intros ->. now rewrite Z.sub_diag.
      - destruct (String.eqb_spec (par a) "") as [Ra|Ra], (String.eqb_spec (par b) "") as [Rb|Rb]; cbn [andb].
        + rewrite (key_root a Ra), (key_root b Rb). cbn [fst snd]. eexists. split; [reflexivity|]. split; [auto|]. intros ->. now rewrite Z.sub_diag.
        + destruct Cb as [Cb | (_ & Xb & Kb' & _)]; [contradiction|]. rewrite Ra. rewrite Xb.
          destruct (String.eqb_spec b "") as [E|_]; [contradiction|]. cbn [orb]. change (char_in colon "") with false. cbn iota. rewrite orb_false_r.
          rewrite (key_up b Kb Rb) in *. cbn [fst snd] in *.
          destruct (String.eqb_spec a (par b)) as [<-|Nab]; [rewrite (key_root a Ra); cbn [fst snd]; exists (-1)%Z; split; [reflexivity|split; [congruence|reflexivity]]|].
          destruct (IH a (par b) Ka Kb') as (z & Hz & H1 & H2); [rewrite (key_root a Ra); cbn; lia|lia|].
          exists z. split; [exact Hz|]. split; [exact H1|]. intros E. rewrite (H2 E). rewrite (key_root a Ra) in *. cbn [fst snd] in *.
          destruct (snd (key (par b))) as [|k] eqn:Sk; [|lia].
          exfalso. apply Nab. destruct (known_cases _ Kb') as (_ & _ & [C | (N & _ & _ & _)]); [rewrite (key_root _ C) in E; exact E|].
          rewrite (key_up _ Kb' N) in Sk. discriminate.
        + destruct Ca as [Ca | (_ & Xa & Ka' & _)]; [contradiction|]. rewrite Xa. rewrite Rb.
          destruct (String.eqb_spec a "") as [E|_]; [contradiction|]. rewrite orb_false_r.
          rewrite (key_up a Ka Ra) in *. cbn [fst snd] in *.
          destruct (String.eqb_spec b (par a)) as [->|Nab]; [rewrite (key_root _ Rb); cbn [fst snd]; exists 1%Z; split; [reflexivity|split; [congruence|reflexivity]]|].
          change (char_in colon "") with false. cbn [orb].
          destruct (IH (par a) b Ka' Kb) as (z & Hz & H1 & H2); [lia|rewrite (key_root b Rb); cbn; lia|].
          exists z. split; [exact Hz|]. split; [exact H1|]. intros E. rewrite (H2 E). rewrite (key_root b Rb) in *. cbn [fst snd] in *.
          destruct (snd (key (par a))) as [|k] eqn:Sk; [|lia].
          exfalso. apply Nab. destruct (known_cases _ Ka') as (_ & _ & [C | (N & _ & _ & _)]); [rewrite (key_root _ C) in E; now symmetry|].
          rewrite (key_up _ Ka' N) in Sk. discriminate.
        + destruct Ca as [Ca | (_ & Xa & Ka' & _)]; [contradiction|]. destruct Cb as [Cb | (_ & Xb & Kb' & _)]; [contradiction|].
          rewrite Xa, Xb, !orb_false_r. rewrite (key_up a Ka Ra), (key_up b Kb Rb) in *. cbn [fst snd] in *.
          destruct (String.eqb_spec b (par a)) as [->|Nab].
          { exists 1%Z. split; [reflexivity|]. rewrite (key_up _ Kb Rb) in *. cbn [fst snd] in *. split; [congruence|]. intros _. lia. }
          destruct (String.eqb_spec a (par b)) as [->|Nba].
          { exists (-1)%Z. split; [reflexivity|]. rewrite (key_up _ Ka Ra) in *. cbn [fst snd] in *. split; [congruence|]. intros _. lia. }
          destruct (IH (par a) (par b) Ka' Kb') as (z & Hz & H1 & H2); [lia|lia|].
          exists z. split; [exact Hz|]. split; [exact H1|]. intros E. rewrite (H2 E). lia.
    Qed.

    Definition kle (x y : xsd_type) : bool :=
      let (rx, dx) := key (xt_name x) in let (ry, dy) := key (xt_name y) in
      (pos rx <? pos ry)%Z || ((pos rx =? pos ry)%Z && (dx <=? dy)%nat).
    Lemma kle_spec x y : kle x y = true <-> (pos (fst (key (xt_name x))) < pos (fst (key (xt_name y))))%Z \/
      (pos (fst (key (xt_name x))) = pos (fst (key (xt_name y))) /\ snd (key (xt_name x)) <= snd (key (xt_name y))).
    Proof.
      unfold kle. destruct (key (xt_name x)) as [rx dx], (key (xt_name y)) as [ry dy]. cbn [fst snd].
      rewrite orb_true_iff, andb_true_iff, Z.ltb_lt, Z.eqb_eq, Nat.leb_le. tauto.
    Qed.
    Lemma kle_lt x y : In x l -> In y l -> type_lt n w x y = Ok (negb (kle y x)).
    Proof.
      intros Ix Iy. assert (Kx : known (xt_name x)) by (exists x; auto). assert (Ky : known (xt_name y)) by (exists y; auto).
      pose proof (depth_n _ Kx). pose proof (depth_n _ Ky). pose proof (key_bound _ Kx). pose proof (key_bound _ Ky).
      destruct n as [|m] eqn:En; [lia|]. rewrite <- En in *.
      destruct (cmp_spec m _ _ Kx Ky) as (z & Hz & G1 & G2); [lia|lia|]. unfold type_lt. rewrite En, Hz. cbn [res_map]. f_equal.
      apply eq_true_iff_eq. rewrite Z.ltb_lt, negb_true_iff, <- not_true_iff_false, kle_spec.
      destruct (string_dec (fst (key (xt_name x))) (fst (key (xt_name y)))) as [E|N].
      - rewrite E. specialize (G2 E). split; intros HH; lia.
      - rewrite (G1 N). assert (P : pos (fst (key (xt_name x))) <> pos (fst (key (xt_name y)))).
        { intros E. destruct (root_known _ Kx) as (u & Iu & Nu), (root_known _ Ky) as (v & Iv & Nv). rewrite <- Nu, <- Nv in E, N.
          apply N. f_equal. now apply pos_inj. }
        lia.
    Qed.
    Lemma local_sorted sort : list_sort sort -> exists l', sort (type_lt n w) l = Ok l' /\ Permutation l' l /\ bases_first l'.
    Proof.
      intros LS. destruct (ls_sorted _ LS (type_lt n w) l kle) as (l' & Hs & So & _).
      - intros x y. apply kle_lt.
      - intros x y _ _. rewrite !kle_spec. lia.
      - intros x y z _ _ _. rewrite !kle_spec. lia.
      - exists l'. split; [exact Hs|]. pose proof (ls_perm _ LS _ _ _ Hs) as P. split; [exact P|].
        intros l1 t l2 b E B. assert (It : In t l) by (apply (Permutation_in _ P); rewrite E; apply in_elt).
        destruct (Hb t b It B) as (_ & u & Iu & Nu & D). exists u. split; [|exact Nu].
        assert (Iu' : In u l') by (apply (Permutation_in _ (Permutation_sym P)), Iu). rewrite E in Iu'. apply in_app_or in Iu' as [Iu' | [-> | Iu']]; [exact Iu'| |].
        + rewrite Nu in D. lia.
        + exfalso. apply in_split in Iu' as (l3 & l4 & ->). specialize (So l1 t l3 u l4 E). apply kle_spec in So.
          assert (Kt : known (xt_name t)) by (exists t; auto).
          assert (Pt : par (xt_name t) = b) by (rewrite (proj2 (weight_in t It)); now apply based_base).
          assert (Nb : par (xt_name t) <> "") by (rewrite Pt, <- Nu; apply (well_cases l WF u Iu)).
          rewrite (key_up _ Kt Nb), Pt, <- Nu in So. cbn [fst snd] in So. lia.
    Qed.
  End L.

  (** *** Bases with a prefix *)
  Section Px.
    Hypothesis Hp : forall t b, In t l -> based_on t b -> In colon (list_ascii_of_string b).
    Hypothesis Hn : 0 < n.
    Definition is_plain (t : xsd_type) : bool := match xt_content t with None => true | _ => false end.
    Lemma is_plain_spec t : is_plain t = true <-> plain_type t.
    Proof. unfold is_plain, plain_type. destruct (xt_content t); split; congruence. Qed.
    Definition ple (x y : xsd_type) : bool :=
      if is_plain x then if is_plain y then (pos (xt_name x) <=? pos (xt_name y))%Z else true
      else negb (is_plain y).
    Lemma plain_par t : In t l -> if is_plain t then par (xt_name t) = "" else par (xt_name t) <> "" /\ char_in colon (par (xt_name t)) = true.
    Proof.
      intros It. rewrite (proj2 (weight_in t It)). destruct (well_cases l WF t It) as [_ [[P B] | [B N]]].
      - apply is_plain_spec in P. now rewrite P.
      - replace (is_plain t) with false.
        + split; [exact N|]. apply char_in_spec. eapply Hp; eauto.
        + symmetry. unfold is_plain. destruct B as [(r & ->) | ->]; reflexivity.
    Qed.
    Lemma ple_lt x y : In x l -> In y l -> type_lt n w x y = Ok (negb (ple y x)).
    Proof.
      intros Ix Iy. unfold type_lt. destruct n as [|k]; [lia|]. cbn [cmp].
      rewrite (proj1 (weight_in x Ix)), (proj1 (weight_in y Iy)). cbn [bind fst snd].
      pose proof (plain_par x Ix) as Px. pose proof (plain_par y Iy) as Py.
      assert (Nx : xt_name x <> "") by apply (well_cases l WF x Ix). assert (Ny : xt_name y <> "") by apply (well_cases l WF y Iy).
      apply String.eqb_neq in Nx, Ny. unfold ple. destruct (is_plain x), (is_plain y).
      - rewrite Px, Py. cbn [String.eqb andb res_map]. f_equal. apply eq_true_iff_eq. rewrite Z.ltb_lt, negb_true_iff, Z.leb_gt. lia.
      - destruct Py as [Py Cy]. apply String.eqb_neq in Py. rewrite Px, Py. cbn [String.eqb andb]. rewrite Ny.
        change (char_in colon "") with false. cbn [orb]. rewrite Cy, orb_true_r. reflexivity.
      - destruct Px as [Px Cx]. apply String.eqb_neq in Px. rewrite Px. cbn [andb]. rewrite Cx, orb_true_r. reflexivity.
      - destruct Px as [Px Cx]. apply String.eqb_neq in Px. rewrite Px. cbn [andb]. rewrite Cx, orb_true_r. reflexivity.
    Qed.
    Lemma ple_refl x : ple x x = true.
    Proof. unfold ple. destruct (is_plain x); [apply Z.leb_refl|reflexivity]. Qed.
    Lemma ple_trans x y z : ple x y = true -> ple y z = true -> ple x z = true.
    Proof. unfold ple. destruct (is_plain x), (is_plain y), (is_plain z); cbn; try discriminate; auto. rewrite !Z.leb_le. lia. Qed.
    Lemma plain_first : sorted ple (filter is_plain l ++ filter (fun t => negb (is_plain t)) l).
    Proof.
      intros l1 x l2 y l3 E.
      assert (C : forall (p : xsd_type -> bool) m m1 x m2 y m3, filter p m = m1 ++ x :: m2 ++ y :: m3 -> exists k1 k2 k3, m = k1 ++ x :: k2 ++ y :: k3).
      { intros p m. induction m as [|a m IH]; cbn [filter]; intros m1 x' m2 y' m3 F; [destruct m1; discriminate|].
        destruct (p a).
        - destruct m1 as [|b m1]; injection F as -> F.
          + assert (I : In y' m) by (assert (I : In y' (filter p m)) by (rewrite F; apply in_elt); now apply filter_In in I).
            apply in_split in I as (k2 & k3 & ->). exists [], k2, k3. reflexivity.
          + destruct (IH m1 x' m2 y' m3 F) as (k1 & k2 & k3 & ->). exists (b :: k1), k2, k3. reflexivity.
        - destruct (IH m1 x' m2 y' m3 F) as (k1 & k2 & k3 & ->). exists (a :: k1), k2, k3. reflexivity. }
      destruct (app_split _ _ _ _ _ E) as [(a2 & Ea & E2)|(b1 & Eb & _)].
      - assert (Px : is_plain x = true) by (assert (I : In x (filter is_plain l)) by (rewrite Ea; apply in_elt); now apply filter_In in I).
        unfold ple. rewrite Px. destruct (is_plain y) eqn:Py; [|reflexivity].
        symmetry in E2. destruct (app_split _ _ _ _ _ E2) as [(a3 & -> & _)|(b1 & Eb & _)].
        + destruct (C _ _ _ _ _ _ _ Ea) as (k1 & k2 & k3 & El). rewrite (pos_split k1 x _ El).
          rewrite (pos_split (k1 ++ x :: k2) y k3) by (now rewrite <- app_assoc). rewrite app_length. apply Z.leb_le. lia.
        + exfalso. assert (I : In y (filter (fun t => negb (is_plain t)) l)) by (rewrite Eb; apply in_elt). apply filter_In in I as [_ I]. now rewrite Py in I.
      - assert (Nx : negb (is_plain x) = true) by (assert (I : In x (filter (fun t => negb (is_plain t)) l)) by (rewrite Eb; apply in_elt); now apply filter_In in I).
        assert (Ny : negb (is_plain y) = true).
        { assert (I : In y (filter (fun t => negb (is_plain t)) l)) by (rewrite Eb; apply in_or_app; right; right; apply in_elt). now apply filter_In in I. }
        unfold ple. apply negb_true_iff in Nx. rewrite Nx. exact Ny.
    Qed.
    Lemma filter_both {A} (p q : A -> bool) m : filter p (filter q m) = filter (fun x => q x && p x) m.
    Proof. induction m as [|a m IH]; cbn; [reflexivity|]. destruct (q a); cbn; rewrite IH; reflexivity. Qed.
    Lemma filter_none {A} (p : A -> bool) m : (forall x, In x m -> p x = false) -> filter p m = [].
    Proof. induction m as [|a m IH]; cbn; intros H; [reflexivity|]. rewrite (H a) by now left. apply IH. auto. Qed.
    Lemma prefixed_sorted sort : list_sort sort ->
      sort (type_lt n w) l = Ok (filter is_plain l ++ filter (fun t => negb (is_plain t)) l).
    Proof.
      intros LS. destruct (ls_sorted _ LS (type_lt n w) l ple) as (l' & Hs & So & St).
      - intros x y. apply ple_lt.
      - intros x y _ _. unfold ple. destruct (is_plain x), (is_plain y); cbn; auto. rewrite !Z.leb_le. lia.
      - intros x y z _ _ _. apply ple_trans.
      - rewrite Hs. f_equal. pose proof (ls_perm _ LS _ _ _ Hs) as P.
        assert (Il : forall x, In x l' \/ In x (filter is_plain l ++ filter (fun t => negb (is_plain t)) l) -> In x l).
        { intros x [I|I]; [now apply (Permutation_in _ P)|]. apply in_app_or in I as [I|I]; now apply filter_In in I. }
        apply (unique_stable ple).
        + intros. apply ple_refl.
        + intros x y z H1 H2 _ _ _. eapply ple_trans; eauto.
        + exact So.
        + apply plain_first.
        + intros x I. rewrite (St x (Il x I)). rewrite filter_app, !filter_both. unfold ple. destruct (is_plain x) eqn:Px.
          * rewrite (filter_none (fun x0 => negb (is_plain x0) && _)).
            -- rewrite app_nil_r. apply filter_ext. intros y. destruct (is_plain y); cbn; [reflexivity|]. reflexivity.
            -- intros y _. destruct (is_plain y); reflexivity.
          * rewrite (filter_none (fun x0 => is_plain x0 && _)).
            -- cbn [app]. apply filter_ext. intros y. destruct (is_plain y); reflexivity.
            -- intros y _. destruct (is_plain y); reflexivity.
    Qed.
  End Px.
End T.
