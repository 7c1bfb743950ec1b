(** Proofs about element lookup and the schema walk (C35, C36). *)
From Coq Require Import String Ascii List ZArith NArith Bool Lia.
From Verif Require Import PyBase Xml PyVal XsdSimple XsdComplex XsdSchema SpecSchema PfBase.
Import ListNotations.

Lemma child_in G s t : In t (s_children (G s)) <-> imports_of G s t.
Proof. unfold s_children, imports_of. apply in_app_iff. Qed.

(** ** Lookup *)
Lemma first_some_find {A B} (get : A -> res (option B)) l r : first_some get l = Ok r ->
  match r with
  | Some e => exists pre x post, l = pre ++ x :: post /\ get x = Ok (Some e) /\ forall y, In y pre -> get y = Ok None
  | None => forall x, In x l -> get x = Ok None
  end.
Proof.
  induction l as [|x l IH]; cbn; intros H.
  - injection H as <-. easy.
  - apply bind_ok in H as (r1 & H1 & H). destruct r1 as [e|].
    + injection H as <-. exists [], x, l. repeat split; auto. easy.
    + specialize (IH H). destruct r as [e|].
      * destruct IH as (pre & y & post & -> & Hy & Hpre). exists (x :: pre), y, post. repeat split; auto.
        intros z [<-|Hz]; auto.
      * intros y [<-|Hy]; auto.
Qed.

Lemma first_declaration_app G name l m : first_declaration G name (l ++ m) =
  match first_declaration G name l with Some e => Some e | None => first_declaration G name m end.
Proof. induction l as [|s l IH]; cbn; auto. destruct (assoc name (s_elements (G s))); auto. Qed.

(** Whatever is returned is the first declaration in depth-first order. *)
Lemma get_element_dfs G name n : forall s r l, depth_first G s l -> get_element n G s name = Ok r ->
  r = first_declaration G name l.
Proof.
  induction n as [|n IH]; intros s r l D H; [discriminate|]. inversion D as [s' ls F Q1 Q2]; subst. cbn in *.
  destruct (assoc name (s_elements (G s))) as [e|]; [congruence|].
  clear D. unfold s_children in H. revert r ls F H. induction (s_imports (G s) ++ s_includes (G s)) as [|x L IHL];
    intros r ls F H; inversion F; subst; cbn in *.
  - congruence.
  - apply bind_ok in H as (r1 & H1 & H). rewrite first_declaration_app.
    rewrite <- (IH _ _ _ H2 H1). destruct r1; [congruence|]. eauto.
Qed.
(** With a rank that drops along imports, the lookup returns. *)
Lemma first_some_total {A B} (get : A -> res (option B)) l :
  (forall x, In x l -> exists r, get x = Ok r) -> exists r, first_some get l = Ok r.
Proof.
  induction l as [|x l IH]; intros H; cbn; eauto.
  destruct (H x (or_introl eq_refl)) as (r & ->). cbn. destruct r; eauto. apply IH. intros y Hy. apply H. now right.
Qed.
Lemma get_element_total G (P : nat -> Prop) rank name : (forall s t, P s -> imports_of G s t -> P t /\ rank t < rank s) ->
  forall n s, P s -> rank s < n -> exists r, get_element n G s name = Ok r.
Proof.
  intros HR. induction n as [|n IH]; intros s Ps Hn; [lia|]. cbn.
  destruct (assoc name (s_elements (G s))); eauto. apply first_some_total. intros t Ht.
  apply child_in in Ht. destruct (HR s t Ps Ht). apply IH; auto; lia.
Qed.
Lemma depth_first_exists G (P : nat -> Prop) rank : (forall s t, P s -> imports_of G s t -> P t /\ rank t < rank s) ->
  forall n s, P s -> rank s < n -> exists l, depth_first G s l.
Proof.
  intros HR. induction n as [|n IH]; intros s Ps Hn; [lia|].
  assert (X : exists ls, Forall2 (depth_first G) (s_imports (G s) ++ s_includes (G s)) ls).
  { assert (Y : forall t, In t (s_imports (G s) ++ s_includes (G s)) -> exists l, depth_first G t l).
    { intros t Ht. apply child_in in Ht. destruct (HR s t Ps Ht). apply IH; auto; lia. }
    induction (s_imports (G s) ++ s_includes (G s)) as [|x L IHL]; [exists []; constructor|].
    destruct (Y x (or_introl eq_refl)) as (l & Hl). destruct IHL as (ls & Hls); [intros t Ht; apply Y; now right|].
    exists (l :: ls). now constructor. }
  destruct X as (ls & F). eexists. econstructor. exact F.
Qed.
Lemma lookup_acyclic G (P : nat -> Prop) rank name : (forall s t, P s -> imports_of G s t -> P t /\ rank t < rank s) ->
  forall n s, P s -> rank s < n ->
  exists l, depth_first G s l /\ get_element n G s name = Ok (first_declaration G name l).
Proof.
  intros HR n s Ps Hn. destruct (depth_first_exists G P rank HR n s Ps Hn) as (l & Hl). exists l. split; auto.
  destruct (get_element_total G P rank name HR n s Ps Hn) as (r & Hr). rewrite Hr. f_equal. eapply get_element_dfs; eauto.
Qed.

(** Soundness on every graph. *)
Lemma get_element_some G name n : forall s e, get_element n G s name = Ok (Some e) ->
  exists t, reaches G s t /\ In (name, e) (s_elements (G t)).
Proof.
  induction n as [|n IH]; intros s e H; [discriminate|]. cbn in H.
  destruct (assoc name (s_elements (G s))) as [e'|] eqn:A.
  - injection H as <-. exists s. split; [constructor|]. now apply assoc_in.
  - apply first_some_find in H as (pre & x & post & Q & Hx & _). destruct (IH _ _ Hx) as (t & R & D).
    exists t. split; auto. apply re_step with x; auto. apply child_in. rewrite Q. apply in_elt.
Qed.
Lemma assoc_declares {A} name (l : list (string * A)) : assoc name l = None -> forall e, ~ In (name, e) l.
Proof. intros H e I. apply assoc_none in H. apply H. apply in_map_iff. exists (name, e). auto. Qed.
Lemma get_element_none G name n : forall s, get_element n G s name = Ok None ->
  forall t, reaches G s t -> ~ declares G t name.
Proof.
  induction n as [|n IH]; intros s H t R; [discriminate|]. cbn in H.
  destruct (assoc name (s_elements (G s))) as [e'|] eqn:A; [discriminate|].
  inversion R as [|? u ? I R' ]; subst.
  - intros (e & I). exact (assoc_declares _ _ A e I).
  - apply (first_some_find _ _ _) in H. apply child_in in I. exact (IH u (H u I) t R').
Qed.

Lemma endless_none G name n : forall s, endless G s -> get_element n G s name <> Ok None.
Proof.
  induction n as [|n IH]; intros s (p & P0 & St) H; [discriminate|]. cbn in H.
  destruct (assoc name (s_elements (G s))) as [e'|] eqn:A; [discriminate|].
  apply (first_some_find _ _ _) in H. apply (IH (p 1)).
  - exists (fun i => p (S i)). auto.
  - apply H. apply child_in. rewrite <- P0. apply St.
Qed.
Lemma endless_never G name n s : endless G s -> (forall t, reaches G s t -> ~ declares G t name) ->
  forall r, get_element n G s name <> Ok r.
Proof.
  intros E U r H. destruct r as [e|].
  - apply get_element_some in H as (t & R & D). apply (U t R). exists e. auto.
  - now apply endless_none in H.
Qed.

(** ** The walk *)
Lemma loc_eqb_eq a b : loc_eqb a b = true <-> a = b.
Proof.
  destruct a, b; cbn; try (split; congruence). rewrite String.eqb_eq. split; congruence.
Qed.
Lemma loc_in_iff {A} l (seen : list (option string * A)) : loc_in l seen = true <-> In l (map fst seen).
Proof.
  unfold loc_in. rewrite existsb_exists, in_map_iff. split.
  - intros (p & Hp & Q). apply loc_eqb_eq in Q. exists p. auto.
  - intros (p & Q & Hp). exists p. split; auto. now apply loc_eqb_eq.
Qed.

Section Walk.
  Context {A : Type} (G : sgraph) (cb : nat -> res A).
  Notation st := (list (option string * A) * list nat)%type.

  (** What every reached state satisfies: each entry was made by one call, in
      order, for a schema below [roots], and keys are unique. *)
  Definition entry (p : option string * A) (s : nat) : Prop := fst p = s_location (G s) /\ cb s = Ok (snd p).
  Definition wok (Q : nat -> Prop) (x : st) : Prop :=
    NoDup (map fst (fst x)) /\ Forall2 entry (fst x) (snd x) /\ Forall Q (snd x).

  Lemma walk_inv (Q : nat -> Prop) n : forall roots (x y : st), (forall s t, In s roots -> imports_of G s t -> Q t) ->
    (forall s t, Q s -> imports_of G s t -> Q t) ->
    wok Q x -> walk n G cb roots x = Ok y -> wok Q y /\ exists d e, fst y = fst x ++ d /\ snd y = snd x ++ e.
  Proof.
    induction n as [|n IH]; intros roots x y HR HQ Hx H; [discriminate|]. cbn in H.
    assert (Hx' : wok Q x /\ exists d e, fst x = fst x ++ d /\ snd x = snd x ++ e).
    { split; auto. exists [], []. now rewrite !app_nil_r. }
    revert H. apply foldM_inv with (P := fun z => wok Q z /\ exists d e, fst z = fst x ++ d /\ snd z = snd x ++ e); auto.
    clear Hx'. intros s b b' Hs Hb. apply foldM_inv with (P := fun z => wok Q z /\ exists d e, fst z = fst x ++ d /\ snd z = snd x ++ e); auto.
    intros t z z' Ht (Hz & d & e & D1 & D2) Z. apply child_in in Ht.
    destruct (loc_in (s_location (G t)) (fst z)) eqn:L.
    - injection Z as <-. split; eauto.
    - apply bind_ok in Z as (a & Ca & Z).
      assert (W : wok Q (fst z ++ [(s_location (G t), a)], snd z ++ [t])).
      { destruct Hz as (N & F & I). repeat split; cbn.
        - rewrite map_app. apply NoDup_app_intro; auto; [repeat constructor; auto|].
          intros l Hl [<-|[]]. apply loc_in_iff in Hl. cbn in Hl. congruence.
        - apply Forall2_app; auto. repeat constructor; auto.
        - apply Forall_app. split; auto. constructor; auto. eapply HR; eauto. }
      assert (HR' : forall s0 t0, In s0 [t] -> imports_of G s0 t0 -> Q t0).
      { intros s0 t0 [<-|[]] It. apply (HQ t); auto. eapply HR; eauto. }
      destruct (IH _ _ _ HR' HQ W Z) as (W' & d' & e' & E1 & E2).
      split; auto. cbn in E1, E2. rewrite D1 in E1. rewrite D2 in E2. rewrite <- !app_assoc in E1, E2. eauto.
  Qed.

  (** Every location below a root is in the result, when locations identify
      schemas. *)
  Definition covers (y : st) (s : nat) : Prop := In (s_location (G s)) (map fst (fst y)).
  (* all schemas called for in [y] but not in [x] have their imports covered *)
  Definition closed_from (x y : st) : Prop :=
    forall s, In s (snd y) -> ~ In s (snd x) -> forall t, imports_of G s t -> covers y t.

  Lemma covers_app x y d s : fst y = fst x ++ d -> covers x s -> covers y s.
  Proof. unfold covers. intros ->. rewrite map_app. intros H. apply in_or_app. now left. Qed.

  Definition grows (x y : st) : Prop := exists d e, fst y = fst x ++ d /\ snd y = snd x ++ e.
  Lemma grows_refl x : grows x x.
  Proof. exists [], []. now rewrite !app_nil_r. Qed.
  Lemma grows_trans x y z : grows x y -> grows y z -> grows x z.
  Proof.
    intros (d & e & A1 & A2) (d' & e' & B1 & B2). exists (d ++ d'), (e ++ e').
    rewrite B1, B2, A1, A2. now rewrite <- !app_assoc.
  Qed.
  Lemma grows_covers x y s : grows x y -> covers x s -> covers y s.
  Proof. intros (d & e & H & _). now apply covers_app with d. Qed.

  Lemma walk_closed n : forall roots x y, walk n G cb roots x = Ok y ->
    grows x y /\ (forall s t, In s roots -> imports_of G s t -> covers y t) /\ closed_from x y.
  Proof.
    induction n as [|n IH]; intros roots x y H; [discriminate|]. cbn in H.
    (* inner loop *)
    assert (IN : forall L z z', foldM (fun st item =>
          let loc := s_location (G item) in
          if loc_in loc (fst st) then Ok st
          else a <- cb item ;; walk n G cb [item] (fst st ++ [(loc, a)], snd st ++ [item])) z L = Ok z' ->
          grows z z' /\ (forall t, In t L -> covers z' t) /\ closed_from z z').
    { induction L as [|t L IHL]; intros z z' Z; cbn in Z.
      - injection Z as <-. split; [apply grows_refl|]. split; [easy|]. intros s Hs Hn. contradiction.
      - apply bind_ok in Z as (z1 & Z1 & Z). destruct (IHL _ _ Z) as (g2 & c2 & k2).
        assert (S1 : grows z z1 /\ covers z1 t /\ closed_from z z1).
        { destruct (loc_in (s_location (G t)) (fst z)) eqn:Lc.
          - injection Z1 as <-. split; [apply grows_refl|]. split; [now apply loc_in_iff|]. intros s Hs Hn. contradiction.
          - apply bind_ok in Z1 as (a & Ca & Z1). destruct (IH _ _ _ Z1) as (g & c & k).
            assert (gz : grows z (fst z ++ [(s_location (G t), a)], snd z ++ [t])) by (exists [(s_location (G t), a)], [t]; auto).
            split; [eapply grows_trans; eauto|]. split.
            + eapply grows_covers; [exact g|]. unfold covers. cbn. rewrite map_app. apply in_or_app. right. now left.
            + intros s Hs Hn u Hu. cbn in k.
              destruct (in_dec Nat.eq_dec s (snd z ++ [t])) as [I|I]; [|now apply (k s)].
              apply in_app_or in I as [I|[<-|[]]]; [contradiction|]. apply (c t); auto. now left. }
        destruct S1 as (g1 & c1 & k1). split; [eapply grows_trans; eauto|]. split.
        + intros u [<-|Hu]; [eapply grows_covers; eauto|auto].
        + intros s Hs Hn u Hu. destruct (in_dec Nat.eq_dec s (snd z1)) as [I|I].
          * eapply grows_covers; [exact g2|]. now apply (k1 s).
          * now apply (k2 s). }
    (* outer loop *)
    revert x y H. induction roots as [|r roots IHr]; intros x y H; cbn in H.
    - injection H as <-. split; [apply grows_refl|]. split; [easy|]. intros s Hs Hn. contradiction.
    - apply bind_ok in H as (x1 & H1 & H). destruct (IN _ _ _ H1) as (g1 & c1 & k1). destruct (IHr _ _ H) as (g2 & c2 & k2).
      split; [eapply grows_trans; eauto|]. split.
      + intros s t [<-|Hs] It; [|eauto]. eapply grows_covers; [exact g2|]. apply c1. now apply child_in.
      + intros s Hs Hn u Hu. destruct (in_dec Nat.eq_dec s (snd x1)) as [I|I].
        * eapply grows_covers; [exact g2|]. now apply (k1 s).
        * now apply (k2 s).
  Qed.

  (** Termination: the recursion is no deeper than the number of locations. *)
  Lemma walk_total (L : list (option string)) n : forall roots x,
    (forall s, exists a, cb s = Ok a) -> NoDup (map fst (fst x)) -> incl (map fst (fst x)) L -> (forall s t, imports_of G s t -> In (s_location (G t)) L) ->
    length L + 1 <= n + length (fst x) -> exists y, walk n G cb roots x = Ok y /\ NoDup (map fst (fst y)) /\ incl (map fst (fst y)) L /\
      length (fst x) <= length (fst y).
  Proof.
    induction n as [|n IH]; intros roots x Hcb ND I HL Hn.
    { pose proof (NoDup_incl_length ND I). rewrite map_length in *. lia. }
    assert (X : exists y, walk (S n) G cb roots x = Ok y /\ (NoDup (map fst (fst y)) /\ incl (map fst (fst y)) L /\ length (fst x) <= length (fst y))).
    { cbn [walk].
      assert (OUT : forall {B} (step : st -> B -> res st) (R : list B), (forall z b, In b R -> NoDup (map fst (fst z)) -> incl (map fst (fst z)) L ->
            length (fst x) <= length (fst z) -> exists z', step z b = Ok z' /\ NoDup (map fst (fst z')) /\ incl (map fst (fst z')) L /\ length (fst z) <= length (fst z')) ->
          forall z, NoDup (map fst (fst z)) -> incl (map fst (fst z)) L -> length (fst x) <= length (fst z) ->
          exists z', foldM step z R = Ok z' /\ NoDup (map fst (fst z')) /\ incl (map fst (fst z')) L /\ length (fst z) <= length (fst z')).
      { intros B step R. induction R as [|b R IHR]; intros Hst z N1 I1 L1; cbn; [exists z; auto|].
        destruct (Hst z b (or_introl eq_refl) N1 I1 L1) as (z1 & -> & N2 & I2 & L2). cbn.
        destruct (IHR (fun z b Hb => Hst z b (or_intror Hb)) z1 N2 I2) as (z2 & -> & N3 & I3 & L3); [lia|].
        exists z2. repeat split; auto. lia. }
      apply OUT; auto. intros z s Hs N1 I1 L1. apply OUT; auto. clear z N1 I1 L1.
      intros z t Ht N1 I1 L1. cbn [fst snd]. destruct (loc_in (s_location (G t)) (fst z)) eqn:Lc; [exists z; auto|].
      destruct (Hcb t) as (a & ->). cbn [bind].
      destruct (IH [t] (fst z ++ [(s_location (G t), a)], snd z ++ [t])) as (y & Y & N2 & I2 & L2); auto.
      - cbn. rewrite map_app. apply NoDup_app_intro; auto; [repeat constructor; auto|].
        intros l Hl [<-|[]]. apply loc_in_iff in Hl. cbn in Hl. congruence.
      - cbn. rewrite map_app. apply incl_app; auto. intros l [<-|[]]. apply child_in in Ht. eapply HL; eauto.
      - cbn. rewrite app_length. cbn. lia.
      - exists y. repeat split; auto. cbn in L2. rewrite app_length in L2. lia. }
    destruct X as (y & Y & N & J & Len). eauto.
  Qed.
End Walk.

Lemma walk_spec {A} G (cb : nat -> res A) n roots y : walk_schema_tree n G cb roots = Ok y ->
  NoDup (map fst (fst y)) /\ Forall2 (fun p s => fst p = s_location (G s) /\ cb s = Ok (snd p)) (fst y) (snd y) /\
  Forall (below G roots) (snd y).
Proof.
  intros H. destruct (walk_inv G cb (below G roots) n roots ([], []) y) as [W _]; auto.
  - intros s t Hs I. exists s, t. repeat split; auto. constructor.
  - intros s t (r & u & Hr & I & R) It. exists r, u. repeat split; auto. clear - R It.
    induction R; [econstructor; [exact It|constructor]|]. econstructor; eauto.
  - repeat constructor.
Qed.
Lemma Forall2_in_l {A B} (R : A -> B -> Prop) l m x : Forall2 R l m -> In x l -> exists y, In y m /\ R x y.
Proof. induction 1; intros []; subst; [eexists; split; [now left|auto]|]. destruct IHForall2 as (z & ? & ?); auto. exists z. split; auto. now right. Qed.
Lemma walk_complete {A} G (cb : nat -> res A) n roots y : walk_schema_tree n G cb roots = Ok y ->
  (forall s t, below G roots s -> below G roots t -> s_location (G s) = s_location (G t) -> s = t) ->
  forall t, below G roots t <-> In t (snd y).
Proof.
  intros H Inj t. destruct (walk_spec _ _ _ _ _ H) as (N & F & B). destruct (walk_closed G cb n _ _ _ H) as (g & c & k).
  rewrite Forall_forall in B. split; [|apply B].
  assert (COV : forall t, below G roots t -> covers G y t -> In t (snd y)).
  { intros u Hu Cu. unfold covers in Cu. apply in_map_iff in Cu as (p & Q & Hp).
    destruct (Forall2_in_l _ _ _ _ F Hp) as (s & Hs & E1 & E2).
    replace u with s; auto. apply Inj; auto. congruence. }
  intros (s & u & Hs & I & R).
  assert (Hu : In u (snd y)).
  { apply COV; [exists s, u; repeat split; auto; constructor|]. eapply c; eauto. }
  assert (Bu : below G roots u) by (exists s, u; repeat split; auto; constructor).
  clear s Hs I. induction R as [u|u v w Iu R IH]; auto.
  assert (Bv : below G roots v).
  { destruct Bu as (s & z & Hs & I & R'). exists s, z. repeat split; auto. clear - R' Iu.
    induction R'; [econstructor; [exact Iu|constructor]|]. econstructor; eauto. }
  apply IH; auto. apply COV; auto. eapply k; eauto.
Qed.
Lemma walk_terminates {A} G (cb : nat -> res A) L n roots : (forall s, exists a, cb s = Ok a) ->
  (forall s t, imports_of G s t -> In (s_location (G t)) L) -> length L < n ->
  exists y, walk_schema_tree n G cb roots = Ok y.
Proof.
  intros Hcb HL Hn. destruct (walk_total G cb L n roots ([], [])) as (y & Y & _); auto.
  - constructor.
  - intros l [].
  - cbn. lia.
  - eauto.
Qed.

Lemma depth_first_reaches G s l : depth_first G s l -> forall t, In t l <-> reaches G s t.
Proof.
  revert s l. fix IH 3. intros s l D t. destruct D as [s ls F].
  assert (X : In t (concat ls) <-> exists u, In u (s_imports (G s) ++ s_includes (G s)) /\ reaches G u t).
  { induction F as [|u l' us ls' Hu F IHF]; cbn.
    - split; [intros []|intros (u & [] & _)].
    - rewrite in_app_iff, IHF, (IH _ _ Hu). split.
      + intros [R|(v & I & R)]; eauto.
      + intros (v & [<-|I] & R); eauto. }
  cbn. rewrite X. split.
  - intros [<-|(u & I & R)]; [constructor|]. apply re_step with u; auto. now apply child_in.
  - intros R. inversion R as [|? u ? I R']; subst; auto. right. exists u. split; auto. now apply child_in.
Qed.
Lemma reaches_trans G s t u : reaches G s t -> reaches G t u -> reaches G s u.
Proof. induction 1; auto. intros R. econstructor; eauto. Qed.
Lemma lookup_acyclic_from G s0 rank name n :
  (forall s t, reaches G s0 s -> imports_of G s t -> rank t < rank s) -> rank s0 < n ->
  exists l, depth_first G s0 l /\ (forall t, In t l <-> reaches G s0 t) /\
    get_element n G s0 name = Ok (first_declaration G name l).
Proof.
  intros HR Hn. destruct (lookup_acyclic G (reaches G s0) rank name) with (n := n) (s := s0) as (l & D & H); auto.
  - intros s t Hs I. split; [|eauto]. eapply reaches_trans; [exact Hs|]. econstructor; [exact I|constructor].
  - constructor.
  - exists l. split; auto. split; auto. now apply depth_first_reaches.
Qed.
Lemma get_element_sound G name n s r : get_element n G s name = Ok r ->
  match r with
  | Some e => exists t, reaches G s t /\ In (name, e) (s_elements (G t))
  | None => forall t, reaches G s t -> ~ declares G t name
  end.
Proof. destruct r; [apply get_element_some|apply get_element_none]. Qed.
Lemma walk_spec2 {A} G (cb : nat -> res A) n roots seen calls : walk_schema_tree n G cb roots = Ok (seen, calls) ->
  NoDup (map fst seen) /\ NoDup calls /\
  Forall2 (fun p s => fst p = s_location (G s) /\ cb s = Ok (snd p)) seen calls /\ (forall t, In t calls -> below G roots t).
Proof.
  intros H. apply walk_spec in H as (N & F & B). cbn in *. repeat split; auto; [|now apply Forall_forall].
  assert (M : map fst seen = map (fun s => s_location (G s)) calls).
  { clear - F. induction F as [|p s l m (Q & _) F IH]; cbn; congruence. }
  rewrite M in N. now apply NoDup_map_inv in N.
Qed.
Lemma walk_same_location {A} G (cb : nat -> res A) n roots seen calls s t :
  walk_schema_tree n G cb roots = Ok (seen, calls) -> s <> t -> s_location (G s) = s_location (G t) ->
  ~ (In s calls /\ In t calls).
Proof.
  intros H Ne L (Is & It). apply walk_spec in H as (N & F & _). cbn in *.
  assert (M : map fst seen = map (fun s => s_location (G s)) calls).
  { clear - F. induction F as [|p u l m (Q & _) F IH]; cbn; congruence. }
  rewrite M in N. clear M F. induction calls as [|u calls IH]; [easy|]. cbn in N. inversion N as [|? ? Nu N']; subst.
  destruct Is as [<-|Is], It as [<-|It]; try congruence; auto.
  - apply Nu. rewrite L. now apply (in_map (fun s => s_location (G s))).
  - apply Nu. rewrite <- L. now apply (in_map (fun s => s_location (G s))).
Qed.
