(** Proofs about Threads.v: types given by name. *)
From Coq Require Import String Ascii List ZArith NArith Bool Lia.
From Verif Require Import PyBase PyVal XsdComplex Threads SpecThreads PfThreads.
Import ListNotations.
Open Scope nat_scope.
Open Scope string_scope.
Open Scope list_scope.

Lemma dotted a b : char_in "." (a ++ "." ++ b) = true.
Proof. unfold char_in. induction a as [| c a IH]; cbn; [reflexivity|]. cbn in IH. rewrite IH. now rewrite Bool.orb_true_r. Qed.

Section T.
  Variable attribute : string -> res given.
  Variable fields : string -> list nat.
  Variable source : nat -> given.
  (** Only one thread does anything. *)
  Variable alone : Prop.

  Definition final (e : nat) : given :=
    match source e with
    | GName path => match attribute path with Ok g => g | Err _ => source e end
    | g => g
    end.
  Definition resolves (e : nat) : Prop :=
    (forall path, final e <> GName path) /\
    forall path, source e = GName path -> char_in "." path = true /\ attribute path = Ok (final e).
  Definition near (m : memory) (e : nat) : Prop :=
    (sl_passed (m e) = source e \/ sl_passed (m e) = final e) /\ resolves e.
  Definition arrived (m : memory) (e : nat) : Prop := sl_passed (m e) = final e /\ resolves e.
  Definition type_there (m : memory) (e : nat) : Prop := exists i, sl_type (m e) = Some i.
  Definition mem_fine (m : memory) : Prop := forall e,
    (near m e \/ type_there m e) /\ forall i, sl_type (m e) = Some i -> stands_for attribute (source e) i.
  Definition at_fine (m : memory) (e : nat) (p : point) : Prop :=
    match p with
    | TestType => True
    | TestName => near m e
    | ReadName => near m e /\ (alone -> exists path, sl_passed (m e) = GName path)
    | Import g => near m e /\ (g = source e \/ g = final e) /\ (alone -> exists path, g = GName path)
    | StoreClass g => near m e /\ g = final e
    | TestInstance => arrived m e
    | ReadInstance => arrived m e /\ exists i, final e = GInstance i
    | ReadClass => arrived m e /\ exists c, final e = GClass c
    | Call g => g = final e /\ resolves e /\ exists c, final e = GClass c
    | StoreType i => stands_for attribute (source e) i
    | Use => type_there m e
    end.

  Inductive under_class (j : job) : string -> list frame -> Prop :=
  | UC_make c : j = Makes c -> under_class j c []
  | UC_call c e rest : final e = GClass c -> resolves e -> under_field j e rest -> under_class j c (Evaluate e (Call (GClass c)) :: rest)
  with under_field (j : job) : nat -> list frame -> Prop :=
  | UF_use e : j = Uses e -> under_field j e []
  | UF_field e c todo rest : under_class j c rest -> under_field j e (Construct c todo :: rest).
  Definition stack_fine (m : memory) (j : job) (st : list frame) : Prop :=
    match st with
    | Construct c _ :: rest => under_class j c rest
    | Evaluate e p :: rest => at_fine m e p /\ under_field j e rest
    | [] => False
    end.
  Definition thread_fine (m : memory) (j : job) (t : thread) : Prop :=
    match t with
    | Running st => stack_fine m j st
    | Finished i => result_of attribute source j i
    | Raised x => x = TypeError /\ ~ alone
    end.

  Lemma final_stands e i : resolves e -> stands_for attribute (final e) i -> stands_for attribute (source e) i.
  Proof.
    intros [N R] H. destruct (source e) as [path | c | i'] eqn:Es.
    - destruct (R path eq_refl) as [_ Ra]. now apply (SF_name _ _ _ _ Ra).
    - unfold final in H. now rewrite Es in H.
    - unfold final in H. now rewrite Es in H.
  Qed.
  Lemma near_name m e path : near m e -> sl_passed (m e) = GName path -> source e = GName path.
  Proof. intros [[E | E] [N R]] P; [congruence|]. elim (N path). congruence. Qed.
  Lemma near_arrived m e : near m e -> (forall path, sl_passed (m e) <> GName path) -> arrived m e.
  Proof.
    intros [[E | E] R] P; split; auto. rewrite E. unfold final. destruct (source e) as [path | |] eqn:Es; auto. elim (P path). congruence.
  Qed.
  Definition larger (m m' : memory) : Prop := forall e,
    (near m e -> near m' e) /\ (arrived m e -> arrived m' e) /\ (type_there m e -> type_there m' e).
  Lemma larger_refl m : larger m m.
  Proof. intros e. auto. Qed.
  Lemma at_larger m m' e p : ~ alone -> larger m m' -> at_fine m e p -> at_fine m' e p.
  Proof. intros A G H. destruct (G e) as (G1 & G2 & G3). destruct p; cbn in *; tauto. Qed.
  Lemma thread_larger m m' j t : ~ alone -> larger m m' -> thread_fine m j t -> thread_fine m' j t.
  Proof.
    intros A G. destruct t as [[| [e p | c todo] rest] | |]; cbn; auto. intros [H1 H2]. split; eauto using at_larger.
  Qed.

  Lemma store_class m e : mem_fine m -> near m e ->
    let m' := put m e (mkSlot (final e) (sl_type (m e))) in mem_fine m' /\ larger m m' /\ arrived m' e.
  Proof.
    intros M Ne m'. subst m'. destruct Ne as [Ep R].
    assert (A : arrived (put m e (mkSlot (final e) (sl_type (m e)))) e) by (split; [now rewrite put_same|exact R]).
    repeat apply conj; [| |exact (proj1 A)|exact (proj1 R)|exact (proj2 R)].
    - intros e'. destruct (Nat.eq_dec e' e) as [-> | N].
      + split; [left; split; [right; exact (proj1 A)|exact R]|]. rewrite put_same. exact (proj2 (M e)).
      + unfold near, type_there. rewrite (put_other m e _ e' N). exact (M e').
    - intros e'. destruct (Nat.eq_dec e' e) as [-> | N].
      + split; [intros _; split; [right; exact (proj1 A)|exact R]|]. split; [intros _; exact A|].
        unfold type_there. now rewrite put_same.
      + unfold near, arrived, type_there. rewrite (put_other m e _ e' N). auto.
  Qed.
  Lemma store_type m e i : mem_fine m -> stands_for attribute (source e) i ->
    let m' := put m e (mkSlot (sl_passed (m e)) (Some i)) in mem_fine m' /\ larger m m' /\ type_there m' e.
  Proof.
    intros M St m'. subst m'. repeat apply conj.
    - intros e'. destruct (Nat.eq_dec e' e) as [-> | N].
      + split; [right; exists i; now rewrite put_same|]. intros i'. rewrite put_same. cbn. now intros [= <-].
      + unfold near, type_there. rewrite (put_other m e _ e' N). exact (M e').
    - intros e'. unfold near, arrived, type_there. destruct (Nat.eq_dec e' e) as [-> | N].
      + rewrite put_same. cbn. split; [auto|]. split; [auto|]. intros _. eauto.
      + rewrite (put_other m e _ e' N). auto.
    - exists i. now rewrite put_same.
  Qed.

  Lemma advance_fine k m j f rest : mem_fine m -> stack_fine m j (f :: rest) ->
    let (m', t) := advance attribute fields k m f rest in mem_fine m' /\ larger m m' /\ thread_fine m' j t.
  Proof.
    intros M W.
    assert (same : forall t, thread_fine m j t -> mem_fine m /\ larger m m /\ thread_fine m j t)
      by (intros; auto using larger_refl).
    destruct f as [e p | c [| e todo]].
    - destruct W as [A Ur]. destruct (M e) as [M1 M2].
      assert (on : forall q, at_fine m e q -> mem_fine m /\ larger m m /\ thread_fine m j (Running (Evaluate e q :: rest)))
        by (intros q Hq; apply same; split; assumption).
      destruct p; cbn [advance]; cbn in A.
      + destruct (sl_type (m e)) as [i |] eqn:T; apply on; cbn; [exists i; exact T|].
        destruct M1 as [P | [i T']]; [exact P | congruence].
      + destruct (sl_passed (m e)) as [path | c | i] eqn:P; apply on; cbn; [split; [exact A|]; intros _; eauto| |];
          apply near_arrived; [exact A|congruence|exact A|congruence].
      + apply on. cbn. split; [apply A|]. split; [|apply A]. destruct A as [[[E | E] _] _]; auto.
      + destruct A as (Ne & [-> | ->] & Al).
        * destruct (source e) as [path | c | i] eqn:Es; cbn [import_type].
          -- destruct (proj2 Ne) as [_ R]. destruct (R path Es) as [-> ->]. apply on. now split.
          -- apply same. cbn. split; [reflexivity|]. intros a. destruct (Al a) as [? [=]].
          -- apply same. cbn. split; [reflexivity|]. intros a. destruct (Al a) as [? [=]].
        * destruct (proj2 Ne) as [N _]. destruct (final e) as [path | c | i] eqn:Ef; [elim (N path); reflexivity| |]; cbn [import_type];
            apply same; cbn; (split; [reflexivity|]); intros a; destruct (Al a) as [? [=]].
      + destruct A as [Ne ->]. destruct (store_class m e M Ne) as (M' & G & Ar). split; [exact M'|]. split; [exact G|]. now split.
      + destruct A as [Ep R]. rewrite Ep. destruct (final e) as [path | c | i] eqn:Ef; [elim (proj1 R path); exact Ef| |];
          apply on; cbn; (split; [split; [congruence|exact R]|eauto]).
      + destruct A as [[Ep R] [i Ei]]. rewrite Ep, Ei. apply on. cbn. apply final_stands; [exact R|]. rewrite Ei. constructor.
      + destruct A as [[Ep R] [c Ec]]. rewrite Ep. apply on. cbn. eauto.
      + destruct A as (-> & R & [c Ec]). rewrite Ec. apply same. cbn. now apply UC_call.
      + destruct (store_type m e i M A) as (M' & G & T). split; [exact M' |]. split; [exact G |]. now split.
      + destruct A as [i T]. rewrite T. inversion Ur; subst; apply same; cbn; [apply M2; exact T|assumption].
    - cbn in *. inversion W; subst; apply same; cbn; [reflexivity|]. split; [|assumption].
      apply final_stands; [assumption|]. match goal with H : final _ = _ |- _ => rewrite H end. exact (SF_class attribute (mkInst c (Some k))).
    - cbn [advance]. apply same. cbn in W |- *. split; [exact I|]. now constructor.
  Qed.

  Lemma launch_fine m : (forall e, unused (source e) (m e) \/ used attribute (source e) (m e) \/ unused_name attribute (source e) (m e)) -> mem_fine m.
  Proof.
    intros H e. destruct (H e) as [(P & T & N) | [(i & T & St) | (P & T & mo & na & g' & Eg & Ea & N)]].
    - split; [left; split; [now left|]|congruence]. unfold resolves, final. destruct (source e) as [path | |] eqn:Es; [now elim (N path)| |]; split; discriminate.
    - split; [right; exists i; exact T|]. congruence.
    - split; [left; split; [now left|]|congruence]. unfold resolves, final. rewrite Eg, Ea. split; [exact N|]. intros path [= <-]. split; [apply dotted|exact Ea].
  Qed.
  Lemma launched m jobs k : thread_fine m (jobs k) (ts_threads (launch fields m jobs) k).
  Proof. cbn. destruct (jobs k) as [e | c] eqn:J; cbn; [split; [exact I|]|]; now constructor. Qed.
End T.

Section R.
  Variable attribute : string -> res given.
  Variable fields : string -> list nat.
  Variable source : nat -> given.

  Lemma names_safe m jobs schedule k :
    (forall e, unused (source e) (m e) \/ used attribute (source e) (m e) \/ unused_name attribute (source e) (m e)) ->
    match ts_threads (moves attribute fields (launch fields m jobs) schedule) k with
    | Running _ => True
    | Finished i => result_of attribute source (jobs k) i
    | Raised x => x = TypeError
    end.
  Proof.
    intros H.
    assert (Inv : forall s, mem_fine attribute source (ts_mem s) /\ (forall k, thread_fine attribute source False (ts_mem s) (jobs k) (ts_threads s k)) ->
      let s' := moves attribute fields s schedule in
      mem_fine attribute source (ts_mem s') /\ forall k, thread_fine attribute source False (ts_mem s') (jobs k) (ts_threads s' k)).
    { clear H k. induction schedule as [| k l IH]; intros s [M T]; [split; assumption|]. cbn. apply IH. clear IH.
      unfold move. pose proof (T k) as Tk. destruct (ts_threads s k) as [[| f rest] | |] eqn:E; try (split; assumption).
      pose proof (advance_fine attribute fields source False k _ _ _ _ M Tk) as A.
      destruct (advance attribute fields k (ts_mem s) f rest) as [m' t]. destruct A as (M' & G & T').
      split; [exact M'|]. intros k'. cbn. destruct (Nat.eqb_spec k' k) as [-> | N]; [exact T'|].
      apply (thread_larger _ _ _ _ _ _ _ (fun x => x) G). apply T. }
    destruct (Inv (launch fields m jobs)) as [_ T].
    { split; [exact (launch_fine attribute source m H)|]. intros k'. apply launched. }
    specialize (T k). unfold thread_fine in T. destruct (ts_threads _ k); auto. apply T.
  Qed.
  Lemma names_alone m jobs n k :
    (forall e, unused (source e) (m e) \/ used attribute (source e) (m e) \/ unused_name attribute (source e) (m e)) ->
    match ts_threads (moves attribute fields (launch fields m jobs) (repeat k n)) k with
    | Running _ => True
    | Finished i => result_of attribute source (jobs k) i
    | Raised x => False
    end.
  Proof.
    intros H.
    assert (Inv : forall s, mem_fine attribute source (ts_mem s) /\ thread_fine attribute source True (ts_mem s) (jobs k) (ts_threads s k) ->
      let s' := moves attribute fields s (repeat k n) in
      mem_fine attribute source (ts_mem s') /\ thread_fine attribute source True (ts_mem s') (jobs k) (ts_threads s' k)).
    { clear H. induction n as [| n IH]; intros s [M T]; [split; assumption|]. cbn. apply IH. clear IH.
      unfold move. destruct (ts_threads s k) as [[| f rest] | |] eqn:E; try (split; [exact M|now rewrite E]).
      pose proof (advance_fine attribute fields source True k _ _ _ _ M T) as A.
      destruct (advance attribute fields k (ts_mem s) f rest) as [m' t]. destruct A as (M' & G & T').
      split; [exact M'|]. cbn. now rewrite Nat.eqb_refl. }
    destruct (Inv (launch fields m jobs)) as [_ T].
    { split; [exact (launch_fine attribute source m H)|]. apply launched. }
    unfold thread_fine in T. destruct (ts_threads _ k); auto. destruct T as [_ T]. now apply T.
  Qed.
End R.
