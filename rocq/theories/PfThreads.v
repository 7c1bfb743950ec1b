(** Proofs about Threads.v. *)
From Coq Require Import String Ascii List ZArith NArith Bool Lia Sorted.
From Verif Require Import PyBase PyVal XsdComplex Threads SpecThreads.
Import ListNotations.
Open Scope nat_scope.
Open Scope string_scope.
Open Scope list_scope.

(** ** Types *)
Section T.
  Variable attribute : string -> res given.
  Variable fields : string -> list nat.
  Variable source : nat -> given.

  Definition plain (m : memory) (e : nat) : Prop :=
    sl_passed (m e) = source e /\ forall path, source e <> GName path.
  Definition typed (m : memory) (e : nat) : Prop := exists i, sl_type (m e) = Some i.

  Definition mem_ok (m : memory) : Prop := forall e,
    (plain m e \/ typed m e) /\
    forall i, sl_type (m e) = Some i -> stands_for attribute (source e) i.

  Definition at_ok (m : memory) (e : nat) (p : point) : Prop :=
    match p with
    | TestType => True
    | TestName | TestInstance => plain m e
    | ReadInstance => plain m e /\ exists i, source e = GInstance i
    | ReadClass => plain m e /\ exists c, source e = GClass c
    | Call g => g = source e /\ exists c, source e = GClass c
    | StoreType i => stands_for attribute (source e) i
    | Use => typed m e
    | ReadName | Import _ | StoreClass _ => False
    end.

  Inductive well (m : memory) (j : job) : list frame -> Prop :=
  | W_use e p : at_ok m e p -> j = Uses e -> well m j [Evaluate e p]
  | W_make c todo : j = Makes c -> incl todo (fields c) -> well m j [Construct c todo]
  | W_in c todo e rest : incl todo (fields c) -> well m j (Evaluate e (Call (GClass c)) :: rest) ->
      well m j (Construct c todo :: Evaluate e (Call (GClass c)) :: rest)
  | W_field e p c todo rest : at_ok m e p -> In e (fields c) -> well m j (Construct c todo :: rest) ->
      well m j (Evaluate e p :: Construct c todo :: rest).

  Definition grows (m m' : memory) : Prop := forall e,
    sl_passed (m' e) = sl_passed (m e) /\ (typed m e -> typed m' e).

  Lemma grows_refl : forall m, grows m m.
  Proof. split; auto. Qed.

  Lemma at_grows : forall m m' e p, grows m m' -> at_ok m e p -> at_ok m' e p.
  Proof.
    intros m m' e p G A. destruct (G e) as [P T].
    assert (Q : plain m e -> plain m' e) by (intros [H1 H2]; split; congruence || auto).
    destruct p; cbn in *; intuition.
  Qed.

  Lemma well_grows : forall m m' j st, grows m m' -> well m j st -> well m' j st.
  Proof.
    intros m m' j st G W. induction W.
    - apply W_use; eauto using at_grows.
    - now apply W_make.
    - now apply W_in.
    - apply W_field; eauto using at_grows.
  Qed.

  Definition thread_ok (m : memory) (j : job) (t : thread) : Prop :=
    match t with
    | Running st => well m j st
    | Finished i => result_of attribute source j i
    | Raised _ => False
    end.

  Lemma put_same : forall m e s, put m e s e = s.
  Proof. intros. unfold put. now rewrite Nat.eqb_refl. Qed.
  Lemma put_other : forall m e s e', e' <> e -> put m e s e' = m e'.
  Proof. intros. unfold put. now destruct (Nat.eqb_spec e' e). Qed.

  Lemma store_ok : forall m e i, mem_ok m -> stands_for attribute (source e) i ->
    let m' := put m e (mkSlot (sl_passed (m e)) (Some i)) in mem_ok m' /\ grows m m' /\ typed m' e.
  Proof.
    intros m e i M S m'. subst m'. repeat apply conj.
    - intros e'. destruct (Nat.eq_dec e' e) as [-> | N].
      + split.
        * right. exists i. now rewrite put_same.
        * intros i'. rewrite put_same. cbn. now intros [= <-].
      + unfold plain, typed. rewrite (put_other m e _ e' N). exact (M e').
    - intros e'. unfold typed. destruct (Nat.eq_dec e' e) as [-> | N].
      + rewrite put_same. cbn. split; [reflexivity | eauto].
      + rewrite (put_other m e _ e' N). auto.
    - exists i. now rewrite put_same.
  Qed.

  (** One frame on top of the same rest. *)
  Lemma retop : forall m j e p q rest, well m j (Evaluate e p :: rest) -> at_ok m e q -> well m j (Evaluate e q :: rest).
  Proof.
    intros m j e p q rest W A. inversion W; subst.
    - now apply W_use.
    - now apply W_field.
  Qed.
  Lemma top_ok : forall m j e p rest, well m j (Evaluate e p :: rest) -> at_ok m e p.
  Proof. intros m j e p rest W. now inversion W; subst. Qed.

  Lemma advance_ok : forall k m j f rest, mem_ok m -> well m j (f :: rest) ->
    let (m', t) := advance attribute fields k m f rest in mem_ok m' /\ grows m m' /\ thread_ok m' j t.
  Proof.
    intros k m j f rest M W.
    assert (same : forall t, thread_ok m j t -> mem_ok m /\ grows m m /\ thread_ok m j t)
      by (intros; auto using grows_refl).
    destruct f as [e p | c [| e todo]].
    - pose proof (top_ok _ _ _ _ _ W) as A. destruct (M e) as [M1 M2].
      destruct p; cbn [advance].
      + destruct (sl_type (m e)) as [i |] eqn:T; apply same; apply (retop _ _ _ _ _ _ W).
        * exists i. exact T.
        * destruct M1 as [P | [i T']]; [exact P | congruence].
      + cbn in A. destruct A as [A1 A2]. rewrite A1.
        destruct (source e) as [path | c | i] eqn:Es; [now elim (A2 path) | |];
          apply same; apply (retop _ _ _ _ _ _ W); split; rewrite ?Es; auto.
      + destruct A.
      + destruct A.
      + destruct A.
      + cbn in A. pose proof A as [A1 A2]. rewrite A1.
        destruct (source e) as [path | c | i] eqn:Es; [now elim (A2 path) | |];
          apply same; apply (retop _ _ _ _ _ _ W); cbn; eauto.
      + cbn in A. destruct A as [[A1 A2] [i Ei]]. rewrite A1, Ei. apply same.
        apply (retop _ _ _ _ _ _ W). cbn. rewrite Ei. constructor.
      + cbn in A. destruct A as [[A1 A2] [c Ec]]. rewrite A1. apply same.
        apply (retop _ _ _ _ _ _ W). cbn. eauto.
      + cbn in A. destruct A as [-> [c Ec]]. rewrite Ec in *. apply same. cbn.
        apply W_in; [apply incl_refl | exact W].
      + cbn in A. destruct (store_ok m e i M A) as (M' & G & T). split; [exact M' |]. split; [exact G |].
        cbn. apply (retop _ _ e (StoreType i)); [exact (well_grows _ _ _ _ G W) | exact T].
      + destruct A as [i T]. rewrite T. inversion W; subst.
        * apply same. cbn. apply M2. exact T.
        * apply same. cbn. assumption.
    - cbn. inversion W; subst; apply same; cbn.
      + reflexivity.
      + match goal with H : well _ _ (Evaluate _ (Call _) :: _) |- _ =>
          pose proof (top_ok _ _ _ _ _ H) as A; apply (retop _ _ _ _ _ _ H) end.
        cbn in A |- *. destruct A as [<- _].
        exact (SF_class attribute (mkInst c (Some k))).
    - cbn [advance]. apply same. cbn. inversion W; subst.
      + match goal with H : incl _ _ |- _ => pose proof (H e (or_introl eq_refl)) as I; pose proof (incl_cons_inv H) as [_ J] end.
        apply W_field; [exact Logic.I | exact I |]. now apply W_make.
      + match goal with H : incl _ _ |- _ => pose proof (H e (or_introl eq_refl)) as I; pose proof (incl_cons_inv H) as [_ J] end.
        apply W_field; [exact Logic.I | exact I |]. now apply W_in.
  Qed.

  Definition state_ok (jobs : nat -> job) (s : tstate) : Prop :=
    mem_ok (ts_mem s) /\ forall k, thread_ok (ts_mem s) (jobs k) (ts_threads s k).

  Lemma thread_grows : forall m m' j t, grows m m' -> thread_ok m j t -> thread_ok m' j t.
  Proof. intros m m' j [st | i | e] G; cbn; auto. now apply well_grows. Qed.

  Lemma move_ok : forall jobs s k, state_ok jobs s -> state_ok jobs (move attribute fields s k).
  Proof.
    intros jobs s k [M T]. unfold move. pose proof (T k) as Tk.
    destruct (ts_threads s k) as [[| f rest] | i | e] eqn:E; try (split; assumption).
    pose proof (advance_ok k _ _ _ _ M Tk) as A.
    destruct (advance attribute fields k (ts_mem s) f rest) as [m' t]. destruct A as (M' & G & T').
    split; [exact M' |]. intros k'. cbn. destruct (Nat.eqb_spec k' k) as [-> | N]; [exact T' |].
    apply (thread_grows _ _ _ _ G). apply T.
  Qed.

  Lemma moves_ok : forall jobs schedule s, state_ok jobs s -> state_ok jobs (moves attribute fields s schedule).
  Proof.
    intros jobs schedule. induction schedule as [| k t IH]; intros s H; [exact H |].
    cbn. apply IH. now apply move_ok.
  Qed.

  Lemma launch_ok : forall m jobs,
    (forall e, unused (source e) (m e) \/ used attribute (source e) (m e)) ->
    state_ok jobs (launch fields m jobs).
  Proof.
    intros m jobs H. split.
    - change (ts_mem (launch fields m jobs)) with m. intros e. destruct (H e) as [(P & T & N) | (i & T & St)].
      + split; [left; split; assumption | intros i0 T0; congruence].
      + split; [right; exists i; exact T |]. intros i' T'. rewrite T in T'. now injection T' as <-.
    - intros k. cbn. destruct (jobs k) as [e | c] eqn:J.
      + now apply W_use.
      + apply W_make; [reflexivity | apply incl_refl].
  Qed.

  Lemma threads_agree : forall m jobs schedule k,
    (forall e, unused (source e) (m e) \/ used attribute (source e) (m e)) ->
    match ts_threads (moves attribute fields (launch fields m jobs) schedule) k with
    | Running _ => True
    | Finished i => result_of attribute source (jobs k) i
    | Raised _ => False
    end.
  Proof.
    intros m jobs schedule k H.
    destruct (moves_ok jobs schedule _ (launch_ok m jobs H)) as [_ T]. specialize (T k).
    unfold thread_ok in T. destruct (ts_threads _ k); auto.
  Qed.

  (** Every step of a thread brings it closer to the end. *)
  Variable depth : string -> nat.
  Hypothesis L : layered fields source depth.

  Fixpoint icost (n : nat) (c : string) : nat :=
    match n with
    | O => 1
    | S n' => S (list_sum (map (fun e => 9 + match source e with GClass d => icost n' d | _ => 0 end) (fields c)))
    end.
  Definition cost (c : string) : nat := icost (S (depth c)) c.
  Definition ecost (e : nat) : nat := match source e with GClass d => cost d | _ => 0 end.

  Lemma icost_stable : forall n n' c, depth c < n -> depth c < n' -> icost n c = icost n' c.
  Proof.
    induction n as [| n IH]; intros n' c H H'; [lia |]. destruct n' as [| n']; [lia |].
    cbn [icost]. f_equal. f_equal. apply map_ext_in. intros e I.
    destruct (source e) as [| d |] eqn:E; auto.
    pose proof (L c e d I E). rewrite (IH n' d); lia.
  Qed.

  Lemma cost_eq : forall c, cost c = S (list_sum (map (fun e => 9 + ecost e) (fields c))).
  Proof.
    intros c. unfold cost at 1. cbn [icost]. f_equal. f_equal. apply map_ext_in. intros e I.
    unfold ecost. destruct (source e) as [| d |] eqn:E; auto. unfold cost.
    pose proof (L c e d I E). rewrite (icost_stable (depth c) (S (depth d)) d); lia.
  Qed.

  Definition above (e : nat) (p : point) : nat :=
    match p with
    | TestType => 8 + ecost e
    | TestName | ReadName | Import _ | StoreClass _ => 7 + ecost e
    | TestInstance => 6 + ecost e
    | ReadInstance => 5
    | ReadClass => 5 + ecost e
    | Call _ => 4 + ecost e
    | StoreType _ => 2
    | Use => 1
    end.
  Definition making (todo : list nat) : nat := S (list_sum (map (fun e => 9 + ecost e) todo)).
  Definition below (f : frame) : nat := match f with Evaluate _ _ => 3 | Construct _ todo => making todo end.
  Definition size (st : list frame) : nat :=
    match st with
    | [] => 0
    | f :: rest => match f with Evaluate e p => above e p | Construct _ todo => making todo end + list_sum (map below rest)
    end.
  Definition left (t : thread) : nat := match t with Running st => size st | _ => 0 end.

  Lemma advance_less : forall k m j f rest, mem_ok m -> well m j (f :: rest) ->
    left (snd (advance attribute fields k m f rest)) < size (f :: rest).
  Proof.
    intros k m j f rest M W.
    destruct f as [e p | c [| e todo]].
    - pose proof (top_ok _ _ _ _ _ W) as A. destruct (M e) as [M1 M2].
      destruct p; cbn [advance].
      + destruct (sl_type (m e)); cbn; lia.
      + cbn in A. destruct A as [A1 A2]. rewrite A1.
        destruct (source e) as [path | c | i] eqn:Es; [now elim (A2 path) | |]; cbn; lia.
      + destruct A.
      + destruct A.
      + destruct A.
      + destruct (sl_passed (m e)); cbn; lia.
      + destruct (sl_passed (m e)); cbn; lia.
      + cbn; lia.
      + cbn in A. destruct A as [-> [c Ec]]. rewrite Ec. cbn [snd left size above map below list_sum].
        assert (X : ecost e = making (fields c)) by (unfold ecost; rewrite Ec; apply cost_eq).
        rewrite X. change (list_sum (3 :: map below rest)) with (3 + list_sum (map below rest)). lia.
      + cbn; lia.
      + destruct A as [i T]. rewrite T. inversion W; subst; cbn; unfold making, list_sum; cbn; lia.
    - inversion W; subst; cbn; unfold making, list_sum; cbn; lia.
    - cbn. unfold making, list_sum. cbn. lia.
  Qed.

  Lemma done_stays : forall schedule s k i, ts_threads s k = Finished i ->
    ts_threads (moves attribute fields s schedule) k = Finished i.
  Proof.
    induction schedule as [| k' t IH]; intros s k i H; [exact H |]. cbn. apply IH.
    unfold move. destruct (Nat.eq_dec k' k) as [-> | N]; [rewrite H; exact H |].
    destruct (ts_threads s k') as [[| f rest] | |]; try exact H.
    destruct (advance _ _ _ _ _ _) as [m' t']. cbn.
    destruct (Nat.eqb_spec k k') as [-> | _]; [congruence | exact H].
  Qed.

  Lemma finishing : forall jobs schedule s k, state_ok jobs s ->
    left (ts_threads s k) <= turns k schedule ->
    exists i, ts_threads (moves attribute fields s schedule) k = Finished i.
  Proof.
    intros jobs schedule. induction schedule as [| k' t IH]; intros s k Ok H.
    - destruct Ok as [M T]. specialize (T k). cbn in H |- *. destruct (ts_threads s k) as [st | i | e]; cbn in *.
      + exfalso. inversion T; subst; cbn in H; unfold making in H; try destruct p; cbn in H; lia.
      + eauto.
      + contradiction.
    - cbn [moves fold_left]. fold (moves attribute fields (move attribute fields s k') t).
      pose proof (move_ok jobs s k' Ok) as Ok'.
      unfold turns in H. cbn [count_occ] in H. fold (turns k t) in H.
      destruct (Nat.eq_dec k' k) as [-> | N].
      + destruct Ok as [M T]. pose proof (T k) as Tk.
        destruct (ts_threads s k) as [[| f rest] | i | e] eqn:E.
        * inversion Tk.
        * apply (IH _ k Ok'). pose proof (advance_less k _ _ _ _ M Tk) as Less. cbn [left] in H.
          unfold move. rewrite E. destruct (advance _ _ _ _ _ _) as [m' t']. cbn. rewrite Nat.eqb_refl.
          cbn [snd] in Less. lia.
        * exists i. apply done_stays. unfold move. rewrite E. exact E.
        * destruct Tk.
      + apply (IH _ k Ok'). unfold move.
        destruct (ts_threads s k') as [[| f rest] | |]; try exact H.
        destruct (advance _ _ _ _ _ _) as [m' t']. cbn.
        destruct (Nat.eqb_spec k k') as [-> | _]; [congruence | exact H].
  Qed.

  Lemma threads_finish : forall m jobs k,
    (forall e, unused (source e) (m e) \/ used attribute (source e) (m e)) ->
    exists n, forall schedule, n <= turns k schedule ->
    exists i, ts_threads (moves attribute fields (launch fields m jobs) schedule) k = Finished i /\
      result_of attribute source (jobs k) i.
  Proof.
    intros m jobs k H. exists (left (ts_threads (launch fields m jobs) k)). intros schedule N.
    destruct (finishing jobs schedule _ k (launch_ok m jobs H) N) as [i E]. exists i. split; [exact E |].
    pose proof (threads_agree m jobs schedule k H) as A. now rewrite E in A.
  Qed.
End T.

(** One step of a schedule. *)
Lemma go : forall attribute fields s k l f rest m' t,
  ts_threads s k = Running (f :: rest) ->
  advance attribute fields k (ts_mem s) f rest = (m', t) ->
  moves attribute fields s (k :: l) =
  moves attribute fields (mkTS m' (fun i => if (i =? k)%nat then t else ts_threads s i)) l.
Proof. intros * H A. cbn. unfold move. now rewrite H, A. Qed.

Lemma name_race : forall attribute fields path c m e,
  char_in "." path = true -> attribute path = Ok (GClass c) ->
  m e = mkSlot (GName path) None ->
  exists schedule, ts_threads (moves attribute fields (launch fields m (fun _ => Uses e)) schedule) 0 = Raised TypeError.
Proof.
  intros attribute fields path c m e D A M. exists [0; 0; 1; 1; 1; 1; 1; 0; 0].
  assert (I : import_type attribute (GName path) = Ok (GClass c)) by (cbn; now rewrite D).
  unfold launch.
  Ltac one M I := erewrite go;
    [| cbn; reflexivity | cbn [advance ts_mem]; rewrite ?put_same, ?M, ?I; cbn [sl_type sl_passed]; reflexivity].
  do 9 one M I. reflexivity.
Qed.

Lemma dotted : forall a b, char_in "." (a ++ "." ++ b)%string = true.
Proof. unfold char_in. induction a as [| c a IH]; intros b; [reflexivity |].
  change (Ascii.eqb "." c || existsb (Ascii.eqb ".") (to_l (a ++ "." ++ b)%string) = true).
  rewrite IH. apply orb_true_r. Qed.

Lemma named_race : forall attribute fields module name c m e,
  attribute (module ++ "." ++ name)%string = Ok (GClass c) ->
  m e = mkSlot (GName (module ++ "." ++ name)) None ->
  exists schedule, ts_threads (moves attribute fields (launch fields m (fun _ => Uses e)) schedule) 0 = Raised TypeError.
Proof. intros * A M. exact (name_race _ _ _ c m e (dotted module name) A M). Qed.

(** ** Creation numbers *)

(** What a thread's numbers and the counter have to do with each other. *)
Definition maker_ok (n : nat) (t : maker) : Prop :=
  StronglySorted lt (mk_numbers t) /\
  match mk_at t with
  | ReadNumber => Forall (fun x => x < n) (mk_numbers t)
  | AddRead => Forall (fun x => x <= n) (mk_numbers t)
  | AddStore n' => Forall (fun x => x <= n') (mk_numbers t)
  end.

Lemma sorted_snoc : forall l n, StronglySorted lt l -> Forall (fun x => x < n) l -> StronglySorted lt (l ++ [n]).
Proof.
  induction l as [| x t IH]; intros n H F; [repeat constructor |].
  inversion H; subst. inversion F; subst. cbn. constructor; [now apply IH |].
  apply Forall_app. split; [assumption | repeat constructor; assumption].
Qed.
Lemma le_snoc : forall l n, Forall (fun x => x < n) l -> Forall (fun x => x <= n) (l ++ [n]).
Proof.
  intros l n F. apply Forall_app. split; [eapply Forall_impl; [| exact F]; cbn; lia | repeat constructor].
Qed.

Lemma whole_step : forall s k, (forall i, mk_at (cs_makers s i) = ReadNumber \/ mk_at (cs_makers s i) = AddRead) ->
  (forall i, maker_ok (cs_counter s) (cs_makers s i)) ->
  let s' := count_step true s k in
  (forall i, mk_at (cs_makers s' i) = ReadNumber \/ mk_at (cs_makers s' i) = AddRead) /\
  (forall i, maker_ok (cs_counter s') (cs_makers s' i)).
Proof.
  intros s k P M. unfold count_step. pose proof (P k) as Pk. pose proof (M k) as [S Mk].
  destruct (mk_at (cs_makers s k)) as [| | n'] eqn:At.
  - destruct (mk_todo (cs_makers s k)) as [| todo] eqn:Todo; [now split |].
    split; intros i; cbn; destruct (Nat.eqb_spec i k) as [-> | N]; auto.
    split; cbn; [now apply sorted_snoc | now apply le_snoc].
  - split; intros i; cbn; destruct (Nat.eqb_spec i k) as [-> | N]; auto.
    + split; [exact S |]. cbn. eapply Forall_impl; [| exact Mk]. cbn. lia.
    + destruct (M i) as [Si Mi]. split; [exact Si |].
      destruct (P i) as [Pi | Pi]; rewrite Pi in *; (eapply Forall_impl; [| exact Mi]); cbn; lia.
  - destruct Pk; congruence.
Qed.

Lemma whole_sorted : forall n makes schedule k,
  StronglySorted lt (mk_numbers (cs_makers (count_all true (count_start n makes) schedule) k)).
Proof.
  intros n makes schedule k.
  enough (forall s, (forall i, mk_at (cs_makers s i) = ReadNumber \/ mk_at (cs_makers s i) = AddRead) ->
    (forall i, maker_ok (cs_counter s) (cs_makers s i)) ->
    forall i, maker_ok (cs_counter (count_all true s schedule)) (cs_makers (count_all true s schedule) i)) as H.
  { apply (H (count_start n makes)); cbn; [now left |]. intros i. split; constructor. }
  induction schedule as [| k' t IH]; intros s P M; [exact M |].
  cbn. destruct (whole_step s k' P M) as [P' M']. now apply IH.
Qed.

(** A thread on its own. *)
Lemma alone_sorted : forall whole n makes schedule k, (forall i, i <> k -> makes i = 0) ->
  StronglySorted lt (mk_numbers (cs_makers (count_all whole (count_start n makes) schedule) k)).
Proof.
  intros whole n makes schedule k Others.
  set (ok := fun s => (forall i, i <> k -> cs_makers s i = mkMaker [] 0 ReadNumber) /\
    maker_ok (cs_counter s) (cs_makers s k) /\
    match mk_at (cs_makers s k) with AddStore n' => n' = cs_counter s | _ => True end).
  enough (forall s, ok s -> ok (count_all whole s schedule)) as H.
  { destruct (H (count_start n makes)) as (_ & [S _] & _); [| exact S].
    split; [| split; [split; constructor | exact Logic.I]]. intros i N. cbn. now rewrite (Others i N). }
  induction schedule as [| k' t IH]; intros s H; [exact H |]. cbn. apply IH. clear IH.
  destruct H as (O & [S M] & C). unfold count_step.
  destruct (Nat.eq_dec k' k) as [-> | N].
  2: { rewrite (O k' N). cbn. repeat split; auto. }
  destruct (mk_at (cs_makers s k)) as [| | n'] eqn:At.
  - destruct (mk_todo (cs_makers s k)) as [| todo] eqn:Todo.
    + unfold ok, maker_ok. rewrite At. auto.
    + repeat split; cbn; rewrite ?Nat.eqb_refl; cbn; auto using sorted_snoc, le_snoc.
      intros i N. destruct (Nat.eqb_spec i k); [contradiction | auto].
  - destruct whole; repeat split; cbn; rewrite ?Nat.eqb_refl; cbn; auto;
      try (intros i N; destruct (Nat.eqb_spec i k); [contradiction | auto]).
    eapply Forall_impl; [| exact M]. cbn. lia.
  - repeat split; cbn; rewrite ?Nat.eqb_refl; cbn; auto;
      try (intros i N; destruct (Nat.eqb_spec i k); [contradiction | auto]).
    eapply Forall_impl; [| exact M]. cbn. lia.
Qed.

(** ** Appending *)
Fixpoint waiting (n : nat) (f : nat -> appender) : nat :=
  match n with O => 0 | S n' => (if ap_passed (f n') then 1 else 0) + waiting n' f end.

Lemma waiting_le : forall n f, waiting n f <= n.
Proof. induction n; intros f; cbn; [lia |]. specialize (IHn f). destruct (ap_passed (f n)); lia. Qed.
Lemma waiting_set : forall n f k t, k < n ->
  waiting n (fun i => if (i =? k)%nat then t else f i) + (if ap_passed (f k) then 1 else 0) =
  waiting n f + (if ap_passed t then 1 else 0).
Proof.
  induction n as [| n IH]; intros f k t H; [lia |]. cbn [waiting].
  destruct (Nat.eqb_spec n k) as [-> | N].
  - assert (E : waiting k (fun i => if (i =? k)%nat then t else f i) = waiting k f).
    { clear IH H. assert (G : forall j, j <= k -> waiting j (fun i => if (i =? k)%nat then t else f i) = waiting j f).
      { induction j as [| j IH]; intros H; [reflexivity |]. cbn. rewrite IH by lia.
        destruct (Nat.eqb_spec j k); [lia | reflexivity]. }
      now apply G. }
    rewrite E. lia.
  - pose proof (IH f k t ltac:(lia)). lia.
Qed.

Lemma append_bound : forall max l work threads schedule,
  (forall k, threads <= k -> work k = []) -> 0 < threads -> length l <= max ->
  length (ls_items (append_all (OInt (Z.of_nat max)) (append_start l work) schedule)) <= max + pred threads.
Proof.
  intros max l work threads schedule W T L.
  set (ok := fun s => (forall k, threads <= k -> ap_todo (ls_threads s k) = []) /\
    (forall k, ap_passed (ls_threads s k) = true -> ap_todo (ls_threads s k) <> []) /\
    (length (ls_items s) < max \/ length (ls_items s) + waiting threads (ls_threads s) <= max + pred threads)).
  enough (forall s, ok s -> ok (append_all (OInt (Z.of_nat max)) s schedule)) as H.
  { destruct (H (append_start l work)) as (_ & _ & [B | B]); [| lia | lia].
    split; [exact W |]. split; [discriminate |]. cbn.
    assert (E : waiting threads (fun k => mkApp (work k) false 0) = 0).
    { clear. induction threads; cbn; auto. }
    rewrite E. lia. }
  induction schedule as [| k t IH]; intros s H; [exact H |]. cbn. apply IH. clear IH.
  destruct H as (Z1 & P & B). unfold append_step.
  destruct (ap_todo (ls_threads s k)) as [| v todo] eqn:Todo; [repeat split; auto |].
  assert (K : k < threads).
  { destruct (Nat.lt_ge_cases k threads) as [? | G]; [assumption |]. rewrite (Z1 k G) in Todo. discriminate. }
  assert (quiet : forall i x y, threads <= i -> ap_todo (if (i =? k)%nat then x else y i) = ap_todo (y i)).
  { intros i x y G. destruct (Nat.eqb_spec i k); [lia | reflexivity]. }
  destruct (ap_passed (ls_threads s k)) eqn:Pk.
  - repeat split; cbn.
    + intros i G. rewrite quiet by assumption. auto.
    + intros i. destruct (Nat.eqb_spec i k); cbn; [discriminate | auto].
    + pose proof (waiting_set threads (ls_threads s) k (mkApp todo false (ap_refused (ls_threads s k))) K) as E.
      rewrite Pk in E. cbn in E. rewrite app_length. cbn.
      pose proof (waiting_le threads (fun i => if (i =? k)%nat then mkApp todo false (ap_refused (ls_threads s k)) else ls_threads s i)).
      pose proof (waiting_le threads (ls_threads s)). lia.
  - cbn [exceeds]. destruct (Z.ltb_spec (Z.of_nat max) (Z.of_nat (length (ls_items s)) + 1)) as [Lt | Ge].
    + repeat split; cbn.
      * intros i G. rewrite quiet by assumption. auto.
      * intros i. destruct (Nat.eqb_spec i k); cbn; [discriminate | auto].
      * pose proof (waiting_set threads (ls_threads s) k (mkApp todo false (S (ap_refused (ls_threads s k)))) K) as E.
        rewrite Pk in E. cbn in E. lia.
    + repeat split; cbn.
      * intros i G. rewrite quiet by assumption. auto.
      * intros i. destruct (Nat.eqb_spec i k); cbn; [discriminate | auto].
      * left. lia.
Qed.

Lemma append_race : forall max l v w, S (length l) = max ->
  exists schedule, ls_items (append_all (OInt (Z.of_nat max))
    (append_start l (fun k => match k with 0 => [v] | 1 => [w] | _ => [] end)) schedule) = l ++ [v; w].
Proof.
  intros max l v w E. exists [0; 1; 0; 1].
  assert (X : exceeds (Z.of_nat (length l) + 1) (OInt (Z.of_nat max)) = false).
  { cbn [exceeds]. apply Z.ltb_ge. lia. }
  unfold append_all, append_start. cbn [fold_left].
  unfold append_step at 4. cbn [ls_threads ap_todo ap_passed ls_items]. rewrite X.
  unfold append_step at 3. cbn [ls_threads ap_todo ap_passed ls_items Nat.eqb]. rewrite X.
  cbn. now rewrite <- app_assoc.
Qed.

(** Nothing is lost: what is not in the list was refused or is still to come. *)
Lemma total_set : forall n f g k, k < n -> (forall i, i <> k -> g i = f i) -> total n g + f k = total n f + g k.
Proof.
  induction n as [| n IH]; intros f g k H G; [lia |]. cbn [total].
  destruct (Nat.eq_dec n k) as [-> | N].
  - assert (E : total k g = total k f).
    { clear IH H. assert (Q : forall j, j <= k -> total j g = total j f).
      { induction j as [| j IH]; intros H; [reflexivity |]. cbn. rewrite IH, G by lia. reflexivity. }
      now apply Q. }
    rewrite E. lia.
  - pose proof (IH f g k ltac:(lia) G). pose proof (G n N). lia.
Qed.
Lemma append_total : forall max l work threads schedule, (forall k, threads <= k -> work k = []) ->
  let s := append_all max (append_start l work) schedule in
  length (ls_items s) + total threads (fun k => ap_refused (ls_threads s k) + length (ap_todo (ls_threads s k)))
  = length l + total threads (fun k => length (work k)).
Proof.
  intros max l work threads schedule W.
  enough (forall s, (forall k, threads <= k -> ap_todo (ls_threads s k) = []) ->
    let s' := append_all max s schedule in
    length (ls_items s') + total threads (fun k => ap_refused (ls_threads s' k) + length (ap_todo (ls_threads s' k)))
    = length (ls_items s) + total threads (fun k => ap_refused (ls_threads s k) + length (ap_todo (ls_threads s k)))) as H.
  { exact (H (append_start l work) W). }
  induction schedule as [| k t IH]; intros s Z1; [reflexivity |]. cbn.
  assert (step : (forall i, threads <= i -> ap_todo (ls_threads (append_step max s k) i) = []) /\
    length (ls_items (append_step max s k)) + total threads (fun i => ap_refused (ls_threads (append_step max s k) i) + length (ap_todo (ls_threads (append_step max s k) i)))
    = length (ls_items s) + total threads (fun i => ap_refused (ls_threads s i) + length (ap_todo (ls_threads s i)))).
  { unfold append_step. destruct (ap_todo (ls_threads s k)) as [| v todo] eqn:Todo; [split; auto |].
    assert (K : k < threads).
    { destruct (Nat.lt_ge_cases k threads) as [? | G]; [assumption |]. rewrite (Z1 k G) in Todo. discriminate. }
    assert (all : forall (items : list pyval) t', length items + ap_refused t' + length (ap_todo t') =
        length (ls_items s) + ap_refused (ls_threads s k) + S (length todo) ->
      (forall i, threads <= i -> ap_todo (if (i =? k)%nat then t' else ls_threads s i) = []) /\
      length items + total threads (fun i => ap_refused (if (i =? k)%nat then t' else ls_threads s i) + length (ap_todo (if (i =? k)%nat then t' else ls_threads s i)))
      = length (ls_items s) + total threads (fun i => ap_refused (ls_threads s i) + length (ap_todo (ls_threads s i)))).
    { intros items t' E. split.
      - intros i G. destruct (Nat.eqb_spec i k); [lia | auto].
      - pose proof (total_set threads (fun i => ap_refused (ls_threads s i) + length (ap_todo (ls_threads s i)))
          (fun i => ap_refused (if (i =? k)%nat then t' else ls_threads s i) + length (ap_todo (if (i =? k)%nat then t' else ls_threads s i))) k K) as Q.
        cbn beta in Q. rewrite Nat.eqb_refl, Todo in Q. cbn [length] in Q.
        rewrite <- (Nat.add_comm (total _ _)) in *.
        assert (R : forall i, i <> k -> ap_refused (if (i =? k)%nat then t' else ls_threads s i) + length (ap_todo (if (i =? k)%nat then t' else ls_threads s i)) = ap_refused (ls_threads s i) + length (ap_todo (ls_threads s i))).
        { intros i N. destruct (Nat.eqb_spec i k); [contradiction | reflexivity]. }
        specialize (Q R). lia. }
    destruct (ap_passed (ls_threads s k)); [| destruct (exceeds _ max)]; cbn [ls_threads ls_items]; apply all; cbn; rewrite ?app_length; cbn; lia. }
  destruct step as [Z2 E]. rewrite <- E. exact (IH _ Z2).
Qed.
