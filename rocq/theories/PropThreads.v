(** C94, C95, C96: several threads. *)
From Coq Require Import String List ZArith Bool Sorted.
From Verif Require Import PyBase PyVal XsdComplex XsdMeta Threads SpecThreads PfThreads PfThreads2.
Import ListNotations.
Open Scope nat_scope.
Open Scope string_scope.
Open Scope list_scope.

(** C94.  [m] has the Element objects (number [e] was given [source e]); each has
    been used before or has a class or an instance for its type.  Whatever the
    threads do and however they take turns, no thread raises an exception, and
    what a thread gets is what the Element was given. *)
Theorem C94_agree : forall attribute fields source m jobs schedule k,
  (forall e, unused (source e) (m e) \/ used attribute (source e) (m e)) ->
  match ts_threads (moves attribute fields (launch fields m jobs) schedule) k with
  | Running _ => True
  | Finished i => result_of attribute source (jobs k) i
  | Raised _ => False
  end.
Proof. exact threads_agree. Qed.
Print Assumptions C94_agree.

(** No thread waits for another: with classes that do not contain themselves,
    there is a number of turns after which a thread is done, whatever the others
    do in between. *)
Theorem C94_finish : forall attribute fields source depth m jobs k,
  layered fields source depth ->
  (forall e, unused (source e) (m e) \/ used attribute (source e) (m e)) ->
  exists n, forall schedule, n <= turns k schedule ->
  exists i, ts_threads (moves attribute fields (launch fields m jobs) schedule) k = Finished i /\
    result_of attribute source (jobs k) i.
Proof. intros attribute fields source depth m jobs k L. exact (threads_finish attribute fields source depth L m jobs k). Qed.
Print Assumptions C94_finish.

(** A type given by its name that has not been used: two threads that use it for
    the first time can take turns so that one of them raises a TypeError. *)
Theorem C94_name_refuted : forall attribute fields module name c m e,
  attribute (module ++ "." ++ name)%string = Ok (GClass c) ->
  m e = mkSlot (GName (module ++ "." ++ name)) None ->
  exists schedule,
    ts_threads (moves attribute fields (launch fields m (fun _ => Uses e)) schedule) 0 = Raised TypeError.
Proof. exact named_race. Qed.
Print Assumptions C94_name_refuted.

(** With types given by name that have not been used, too: a thread gets what the
    name stands for, or it raises a TypeError, and nothing else; *)
Theorem C94_names_partial : forall attribute fields source m jobs schedule k,
  (forall e, unused (source e) (m e) \/ used attribute (source e) (m e) \/ unused_name attribute (source e) (m e)) ->
  match ts_threads (moves attribute fields (launch fields m jobs) schedule) k with
  | Running _ => True
  | Finished i => result_of attribute source (jobs k) i
  | Raised x => x = TypeError
  end.
Proof. exact names_safe. Qed.
Print Assumptions C94_names_partial.
(** and it raises nothing while the others do nothing. *)
Theorem C94_alone : forall attribute fields source m jobs n k,
  (forall e, unused (source e) (m e) \/ used attribute (source e) (m e) \/ unused_name attribute (source e) (m e)) ->
  match ts_threads (moves attribute fields (launch fields m jobs) (repeat k n)) k with
  | Running _ => True
  | Finished i => result_of attribute source (jobs k) i
  | Raised _ => False
  end.
Proof. exact names_alone. Qed.
Print Assumptions C94_alone.

Definition ex_attribute (path : string) : res given :=
  if String.eqb path "airports.Airport" then Ok (GClass "Airport") else Err AttributeError.
Definition ex_fields (c : string) : list nat :=
  if String.eqb c "Flight" then [0; 1; 2] else if String.eqb c "Airport" then [1] else [].
Definition ex_source (e : nat) : given :=
  match e with
  | 0 => GClass "Airport"
  | 1 => GInstance (mkInst "String" None)
  | 2 => GName "airports.Airport"
  | _ => GClass "Boolean"
  end.
Definition ex_memory (e : nat) : slot :=
  match e with
  | 2 => mkSlot (GClass "Airport") (Some (mkInst "Airport" (Some 9)))
  | _ => mkSlot (ex_source e) None
  end.
Definition ex_jobs (k : nat) : job := match k with 0 | 1 => Makes "Flight" | _ => Uses 0 end.
Example C94_nonvacuous :
  (forall e, unused (ex_source e) (ex_memory e) \/ used ex_attribute (ex_source e) (ex_memory e)) /\
  layered ex_fields ex_source (fun c => if String.eqb c "Flight" then 2 else if String.eqb c "Airport" then 1 else 0) /\
  let s := moves ex_attribute ex_fields (launch ex_fields ex_memory ex_jobs) (flat_map (fun _ => [0; 2; 1]) (seq 0 40)) in
  map (ts_threads s) [0; 1; 2] =
    [Finished (mkInst "Flight" (Some 0)); Finished (mkInst "Flight" (Some 1)); Finished (mkInst "Airport" (Some 0))].
Proof.
  repeat apply conj.
  - intros [| [| [| e]]]; [left | left | right | left]; try (repeat split; discriminate).
    exists (mkInst "Airport" (Some 9)). split; [reflexivity |].
    apply (SF_name _ _ (GClass "Airport")); [reflexivity |]. exact (SF_class _ (mkInst "Airport" (Some 9))).
  - intros c e d. unfold ex_fields.
    destruct (String.eqb_spec c "Flight") as [-> |]; [| destruct (String.eqb_spec c "Airport") as [-> |]]; cbn;
      intros H E; repeat (destruct H as [<- | H]; [cbn in E; try discriminate E; injection E as <-; cbn; repeat constructor |]); destruct H.
  - vm_compute. reflexivity.
Qed.
(** One after the other, both threads get the class that is named. *)
Example C94_name_nonvacuous :
  let m := fun _ : nat => mkSlot (GName "airports.Airport") None in
  let s := moves ex_attribute (fun _ => []) (launch (fun _ => []) m (fun _ => Uses 7)) (repeat 0 20 ++ repeat 1 20) in
  (forall e, unused_name ex_attribute (GName "airports.Airport") (m e)) /\
  map (ts_threads s) [0; 1] = [Finished (mkInst "Airport" (Some 0)); Finished (mkInst "Airport" (Some 0))].
Proof.
  split; [| vm_compute; reflexivity]. intros e. split; [reflexivity |]. split; [reflexivity |].
  exists "airports", "Airport", (GClass "Airport"). split; [reflexivity |]. split; [reflexivity | discriminate].
Qed.

(** C95.  The creation numbers a thread gives to the Element objects it makes rise
    in the order in which it makes them, if the statement that raises the counter
    is carried out as a whole. *)
Theorem C95_whole_partial : forall n makes schedule k,
  StronglySorted lt (mk_numbers (cs_makers (count_all true (count_start n makes) schedule) k)).
Proof. exact whole_sorted. Qed.
Print Assumptions C95_whole_partial.

(** The same without that condition while only one thread makes Element objects. *)
Theorem C95_alone_partial : forall whole n makes schedule k, (forall i, i <> k -> makes i = 0) ->
  StronglySorted lt (mk_numbers (cs_makers (count_all whole (count_start n makes) schedule) k)).
Proof. exact alone_sorted. Qed.
Print Assumptions C95_alone_partial.

(** In general the fields of a class can end up in another order: the last of the
    four fields defined by one thread is sorted before the third. *)
Theorem C95_refuted : exists schedule,
  mk_numbers (cs_makers (count_all false (count_start 0 (fun k => match k with 0 => 1 | _ => 4 end)) schedule) 1) = [0; 1; 2; 1] /\
  ~ StronglySorted lt [0; 1; 2; 1] /\
  by_creation [0; 1; 2; 1] = [0; 1; 1; 2].
Proof.
  exists ([0; 0] ++ repeat 1 9 ++ [0] ++ repeat 1 3). split; [vm_compute; reflexivity |].
  split; [| vm_compute; reflexivity].
  intros H. inversion H as [| a l H1 F1 E1]; subst. inversion H1 as [| a l H2 F2 E2]; subst.
  inversion F2 as [| b l G1 G2]; subst. inversion G2 as [| b l G3 G4]; subst. exact (Nat.lt_irrefl 1 G3).
Qed.
Print Assumptions C95_refuted.

Example C95_nonvacuous :
  let s := count_all true (count_start 0 (fun _ => 3)) (flat_map (fun _ => [0; 1; 1]) (seq 0 6)) in
  mk_numbers (cs_makers s 0) = [0; 3; 5] /\ mk_numbers (cs_makers s 1) = [0; 2; 3].
Proof. vm_compute. split; reflexivity. Qed.

(** C96.  A list field with maxOccurs = [max] to which [threads] threads append:
    at most [threads - 1] items too many, and none with one thread. *)
Theorem C96_bound_partial : forall max l work threads schedule,
  (forall k, threads <= k -> work k = []) -> 0 < threads -> length l <= max ->
  length (ls_items (append_all (OInt (Z.of_nat max)) (append_start l work) schedule)) <= max + pred threads.
Proof. exact append_bound. Qed.
Print Assumptions C96_bound_partial.

(** No item is lost: every value is in the list, was refused, or is still to be
    appended. *)
Theorem C96_total : forall max l work threads schedule, (forall k, threads <= k -> work k = []) ->
  let s := append_all max (append_start l work) schedule in
  length (ls_items s) + total threads (fun k => ap_refused (ls_threads s k) + length (ap_todo (ls_threads s k)))
  = length l + total threads (fun k => length (work k)).
Proof. exact append_total. Qed.
Print Assumptions C96_total.

(** The bound itself does not hold: two threads can bring any list with one free
    place to one item too many. *)
Theorem C96_refuted : forall max l v w, S (length l) = max ->
  exists schedule, ls_items (append_all (OInt (Z.of_nat max))
    (append_start l (fun k => match k with 0 => [v] | 1 => [w] | _ => [] end)) schedule) = l ++ [v; w].
Proof. exact append_race. Qed.
Print Assumptions C96_refuted.

Example C96_nonvacuous :
  let s := append_all (OInt 2) (append_start [] (fun k => match k with 0 => [VInt 1; VInt 2] | 1 => [VInt 3] | _ => [] end))
    [0; 0; 0; 1; 0; 1; 0; 1] in
  ls_items s = [VInt 1; VInt 2; VInt 3] /\ ap_refused (ls_threads s 1) = 0.
Proof. vm_compute. split; reflexivity. Qed.
