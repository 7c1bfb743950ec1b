(** Python's [sorted] with a key: a stable sort, here insertion sort. *)
From Coq Require Import List Arith Bool Lia Permutation Sorted.
Import ListNotations.

Section S.
  Context {A : Type} (key : A -> nat).
  Fixpoint insert_by (x : A) (l : list A) : list A :=
    match l with
    | [] => [x]
    | y :: t => if key x <=? key y then x :: y :: t else y :: insert_by x t
    end.
  Fixpoint sort_by (l : list A) : list A :=
    match l with [] => [] | x :: t => insert_by x (sort_by t) end.

  Lemma insert_perm x l : Permutation (insert_by x l) (x :: l).
  Proof.
    induction l as [|y t IH]; cbn; [auto|]. destruct (key x <=? key y); [auto|].
    rewrite IH. apply perm_swap.
  Qed.
  Lemma sort_perm l : Permutation (sort_by l) l.
  Proof. induction l as [|x t IH]; cbn; [auto|]. rewrite insert_perm, IH. auto. Qed.
  Definition ordered : list A -> Prop := StronglySorted (fun x y => key x <= key y).
  Lemma insert_ordered x l : ordered l -> ordered (insert_by x l).
  Proof.
    induction 1 as [|y t Ht IH Hy]; cbn; [repeat constructor|].
    destruct (Nat.leb_spec (key x) (key y)) as [L|L].
    - constructor; [now constructor|]. constructor; [exact L|]. eapply Forall_impl; [|exact Hy]. cbn. lia.
    - constructor; [exact IH|]. apply Forall_forall. intros z Hz.
      apply (Permutation_in _ (insert_perm x t)) in Hz. destruct Hz as [<- | Hz]; [lia|].
      rewrite Forall_forall in Hy. now apply Hy.
  Qed.
  Lemma sort_ordered l : ordered (sort_by l).
  Proof. induction l; cbn; [constructor|now apply insert_ordered]. Qed.
  Lemma insert_first x l : Forall (fun y => key x <= key y) l -> insert_by x l = x :: l.
  Proof. destruct 1 as [|y t H]; [reflexivity|]. cbn. apply Nat.leb_le in H. now rewrite H. Qed.
  Lemma sort_id l : ordered l -> sort_by l = l.
  Proof. induction 1 as [|x t Ht IH Hx]; cbn; [reflexivity|]. rewrite IH. now apply insert_first. Qed.
  Lemma sort_sort l : sort_by (sort_by l) = sort_by l.
  Proof. apply sort_id, sort_ordered. Qed.
  Lemma filter_insert p x l : ordered l ->
    filter p (insert_by x l) = if p x then insert_by x (filter p l) else filter p l.
  Proof.
    induction 1 as [|y t Ht IH Hy]; cbn; [destruct (p x); reflexivity|].
    destruct (key x <=? key y) eqn:L.
    - cbn. destruct (p x); [|reflexivity]. destruct (p y); [cbn; now rewrite L|].
      symmetry. apply insert_first. apply Nat.leb_le in L. apply Forall_forall. intros z Hz. apply filter_In in Hz as [Hz _].
      rewrite Forall_forall in Hy. specialize (Hy z Hz). lia.
    - cbn. rewrite IH. destruct (p x), (p y); cbn; try rewrite L; reflexivity.
  Qed.
  Lemma filter_sort p l : filter p (sort_by l) = sort_by (filter p l).
  Proof.
    induction l as [|x t IH]; cbn; [reflexivity|]. rewrite filter_insert by apply sort_ordered. rewrite IH.
    destruct (p x); reflexivity.
  Qed.
End S.
