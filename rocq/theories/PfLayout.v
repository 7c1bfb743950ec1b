(** Reading a pretty-printed document. *)
From Coq Require Import String Ascii List ZArith NArith Bool Lia.
From Verif Require Import PyBase Xml PyVal XsdSimple XsdComplex SpecParse SpecRound PfBase PfParse.
Import ListNotations.

(** Elements of simple fields hold text only. *)
Inductive tidy (E : env) : ftype -> node -> Prop :=
| td_simple s t a k : k = [] \/ (exists x, k = [Text x]) -> tidy E (TSimple s) (Elem t a k)
| td_complex c t a k : ordinary E c ->
    (forall y f, In y k -> reads E c f -> belongs f y = true -> tidy E (f_type f) y) ->
    tidy E (TComplex c) (Elem t a k).

Scheme layout_rec := Induction for layout Sort Prop
  with spaced_rec := Induction for spaced Sort Prop.
Combined Scheme layout_mut from layout_rec, spaced_rec.

Lemma layout_head x x' : layout x x' -> (forall f, belongs f x = belongs f x') /\ is_pi x = is_pi x'.
Proof. destruct 1; auto. Qed.

Lemma layout_spaced_agree O E :
  (forall x x', layout x x' -> forall ft, tidy E ft x -> forall n, agree n O E ft x x') /\
  (forall k k', spaced k k' -> existsb is_pi k = existsb is_pi k' /\
     forall f, (forall y, In y k -> belongs f y = true -> tidy E (f_type f) y) -> forall n,
     Forall2 (agree n O E (f_type f)) (filter (belongs f) k) (filter (belongs f) k')).
Proof.
  apply (layout_mut
    (fun x x' _ => forall ft, tidy E ft x -> forall n, agree n O E ft x x')
    (fun k k' _ => existsb is_pi k = existsb is_pi k' /\
     forall f, (forall y, In y k -> belongs f y = true -> tidy E (f_type f) y) -> forall n,
     Forall2 (agree n O E (f_type f)) (filter (belongs f) k) (filter (belongs f) k'))).
  - intros. apply agree_refl.
  - intros t a k k' Nk NT _ [Hp IH] ft Td n. destruct ft as [s|c].
    + inversion Td as [? ? ? ? Hk|]; subst. destruct Hk as [->|[x ->]]; [congruence|inversion NT; discriminate].
    + inversion Td as [|? ? ? ? Ord Hk]; subst.
      apply agree_level; auto. intros f m Hr _. apply subs_agree_intro; [exact Hp|]. cbn. apply IH. intros y Hy B. eapply Hk; eauto.
  - split; auto. intros. constructor.
  - intros s k k' B Hs [Hp IH]. split; auto.
  - intros x x' k k' Hl IHl Hs [Hp IH]. destruct (layout_head _ _ Hl) as [Hb Hi]. split.
    + cbn. now rewrite Hp, Hi.
    + intros f Hf n. cbn. rewrite <- Hb. destruct (belongs f x) eqn:B; [|apply IH; auto with datatypes].
      constructor; [|apply IH; auto with datatypes]. apply IHl. auto with datatypes.
Qed.

Lemma layout_agree O E x x' ft n : layout x x' -> tidy E ft x -> agree n O E ft x x'.
Proof. intros. now apply layout_spaced_agree. Qed.
