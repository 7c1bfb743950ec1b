(** More depth does not change what is rendered. *)
From Coq Require Import String Ascii List ZArith NArith Bool Lia.
From Verif Require Import PyBase Xml PyVal XsdSimple XsdComplex PfBase PfObject.
Import ListNotations.

Definition le_res {A} (a b : res A) : Prop := forall x, a = Ok x -> b = Ok x.
Definition le_rec (r r' : renderer) : Prop := forall c p v ns efd, le_res (r c p v ns efd) (r' c p v ns efd).

Lemma le_refl {A} (a : res A) : le_res a a.
Proof. intros x H. exact H. Qed.
Lemma le_bind {A B} (a a' : res A) (k k' : A -> res B) : le_res a a' -> (forall x, le_res (k x) (k' x)) ->
  le_res (bind a k) (bind a' k').
Proof. intros H K x E. apply bind_ok in E as (y & Ey & E). rewrite (H y Ey). cbn [bind]. now apply K. Qed.
Lemma le_foldM {A B} (f f' : A -> B -> res A) l : (forall a b, le_res (f a b) (f' a b)) ->
  forall a, le_res (foldM f a l) (foldM f' a l).
Proof. intros H. induction l as [|b l IH]; intros a; [apply le_refl|]. cbn [foldM]. apply le_bind; auto. Qed.

Lemma le_type O r r' t p v ns efd : le_rec r r' -> le_res (render_type O r t p v ns efd) (render_type O r' t p v ns efd).
Proof. intros H. destruct t; cbn [render_type]; [apply le_refl|apply H]. Qed.
Lemma le_field O E r r' f p v ns efd : le_rec r r' -> le_res (render_field O E r f p v ns efd) (render_field O E r' f p v ns efd).
Proof.
  intros H. unfold render_field.
  assert (RR : le_res (render_ref O E r f p (tag_or_name f) v ns efd) (render_ref O E r' f p (tag_or_name f) v ns efd)).
  { unfold render_ref. destruct v; try apply le_refl; (destruct (is_group_obj E _); [now apply le_type|]);
      (apply le_bind; [apply le_refl|]); intros x; (apply le_bind; [now apply le_type|intros; apply le_refl]). }
  destruct (f_kind f); try exact RR; try apply le_refl.
  - unfold render_element. destruct v; try apply le_refl; (apply le_bind; [apply le_refl|]); intros x;
      (apply le_bind; [|intros; apply le_refl]); now apply le_type.
  - unfold render_classnamed. destruct v; try apply le_refl; (apply le_bind; [apply le_refl|]); intros q;
      (apply le_bind; [apply le_refl|]); intros t; (apply le_bind; [apply le_refl|]); intros value;
      destruct value; try apply le_refl; (apply le_bind; [apply le_refl|]); intros q';
      (apply le_bind; [apply le_refl|]); intros d; destruct (cd_schema d); try apply le_refl;
      (apply le_bind; [apply le_refl|]); intros tg; (apply le_bind; [apply le_refl|]); intros x;
      (apply le_bind; [now apply le_type|intros; apply le_refl]).
  - unfold render_list. destruct v; try apply le_refl. cbv zeta.
    match goal with |- context [if ?b then _ else _] => destruct b end; [apply le_refl|].
    match goal with |- context [if ?b then _ else _] => destruct b end; [apply le_refl|].
    destruct (f_tag f); [|apply le_refl]. apply le_foldM. intros q item.
    apply le_bind; [apply le_refl|]. intros x. apply le_bind; [|intros; apply le_refl].
    destruct item; try apply le_refl; now apply le_type.
Qed.

Lemma render_mono O E n : le_rec (render_obj n O E) (render_obj (S n) O E).
Proof.
  induction n as [|n IH]; intros c p v ns efd; [intros x; discriminate|].
  rewrite (render_obj_S (S n)), (render_obj_S n).
  apply le_bind; [apply le_refl|]. intros d. apply le_bind; [apply le_refl|]. intros ns0.
  destruct v; try apply le_refl. apply le_bind; [apply le_refl|]. intros q. apply le_bind; [apply le_refl|].
  intros di. apply le_foldM. intros par f. apply le_bind; [apply le_refl|]. intros fv. now apply le_field.
Qed.
Lemma render_more O E n m : (n <= m)%nat -> le_rec (render_obj n O E) (render_obj m O E).
Proof.
  induction 1 as [|m H IH]; intros c p v ns efd; [apply le_refl|]. intros x Hx.
  apply render_mono. now apply IH.
Qed.
Lemma xml_of_more O E n m v tag ns efd : (n <= m)%nat -> le_res (xml_of n O E v tag ns efd) (xml_of m O E v tag ns efd).
Proof.
  intros H. unfold xml_of. apply le_bind; [apply le_refl|]. intros x. apply le_bind; [apply le_refl|]. intros p.
  now apply render_more.
Qed.
