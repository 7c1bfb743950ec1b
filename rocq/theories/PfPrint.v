(** Proofs about PyPrint.v. *)
From Coq Require Import String Ascii List ZArith NArith Bool Lia.
From Verif Require Import PyBase PfBase PyVal XsdSimple XsdComplex PyPrint SpecPrint.
Import ListNotations.
Open Scope nat_scope.
Open Scope string_scope.
Open Scope list_scope.

Lemma element_plain f : element_field f <-> is_plain f = true.
Proof. unfold element_field, is_plain, is_attr, is_group. destruct (f_kind f); cbn; intuition congruence. Qed.
Lemma text_app a b c : ((a ++ b) ++ c)%string = (a ++ (b ++ c))%string.
Proof. induction a; cbn; [reflexivity|now f_equal]. Qed.
Lemma text_nil a : (a ++ "")%string = a.
Proof. induction a; cbn; [reflexivity|now f_equal]. Qed.
Lemma in_join l s : In s l -> in_text s (comma_join l).
Proof.
  induction l as [|a l IH]; [intros []|]. intros [-> | H].
  - destruct l as [|b l]; [exists "", ""; cbn; now rewrite text_nil|exists "", (", " ++ comma_join (b :: l))%string; reflexivity].
  - destruct l as [|b l]; [destruct H|]. destruct (IH H) as (x & y & E). exists (a ++ ", " ++ x)%string, y.
    change (comma_join (a :: b :: l)) with (a ++ ", " ++ comma_join (b :: l))%string. rewrite E. now rewrite !text_app.
Qed.
Lemma mapM_item {A B} (f : A -> res B) l l' a : mapM f l = Ok l' -> In a l -> exists b, f a = Ok b /\ In b l'.
Proof.
  revert l'. induction l as [|x l IH]; [intros ? _ []|]. intros l' H. cbn in H. apply bind_ok in H as (y & Hy & H). apply bind_ok in H as (ys & Hys & H). injection H as <-.
  intros [<- | I]; [exists y; split; [exact Hy|now left]|]. destruct (IH _ Hys I) as (b & ? & ?). exists b. split; [assumption|now right].
Qed.
Lemma mapM_some {A B} (f : A -> res B) l : (forall a, In a l -> exists b, f a = Ok b) -> exists l', mapM f l = Ok l'.
Proof.
  induction l as [|x l IH]; intros H; [now exists []|]. destruct (H x (or_introl eq_refl)) as (y & Hy). destruct IH as (ys & Hys); [intros a Ha; apply H; now right|].
  exists (y :: ys). cbn. rewrite Hy. cbn [bind]. now rewrite Hys.
Qed.

Definition value_of (fs : list (string * pyval)) (name : string) : pyval := match assoc name fs with Some v => v | None => VStr "<UNKNOWN FIELD>" end.
Lemma fold_shown fs l : forall acc name x, In (name, x) (fold_left (fun acc f => assoc_set (f_name f) (value_of fs (f_name f)) acc) l acc) ->
  (forall n y, In (n, y) acc -> y = value_of fs n) -> x = value_of fs name.
Proof.
  induction l as [|f l IH]; cbn; intros acc name x H A; [now apply A|]. apply (IH _ _ _ H). intros n y Hy.
  clear -A Hy. induction acc as [|[n' v'] acc IH]; cbn in Hy.
  - destruct Hy as [[= <- <-] | []]. reflexivity.
  - destruct (String.eqb (f_name f) n') eqn:E; destruct Hy as [[= <- <-] | Hy].
    + apply String.eqb_eq in E. now rewrite E.
    + apply A. now right.
    + apply A. now left.
    + apply IH; [intros m z Hz; apply A; now right|exact Hy].
Qed.
Lemma set_in (k : string) (v : pyval) acc : In (k, v) (assoc_set k v acc).
Proof. induction acc as [|[n x] acc IH]; cbn; [now left|]. destruct (String.eqb k n) eqn:E; [apply String.eqb_eq in E as ->; now left|now right]. Qed.
Lemma set_kept (k : string) (v : pyval) acc n x : In (n, x) acc -> n <> k -> In (n, x) (assoc_set k v acc).
Proof.
  induction acc as [|[n' x'] acc IH]; cbn; [intros []|]. intros [[= -> ->] | H] N.
  - destruct (String.eqb_spec k n) as [-> | _]; [congruence|now left].
  - destruct (String.eqb k n'); right; auto.
Qed.
Lemma fold_has fs l : forall acc name, (In (name, value_of fs name) acc \/ In name (map f_name l)) ->
  In (name, value_of fs name) (fold_left (fun acc f => assoc_set (f_name f) (value_of fs (f_name f)) acc) l acc).
Proof.
  induction l as [|f l IH]; cbn; intros acc name [H | H]; auto; try contradiction.
  - apply IH. left. destruct (string_dec name (f_name f)) as [-> | N]; [apply set_in|now apply set_kept].
  - apply IH. destruct H as [<- | H]; [left; apply set_in|now right].
Qed.
Lemma shown_in d fs f : In f (cd_fields d) -> element_field f -> In (f_name f, value_of fs (f_name f)) (shown_values d fs).
Proof.
  intros Hf Ef. apply (fold_has fs (filter is_plain (cd_fields d)) []). right. apply in_map, filter_In. split; [exact Hf|now apply element_plain].
Qed.
Lemma shown_value d fs name x : In (name, x) (shown_values d fs) -> x = value_of fs name.
Proof. intros H. apply (fold_shown fs (filter is_plain (cd_fields d)) [] name x H). intros ? ? []. Qed.

(** More room changes nothing. *)
Lemma str_more O E n : forall v s, obj_str n O E v = Ok s -> forall m, n <= m -> obj_str m O E v = Ok s.
Proof.
  induction n as [|n IH]; [discriminate|]. intros v s H [|m] Hm; [lia|]. destruct v; try exact H. cbn [obj_str] in *.
  destruct (get_class E cls); [|exact H]. cbn [bind] in *. apply bind_ok in H as (items & Hi & H).
  replace (mapM _ (shown_values a fs)) with (@Ok (list string) items); [exact H|]. symmetry. clear H. revert items Hi.
  induction (shown_values a fs) as [|p l IHl]; intros items Hi; [exact Hi|]. cbn [mapM] in *. apply bind_ok in Hi as (y & Hy & Hi). apply bind_ok in Hi as (ys & Hys & Hi). injection Hi as <-.
  apply bind_ok in Hy as (t & Ht & Hy). injection Hy as <-. rewrite (IH _ _ Ht m) by lia. cbn [bind]. now rewrite (IHl _ Hys).
Qed.
Lemma str_shows O E n c d xe fs s f x : obj_str n O E (VObj c xe fs) = Ok s -> e_cls E c = Some d ->
  In f (cd_fields d) -> element_field f -> assoc (f_name f) fs = Some x ->
  exists t, obj_str n O E x = Ok t /\ in_text (f_name f ++ "=" ++ t) s.
Proof.
  destruct n as [|n]; [discriminate|]. intros H Hd Hf Ef Hx. cbn [obj_str] in H. unfold get_class in H. rewrite Hd in H. cbn [bind] in H.
  apply bind_ok in H as (items & Hi & H). injection H as <-.
  pose proof (shown_in d fs f Hf Ef) as I. unfold value_of in I. rewrite Hx in I.
  destruct (mapM_item _ _ _ _ Hi I) as (it & Hit & Iit). cbn [fst snd] in Hit. apply bind_ok in Hit as (t & Ht & Hit). injection Hit as <-.
  exists t. split; [exact (str_more O E n x t Ht (S n) (le_S _ _ (le_n _)))|].
  destruct (in_join _ _ Iit) as (a & b & E1). exists ("<" ++ c ++ ": " ++ a)%string, (b ++ ">")%string.
  rewrite E1. cbn. now rewrite !text_app.
Qed.
Lemma str_same O E n c d xe xe' fs fs' : e_cls E c = Some d -> same_elements d fs fs' ->
  obj_str n O E (VObj c xe fs) = obj_str n O E (VObj c xe' fs').
Proof.
  intros Hd Sm. destruct n as [|n]; [reflexivity|]. cbn [obj_str]. unfold get_class. rewrite Hd. cbn [bind].
  replace (shown_values d fs') with (shown_values d fs); [reflexivity|]. unfold shown_values.
  assert (A : forall l acc, incl l (filter is_plain (cd_fields d)) ->
    fold_left (fun acc f => assoc_set (f_name f) (match assoc (f_name f) fs with Some v => v | None => VStr "<UNKNOWN FIELD>" end) acc) l acc =
    fold_left (fun acc f => assoc_set (f_name f) (match assoc (f_name f) fs' with Some v => v | None => VStr "<UNKNOWN FIELD>" end) acc) l acc).
  { induction l as [|f l IH]; intros acc I; [reflexivity|]. cbn [fold_left]. destruct (proj1 (filter_In _ _ _) (I f (or_introl eq_refl))) as [F1 F2].
    rewrite (Sm f F1 (proj2 (element_plain f) F2)). apply IH. intros x Hx. apply I. now right. }
  apply A. apply incl_refl.
Qed.
Lemma obj_eq O E n c xe fs : obj_str (S n) O E (VObj c xe fs) =
  (d <- get_class E c ;;
   items <- mapM (fun p => s <- obj_str n O E (snd p) ;; Ok (fst p ++ "=" ++ s)%string) (shown_values d fs) ;;
   Ok ("<" ++ c ++ ": " ++ comma_join items ++ ">")%string).
Proof. reflexivity. Qed.
Lemma str_returns O E n : forall v, at_most_deep E n v -> exists s, obj_str (S n) O E v = Ok s.
Proof.
  induction n as [|n IH]; intros v H; inversion H; subst; try (destruct v; try (eexists; reflexivity); exfalso; eapply H0; reflexivity).
  rewrite obj_eq. unfold get_class. rewrite H1. cbn [bind].
  destruct (mapM_some (fun p => s <- obj_str (S n) O E (snd p) ;; Ok (fst p ++ "=" ++ s)%string) (shown_values d fs)) as (items & Hi).
  - intros [name x] I. cbn [fst snd]. rewrite (shown_value _ _ _ _ I). unfold value_of.
    destruct (assoc name fs) as [y|] eqn:Ey.
    + destruct (IH y (H2 name y Ey)) as (s & ->). eexists. reflexivity.
    + eexists. reflexivity.
  - rewrite Hi. eexists. reflexivity.
Qed.

(** ** Errors *)
Lemma split_at (x : ascii) c : forall c' r r', ~ In x (list_ascii_of_string c) -> ~ In x (list_ascii_of_string c') ->
  (c ++ String x r)%string = (c' ++ String x r')%string -> c = c' /\ r = r'.
Proof.
  induction c as [|a c IH]; intros [|a' c'] r r' N N' H; cbn in *.
  - now injection H.
  - injection H as <- _. elim N'. now left.
  - injection H as -> _. elim N. now left.
  - injection H as <- H. destruct (IH c' r r') as [<- <-]; auto.
Qed.
Lemma error_read code message actor code' message' actor' :
  ~ In "]"%char (list_ascii_of_string code) -> ~ In "]"%char (list_ascii_of_string code') ->
  ~ In ";"%char (list_ascii_of_string message) -> ~ In ";"%char (list_ascii_of_string message') ->
  actor <> Some "None" -> actor' <> Some "None" ->
  error_str code message actor = error_str code' message' actor' -> code = code' /\ message = message' /\ actor = actor'.
Proof.
  intros N1 N2 N3 N4 N5 N6 H. unfold error_str in H. cbn [String.append] in H. injection H as H.
  destruct (split_at _ _ _ _ _ N1 N2 H) as [-> H']. injection H' as H'. destruct (split_at _ _ _ _ _ N3 N4 H') as [-> H2]. injection H2 as H2.
  split; [reflexivity|]. split; [reflexivity|]. destruct actor as [a|], actor' as [a'|]; subst; try reflexivity; congruence.
Qed.
