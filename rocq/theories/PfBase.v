(** Lemmas about the Python primitives of PyBase. *)
From Coq Require Import String Ascii List ZArith NArith Bool Lia.
From Verif Require Import PyBase.
Import ListNotations.

(** ** Results *)
Lemma bind_ok {A B} (r : res A) (f : A -> res B) b :
  bind r f = Ok b <-> exists a, r = Ok a /\ f a = Ok b.
Proof.
  destruct r as [a|e]; simpl; split.
  - intros H. eauto.
  - intros (a' & E & H). now inversion E; subst.
  - discriminate.
  - intros (a' & E & H). discriminate.
Qed.

Lemma bind_err {A B} (r : res A) (f : A -> res B) e :
  bind r f = Err e <-> r = Err e \/ exists a, r = Ok a /\ f a = Err e.
Proof.
  destruct r as [a|e']; simpl; split.
  - intros H. eauto.
  - intros [H | (a' & E & H)]; [discriminate|]. now inversion E; subst.
  - intros H. left. congruence.
  - intros [H | (a' & E & H)]; [congruence | discriminate].
Qed.

Lemma foldM_app {A B} (f : A -> B -> res A) l1 l2 a :
  foldM f a (l1 ++ l2) = bind (foldM f a l1) (fun b => foldM f b l2).
Proof.
  revert a; induction l1 as [|x l1 IH]; intros a; simpl; [reflexivity|].
  destruct (f a x); simpl; auto.
Qed.

Lemma NoDup_app_intro {A} (l m : list A) : NoDup l -> NoDup m -> (forall x, In x l -> ~ In x m) -> NoDup (l ++ m).
Proof.
  induction l as [|x l IH]; cbn; auto. intros H1 H2 D. inversion H1; subst. constructor.
  - intros H. apply in_app_or in H as [H|H]; auto. exact (D x (or_introl eq_refl) H).
  - apply IH; auto.
Qed.

Lemma foldM_ext {A B} (f g : A -> B -> res A) l a :
  (forall a x, In x l -> f a x = g a x) -> foldM f a l = foldM g a l.
Proof.
  revert a; induction l as [|x l IH]; intros a H; simpl; [reflexivity|].
  rewrite H by (left; reflexivity). destruct (g a x); simpl; [|reflexivity].
  apply IH. intros; apply H; right; assumption.
Qed.

Lemma foldM_inv {A B} (P : A -> Prop) (f : A -> B -> res A) l a a' :
  P a -> (forall x b b', In x l -> P b -> f b x = Ok b' -> P b') ->
  foldM f a l = Ok a' -> P a'.
Proof.
  revert a; induction l as [|x l IH]; intros a Ha Hs; simpl.
  - now injection 1 as <-.
  - destruct (f a x) eqn:E; simpl; [|discriminate].
    intros H. eapply IH; [| | exact H].
    + eapply Hs; [left; reflexivity | exact Ha | exact E].
    + intros y b b' Hy. apply Hs. right; exact Hy.
Qed.

(** ** Strings and lists of characters *)
Lemma to_of l : to_l (of_l l) = l.
Proof. apply list_ascii_of_string_of_list_ascii. Qed.
Lemma of_to s : of_l (to_l s) = s.
Proof. apply string_of_list_ascii_of_string. Qed.
Lemma to_l_inj s t : to_l s = to_l t -> s = t.
Proof. intros H. rewrite <- (of_to s), <- (of_to t). now f_equal. Qed.
Lemma of_l_inj l m : of_l l = of_l m -> l = m.
Proof. intros H. rewrite <- (to_of l), <- (to_of m). now f_equal. Qed.
Lemma to_l_app s t : to_l (s ++ t) = (to_l s ++ to_l t)%list.
Proof. induction s; simpl; [reflexivity|]. now f_equal. Qed.
Lemma of_l_app l m : of_l (l ++ m)%list = (of_l l ++ of_l m)%string.
Proof. induction l; simpl; [reflexivity|]. now f_equal. Qed.
Lemma length_to_l s : length (to_l s) = String.length s.
Proof. induction s; simpl; auto. Qed.
Lemma slen_l s : slen s = Z.of_nat (length (to_l s)).
Proof. unfold slen. now rewrite length_to_l. Qed.

Lemma str_in_spec s l : str_in s l = true <-> In s l.
Proof.
  unfold str_in. rewrite existsb_exists. split.
  - intros (x & H & E). apply String.eqb_eq in E. now subst.
  - intros H. exists s. split; [assumption | apply String.eqb_refl].
Qed.
Lemma char_in_spec c s : char_in c s = true <-> In c (to_l s).
Proof.
  unfold char_in. rewrite existsb_exists. split.
  - intros (x & H & E). apply Ascii.eqb_eq in E. now subst.
  - intros H. exists c. split; [assumption | apply Ascii.eqb_refl].
Qed.

(** ** Characters *)
Lemma code_chr n : (n < 256)%N -> code (chr n) = n.
Proof. intros H. unfold code, chr. now apply N_ascii_embedding. Qed.
Lemma chr_code c : chr (code c) = c.
Proof. apply ascii_N_embedding. Qed.
Lemma code_lt c : (code c < 256)%N.
Proof. unfold code. apply N_ascii_bounded. Qed.
Lemma code_inj a b : code a = code b -> a = b.
Proof. intros H. rewrite <- (chr_code a), <- (chr_code b). now f_equal. Qed.

Lemma is_digit_iff c : is_digit c = true <-> (48 <= code c <= 57)%N.
Proof. unfold is_digit, in_range. rewrite andb_true_iff, !N.leb_le. reflexivity. Qed.

Lemma digit_char_digit d : (d < 10)%N -> is_digit (digit_char d) = true.
Proof. intros H. apply is_digit_iff. unfold digit_char. rewrite code_chr by lia. lia. Qed.
Lemma digit_val_char d : (d < 10)%N -> digit_val (digit_char d) = d.
Proof. intros H. unfold digit_val, digit_char. rewrite code_chr by lia. lia. Qed.
Lemma digit_char_val c : is_digit c = true -> digit_char (digit_val c) = c.
Proof.
  intros H. apply is_digit_iff in H. apply code_inj.
  unfold digit_char, digit_val. rewrite code_chr by lia. lia.
Qed.
Lemma digit_val_lt c : is_digit c = true -> (digit_val c < 10)%N.
Proof. intros H. apply is_digit_iff in H. unfold digit_val. lia. Qed.

(** ** Numerals *)
Lemma fold_digits_acc l : forall a,
  fold_left (fun acc c => acc * 10 + digit_val c)%N l a
  = (a * 10 ^ N.of_nat (length l) + digits_value l)%N.
Proof.
  unfold digits_value.
  induction l as [|c l IH]; intros a.
  - simpl. lia.
  - cbn [fold_left length]. rewrite IH, (IH (0 * 10 + digit_val c)%N).
    rewrite Nat2N.inj_succ, N.pow_succ_r'. lia.
Qed.
Lemma digits_value_app l m :
  digits_value (l ++ m) = (digits_value l * 10 ^ N.of_nat (length m) + digits_value m)%N.
Proof. unfold digits_value at 1. rewrite fold_left_app. apply fold_digits_acc. Qed.
Lemma digits_value_cons c l :
  digits_value (c :: l) = (digit_val c * 10 ^ N.of_nat (length l) + digits_value l)%N.
Proof. change (c :: l) with ([c] ++ l). rewrite digits_value_app. reflexivity. Qed.
Lemma digits_value_2 a b : digits_value [a; b] = (digit_val a * 10 + digit_val b)%N.
Proof. reflexivity. Qed.

Lemma fixed_length k n : length (fixed_l k n) = k.
Proof. revert n; induction k; intros n; simpl; [reflexivity|]. rewrite app_length, IHk; simpl; lia. Qed.
Lemma fixed_digits k n : forallb is_digit (fixed_l k n) = true.
Proof.
  revert n; induction k; intros n; cbn [fixed_l]; [reflexivity|].
  rewrite forallb_app, IHk. cbn [forallb]. rewrite digit_char_digit; [reflexivity|].
  apply N.mod_lt; lia.
Qed.
Lemma fixed_value k n : (n < 10 ^ N.of_nat k)%N -> digits_value (fixed_l k n) = n.
Proof.
  revert n; induction k; intros n H; cbn [fixed_l].
  - simpl in *. cbn in H. unfold digits_value; simpl. lia.
  - rewrite digits_value_app, IHk.
    + cbn [length]. replace (digits_value [digit_char (n mod 10)]) with (n mod 10)%N.
      * change (10 ^ N.of_nat 1)%N with 10%N. pose proof (N.div_mod n 10). lia.
      * symmetry. apply digit_val_char. apply N.mod_lt; lia.
    + rewrite Nat2N.inj_succ, N.pow_succ_r' in H. apply N.div_lt_upper_bound; lia.
Qed.

Lemma dec_digits_fixed k : forall fuel n acc,
  (1 <= k)%nat -> (k <= fuel)%nat -> (n < 10 ^ N.of_nat k)%N ->
  (k = 1%nat \/ 10 ^ N.of_nat (k - 1) <= n)%N ->
  dec_digits fuel n acc = (fixed_l k n ++ acc)%list.
Proof.
  induction k as [|k IH]; intros fuel n acc Hk Hf Hn Hlo; [lia|].
  destruct fuel as [|fuel]; [lia|]. cbn [dec_digits].
  destruct (N.ltb_spec n 10) as [L|L].
  - destruct k as [|k].
    + reflexivity.
    + destruct Hlo as [Hlo|Hlo]; [lia|].
      exfalso. replace (S (S k) - 1)%nat with (S k) in Hlo by lia.
      rewrite Nat2N.inj_succ, N.pow_succ_r' in Hlo.
      assert (1 <= 10 ^ N.of_nat k)%N by (apply N.lt_pred_le, N.neq_0_lt_0, N.pow_nonzero; lia).
      lia.
  - assert (1 <= k)%nat.
    { destruct k; [|lia]. cbn in Hn. lia. }
    rewrite IH.
    + cbn [fixed_l]. rewrite <- app_assoc. reflexivity.
    + lia.
    + lia.
    + rewrite Nat2N.inj_succ, N.pow_succ_r' in Hn. apply N.div_lt_upper_bound; lia.
    + destruct Hlo as [Hlo|Hlo]; [lia|].
      destruct (Nat.eq_dec k 1) as [->|Hk1]; [now left|right].
      replace (S k - 1)%nat with (S (k - 1)) in Hlo by lia.
      rewrite Nat2N.inj_succ, N.pow_succ_r' in Hlo.
      apply N.div_le_lower_bound; lia.
Qed.

(** Number of decimal digits. *)
Lemma dec_len_exists n : exists k,
  (1 <= k)%nat /\ (n < 10 ^ N.of_nat k)%N /\ (k = 1%nat \/ 10 ^ N.of_nat (k - 1) <= n)%N
  /\ (k <= dec_fuel n)%nat.
Proof.
  assert (G : forall m, (n < 10 ^ N.of_nat (S m))%N -> exists k,
     (1 <= k <= S m)%nat /\ (n < 10 ^ N.of_nat k)%N /\ (k = 1%nat \/ 10 ^ N.of_nat (k - 1) <= n)%N).
  { induction m as [|m IH]; intros H.
    - exists 1%nat. repeat split; auto.
    - destruct (N.ltb_spec n (10 ^ N.of_nat (S m))) as [L|L].
      + destruct (IH L) as (k & ? & ? & ?). exists k. repeat split; auto; lia.
      + exists (S (S m)). split; [lia|]. split; [assumption|]. right.
        now replace (S (S m) - 1)%nat with (S m) by lia. }
  destruct (G (N.to_nat (N.log2 n))) as (k & Hk & H1 & H2).
  - rewrite Nat2N.inj_succ, N2Nat.id.
    destruct (N.eq_dec n 0) as [->|Hn].
    { simpl. lia. }
    destruct (N.log2_spec n) as [_ H]; [lia|].
    eapply N.lt_le_trans; [exact H|]. apply N.pow_le_mono_l. lia.
  - exists k. unfold dec_fuel. repeat split; auto; lia.
Qed.

Lemma dec_l_fixed n : exists k, (1 <= k)%nat /\ (n < 10 ^ N.of_nat k)%N /\ dec_l n = fixed_l k n
  /\ (k = 1%nat \/ 10 ^ N.of_nat (k - 1) <= n)%N.
Proof.
  destruct (dec_len_exists n) as (k & H1 & H2 & H3 & H4).
  exists k. repeat split; auto. unfold dec_l.
  rewrite (dec_digits_fixed k) by auto. apply app_nil_r.
Qed.
Lemma dec_l_eq_fixed k n :
  (1 <= k)%nat -> (n < 10 ^ N.of_nat k)%N -> (k = 1%nat \/ 10 ^ N.of_nat (k - 1) <= n)%N ->
  dec_l n = fixed_l k n.
Proof.
  intros Hk Hn Hlo. destruct (dec_l_fixed n) as (k' & Hk' & Hn' & E & Hlo').
  rewrite E. f_equal.
  destruct (Nat.lt_trichotomy k k') as [L|[-> | L]]; auto; exfalso.
  - destruct Hlo' as [->|Hlo']; [lia|].
    assert (10 ^ N.of_nat k <= 10 ^ N.of_nat (k' - 1))%N by (apply N.pow_le_mono_r; lia). lia.
  - destruct Hlo as [->|Hlo]; [lia|].
    assert (10 ^ N.of_nat k' <= 10 ^ N.of_nat (k - 1))%N by (apply N.pow_le_mono_r; lia). lia.
Qed.
Lemma dec_l_digits n : forallb is_digit (dec_l n) = true.
Proof. destruct (dec_l_fixed n) as (k & _ & _ & -> & _). apply fixed_digits. Qed.
Lemma dec_l_value n : digits_value (dec_l n) = n.
Proof. destruct (dec_l_fixed n) as (k & _ & H & -> & _). now apply fixed_value. Qed.
Lemma dec_l_nonnil n : dec_l n <> [].
Proof.
  destruct (dec_l_fixed n) as (k & H & _ & E & _). intros C.
  assert (length (dec_l n) = k) by (rewrite E; apply fixed_length).
  rewrite C in H0; simpl in H0; lia.
Qed.
Lemma dec_l_inj n m : dec_l n = dec_l m -> n = m.
Proof. intros H. rewrite <- (dec_l_value n), <- (dec_l_value m). now f_equal. Qed.

Lemma pad2_fixed n : (n < 100)%N -> pad2_l n = fixed_l 2 n.
Proof.
  intros H. unfold pad2_l. destruct (N.ltb_spec n 10) as [L|L].
  - rewrite (dec_l_eq_fixed 1); [| lia | simpl; lia | now left]. cbn [fixed_l].
    rewrite (N.div_small n 10), N.mod_small by lia. reflexivity.
  - apply dec_l_eq_fixed; simpl; lia.
Qed.

(** ** int(str) *)
Lemma int_body_digits l : forall acc p,
  forallb is_digit l = true -> (l <> [] \/ p = true) ->
  int_body l acc p = Some (fold_left (fun acc c => acc * 10 + digit_val c)%N l acc).
Proof.
  induction l as [|c l IH]; intros acc p H Hp; simpl.
  - destruct Hp as [C | ->]; [congruence|reflexivity].
  - simpl in H. apply andb_true_iff in H as [Hc Hl]. rewrite Hc. apply IH; auto.
Qed.

Lemma digit_not_space c : is_digit c = true -> is_int_space c = false.
Proof.
  intros H. apply is_digit_iff in H. unfold is_int_space, in_range.
  repeat rewrite orb_false_iff. rewrite andb_false_iff, !N.leb_gt, !N.eqb_neq. lia.
Qed.

Lemma lstrip_id p l : match l with c :: _ => p c = false | [] => True end -> lstrip_l p l = l.
Proof. destruct l as [|c t]; simpl; auto. now intros ->. Qed.

Lemma strip_id p l :
  match l with c :: _ => p c = false | [] => True end ->
  match rev l with c :: _ => p c = false | [] => True end ->
  strip_l p l = l.
Proof.
  intros H1 H2. unfold strip_l. rewrite (lstrip_id p l H1), (lstrip_id p (rev l) H2).
  apply rev_involutive.
Qed.

Lemma forallb_rev {A} (p : A -> bool) l : forallb p (rev l) = forallb p l.
Proof.
  induction l; simpl; auto. rewrite forallb_app, IHl. simpl. rewrite andb_true_r. apply andb_comm.
Qed.

Lemma strip_digits l : forallb is_digit l = true -> strip_l is_int_space l = l.
Proof.
  intros H. apply strip_id.
  - destruct l; auto. simpl in H. apply andb_true_iff in H as [H _]. now apply digit_not_space.
  - rewrite <- forallb_rev in H. destruct (rev l); auto.
    simpl in H. apply andb_true_iff in H as [H _]. now apply digit_not_space.
Qed.

Lemma strip_sign_digits sg l : is_int_space sg = false -> l <> [] -> forallb is_digit l = true ->
  strip_l is_int_space (sg :: l) = sg :: l.
Proof.
  intros Hs Hl H. apply strip_id; auto. simpl.
  rewrite <- forallb_rev in H. destruct (rev l) eqn:E; simpl.
  - assumption.
  - simpl in H. apply andb_true_iff in H as [H _]. now apply digit_not_space.
Qed.

Lemma int_of_digits l : l <> [] -> forallb is_digit l = true ->
  int_of_str (of_l l) = Ok (Z.of_N (digits_value l)).
Proof.
  intros Hn H. unfold int_of_str. rewrite to_of, strip_digits by assumption.
  destruct l as [|c t]; [congruence|].
  assert (Hb : int_body (c :: t) 0 false = Some (digits_value (c :: t))).
  { apply int_body_digits; auto. }
  assert (Hc : is_digit c = true) by (simpl in H; now apply andb_true_iff in H as [H _]).
  destruct (Ascii.eqb_spec c "-") as [->|N1]; [discriminate|].
  destruct (Ascii.eqb_spec c "+") as [->|N2]; [discriminate|].
  assert (G : forall (x y z : option Z),
     match c :: t with "-"%char :: _ => x | "+"%char :: _ => y | _ => z end = z).
  { intros. destruct c as [[] [] [] [] [] [] [] []]; auto; congruence. }
  rewrite Hb. cbv zeta.
  rewrite (G (option_map (fun n => (- Z.of_N n)%Z) (int_body t 0 false))
             (option_map Z.of_N (int_body t 0 false))).
  reflexivity.
Qed.

Lemma int_of_dec_Z z : int_of_str (dec_Z z) = Ok z.
Proof.
  destruct z as [|p|p].
  - reflexivity.
  - unfold dec_Z, dec_N. rewrite int_of_digits.
    + now rewrite dec_l_value.
    + apply dec_l_nonnil.
    + apply dec_l_digits.
  - unfold dec_Z, dec_N, int_of_str.
    change (to_l (String "-" (of_l (dec_l (N.pos p))))) with ("-"%char :: to_l (of_l (dec_l (N.pos p)))).
    rewrite to_of, strip_sign_digits.
    + rewrite int_body_digits.
      * change (fold_left _ (dec_l (N.pos p)) 0%N) with (digits_value (dec_l (N.pos p))).
        rewrite dec_l_value. reflexivity.
      * apply dec_l_digits.
      * left. apply dec_l_nonnil.
    + reflexivity.
    + apply dec_l_nonnil.
    + apply dec_l_digits.
Qed.

(** ** Association lists *)
Lemma assoc_set_same {A} k (v : A) l : assoc k (assoc_set k v l) = Some v.
Proof.
  induction l as [|[k' v'] l IH]; simpl.
  - now rewrite String.eqb_refl.
  - destruct (String.eqb_spec k k'); subst; simpl.
    + now rewrite String.eqb_refl.
    + apply String.eqb_neq in n. now rewrite n.
Qed.
Lemma assoc_set_other {A} k k' (v : A) l : k <> k' -> assoc k (assoc_set k' v l) = assoc k l.
Proof.
  intros H. induction l as [|[k2 v2] l IH]; simpl.
  - apply String.eqb_neq in H. now rewrite H.
  - destruct (String.eqb_spec k' k2); subst; simpl.
    + apply String.eqb_neq in H. now rewrite H.
    + destruct (String.eqb k k2); auto.
Qed.
Lemma assoc_in {A} k (v : A) l : assoc k l = Some v -> In (k, v) l.
Proof.
  induction l as [|[k' v'] l IH]; simpl; [discriminate|].
  destruct (String.eqb_spec k k'); intros H.
  - injection H as ->. subst. now left.
  - right. auto.
Qed.
Lemma assoc_none {A} k (l : list (string * A)) : assoc k l = None <-> ~ In k (map fst l).
Proof.
  induction l as [|[k' v'] l IH]; simpl.
  - tauto.
  - destruct (String.eqb_spec k k'); subst.
    + split; [discriminate | intros H; exfalso; apply H; now left].
    + rewrite IH. split; intros H; [intros [E|E]; [congruence | tauto] | tauto].
Qed.
Lemma assoc_in_nodup {A} k (v : A) l :
  NoDup (map fst l) -> In (k, v) l -> assoc k l = Some v.
Proof.
  induction l as [|[k' v'] l IH]; simpl; intros Hn Hi; [tauto|].
  inversion Hn as [|? ? Hk Hn']; subst.
  destruct Hi as [E|Hi].
  - injection E as -> ->. now rewrite String.eqb_refl.
  - destruct (String.eqb_spec k k'); subst.
    + exfalso. apply Hk. now apply (in_map fst) in Hi.
    + auto.
Qed.
Lemma assoc_set_keys {A} k (v : A) l : In k (map fst l) -> map fst (assoc_set k v l) = map fst l.
Proof.
  induction l as [|[k' v'] l IH]; simpl; [tauto|].
  destruct (String.eqb_spec k k'); subst; simpl; auto.
  intros [E|H]; [congruence|]. now rewrite IH.
Qed.
