(** Proofs about services generated from WSDL: running the statements (C74). *)
From Coq Require Import String Ascii List ZArith NArith Bool Lia.
From Verif Require Import PyBase PfBase PyVal XsdSimple XsdComplex XsdMeta PyHttp Soap Client Dispatch LibClasses Py2Xsd Py2Wsdl GenNames
  Xsd2Py PyLoad PyUrl PfUrl SpecUrl Wsdl2Py PyService SpecNames SpecGenCode SpecService PfGenCode PfService.
Import ListNotations.
Open Scope nat_scope.
Open Scope string_scope.
Open Scope list_scope.

(** ** Names *)
Lemma letter_start c : letter c -> id_start c = true.
Proof.
  unfold letter, id_start. intros H. assert (E : nat_of_ascii c = N.to_nat (code c)) by reflexivity. rewrite E.
  destruct H as [H | [H | H]].
  - rewrite (proj2 (Nat.leb_le 65 _)), (proj2 (Nat.leb_le _ 90)) by lia. reflexivity.
  - rewrite (proj2 (Nat.leb_le 97 _)), (proj2 (Nat.leb_le _ 122)) by lia. cbn. now rewrite orb_true_r.
  - rewrite (proj2 (Nat.eqb_eq _ 95)) by lia. cbn. now rewrite orb_true_r.
Qed.
Lemma letter_char c : letter c \/ digit c -> id_char c = true.
Proof.
  intros [H | H]; unfold id_char; [now rewrite letter_start|]. apply orb_true_iff. right. unfold digit in H.
  assert (E : nat_of_ascii c = N.to_nat (code c)) by reflexivity. rewrite E. apply andb_true_iff. split; apply Nat.leb_le; lia.
Qed.
Lemma fixed_not_keyword s : python_name s = s -> is_keyword s = false.
Proof.
  unfold python_name. fold (is_keyword s). change (is_keyword s) with (str_in s py_keywords). unfold py_keywords. intros H.
  destruct (str_in s _) eqn:E; [|reflexivity]. exfalso. apply (f_equal String.length) in H. cbn in H. lia.
Qed.
Lemma usable_ident s : usable_name s -> identifier s = true.
Proof.
  intros ((c & t & -> & L) & A & K). unfold identifier. cbn [to_l list_ascii_of_string]. rewrite (letter_start c L), (fixed_not_keyword _ K).
  cbn [andb negb]. rewrite andb_true_r. apply forallb_forall. intros x I. apply letter_char, A. right. exact I.
Qed.
(** A name with an ending is no keyword. *)
Fixpoint ends_with (suf s : list ascii) : bool :=
  (if list_eq_dec ascii_dec s suf then true else false) || match s with [] => false | _ :: t => ends_with suf t end.
Lemma ends_app suf a : ends_with suf (a ++ suf) = true.
Proof.
  induction a as [|x a IH]; cbn [app].
  - destruct suf as [|x suf]; [reflexivity|]. cbn [ends_with]. destruct (list_eq_dec ascii_dec (x :: suf) (x :: suf)); [reflexivity|congruence].
  - cbn [ends_with]. rewrite IH. apply orb_true_r.
Qed.
Definition no_keyword_ends (suf : string) : bool := forallb (fun k => negb (ends_with (to_l suf) (to_l k))) py_keywords.
Lemma suffix_ident s suf : usable_name s -> no_keyword_ends suf = true -> forallb id_char (to_l suf) = true -> identifier (s ++ suf) = true.
Proof.
  intros ((c & t & -> & L) & A & K) N I. unfold identifier. cbn [to_l list_ascii_of_string append]. rewrite (letter_start c L). cbn [andb].
  apply andb_true_iff. split.
  - apply forallb_forall. intros x X. fold (to_l (t ++ suf)) in X. rewrite to_l_app in X. apply in_app_iff in X. destruct X as [X | X].
    + apply letter_char, A. right. exact X.
    + rewrite forallb_forall in I. now apply I.
  - apply negb_true_iff. destruct (is_keyword _) eqn:E; [|reflexivity]. apply str_in_spec in E. unfold no_keyword_ends in N.
    rewrite forallb_forall in N. specialize (N _ E). change (String c (t ++ suf)) with (String c t ++ suf)%string in N. rewrite to_l_app, ends_app in N. discriminate.
Qed.
Lemma quotable_literal rt raw s : quotable s -> literal rt raw s = Ok s.
Proof.
  intros (W & N). unfold literal.
  assert (C : forall c, holds "'\" c -> char_in c s = false).
  { intros c H. destruct (char_in c s) eqn:E; [|reflexivity]. apply char_in_spec in E. destruct (W c H E). }
  rewrite (C quote) by (unfold holds; cbn; tauto). rewrite (C backslash) by (unfold holds; cbn; tauto).
  destruct N as [N N']. unfold breaks. destruct (char_in newline s) eqn:E; [apply char_in_spec in E; destruct (N E)|].
  destruct (char_in carriage_return s) eqn:E'; [apply char_in_spec in E'; destruct (N' E')|]. reflexivity.
Qed.
Lemma usable_literal rt raw s : usable_name s -> literal rt raw s = Ok s.
Proof. intros H. apply ident_literal. unfold fix_keyword. rewrite (fixed_not_keyword _ (proj2 (proj2 H))). now apply usable_ident. Qed.

(** Names with different endings are different. *)
Lemma ends_differ a b s t : length (to_l s) <= length (to_l t) -> ends_with (to_l s) (to_l t) = false -> (a ++ s <> b ++ t)%string.
Proof.
  intros L E H. apply (f_equal to_l) in H. rewrite !to_l_app in H.
  assert (K : forall (a b s t : list ascii), length s <= length t -> a ++ s = b ++ t -> exists x, t = x ++ s).
  { clear. induction a as [|x a IH]; intros b s t L H.
    - destruct b as [|y b]; [exists []; now symmetry|]. exfalso. cbn in H. subst s. cbn in L. rewrite app_length in L. lia.
    - destruct b as [|y b]; cbn in H; [exists (x :: a); now symmetry|]. injection H as _ H. eapply IH; eauto. }
  destruct (K _ _ _ _ L H) as (x & Ex). rewrite Ex, ends_app in E. discriminate.
Qed.
Lemma app_inj_r a b s : (a ++ s = b ++ s)%string -> a = b.
Proof. intros H. apply (f_equal to_l) in H. rewrite !to_l_app in H. apply app_inv_tail in H. now apply to_l_inj. Qed.
(** [Schema_] and five hexadecimal digits does not end in any of the others. *)
Lemma hex_ident h : hex5 h -> identifier ("Schema_" ++ h) = true.
Proof.
  intros (L & H). unfold identifier. change (to_l ("Schema_" ++ h)) with ("S"%char :: to_l "chema_" ++ to_l h).
  change (id_start "S") with true. cbn [andb]. apply andb_true_iff. split.
  - rewrite forallb_app. apply andb_true_iff. split; [reflexivity|]. apply forallb_forall. intros c I. apply letter_char.
    specialize (H c I). unfold letter, digit. lia.
  - apply negb_true_iff. destruct (is_keyword _) eqn:E; [|reflexivity]. apply str_in_spec in E.
    assert (F : forallb (fun k => Nat.ltb (String.length k) 12) py_keywords = true) by reflexivity. rewrite forallb_forall in F.
    specialize (F _ E). apply Nat.ltb_lt in F. cbn [append String.length] in F. rewrite L in F. lia.
Qed.
Lemma hex_differs h a suf x y : hex5 h -> to_l suf = x ++ y -> length y = 2 -> existsb (fun c => negb (in_range 48 57 c || in_range 97 102 c)) y = true ->
  ("Schema_" ++ h <> a ++ suf)%string.
Proof.
  intros (L & H) E Ly Ex Q. apply (f_equal to_l) in Q. rewrite !to_l_app, E, !app_assoc in Q.
  apply existsb_exists in Ex. destruct Ex as (c & I & B). apply negb_true_iff, orb_false_iff in B. destruct B as (B1 & B2).
  assert (In c (to_l h)).
  { assert (Lh : length (to_l h) = 5) by (rewrite length_to_l; exact L).
    assert (K : forall (p q s t : list ascii), p ++ q = s ++ t -> length t <= length q -> incl t q).
    { clear. induction p as [|z p IH]; intros q s t Q L.
      - cbn in Q. subst q. intros z Z. apply in_or_app. now right.
      - destruct s as [|w s]; [cbn in Q; exfalso; apply (f_equal (@length _)) in Q; cbn in Q; rewrite app_length in Q; lia|].
        cbn in Q. injection Q as _ Q. eapply IH; eauto. }
    apply (K _ _ _ _ Q); [lia|exact I]. }
  specialize (H c H0). destruct H as [H | H].
  - apply in_range_iff in H. congruence.
  - apply in_range_iff in H. congruence.
Qed.
Lemma hex_method h a : hex5 h -> ("Schema_" ++ h <> a ++ "_method")%string.
Proof. intros H. eapply hex_differs with (x := to_l "_meth") (y := to_l "od"); eauto. Qed.
Lemma hex_service h a : hex5 h -> ("Schema_" ++ h <> a ++ "_SERVICE")%string.
Proof. intros H. eapply hex_differs with (x := to_l "_SERVI") (y := to_l "CE"); eauto. Qed.
Lemma hex_stub h a : hex5 h -> ("Schema_" ++ h <> a ++ "ServiceStub")%string.
Proof. intros H. eapply hex_differs with (x := to_l "ServiceSt") (y := to_l "ub"); eauto. Qed.
Lemma method_service a b : (a ++ "_method" <> b ++ "_SERVICE")%string.
Proof. apply ends_differ; [cbn; lia|reflexivity]. Qed.
Lemma method_stub a b : (a ++ "_method" <> b ++ "ServiceStub")%string.
Proof. apply ends_differ; [cbn; lia|reflexivity]. Qed.
Lemma service_stub a b : (a ++ "_SERVICE" <> b ++ "ServiceStub")%string.
Proof. apply ends_differ; [cbn; lia|reflexivity]. Qed.
