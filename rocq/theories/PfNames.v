(** Names in generated code. *)
From Coq Require Import String Ascii List ZArith NArith Bool.
From Verif Require Import PyBase Client GenNames SpecNames PfBase PfSimple.
Import ListNotations.
Open Scope string_scope.
Open Scope list_scope.

Lemma lower_upper c : upper_char c <> c -> lower_char (upper_char c) = c /\ upper_char (upper_char c) = upper_char c.
Proof. destruct c as [[] [] [] [] [] [] [] []]; vm_compute; intros H; split; try reflexivity; destruct (H eq_refl). Qed.
Lemma upper_lower c : upper_char c = c -> upper_char (lower_char c) = c.
Proof. destruct c as [[] [] [] [] [] [] [] []]; vm_compute; intros H; try reflexivity; discriminate. Qed.
Lemma lower_lower c : lower_char c <> c -> upper_char (lower_char c) = c /\ lower_char (lower_char c) = lower_char c.
Proof. destruct c as [[] [] [] [] [] [] [] []]; vm_compute; intros H; split; try reflexivity; destruct (H eq_refl). Qed.

Lemma capitalize_inj c s d t : upper_char c <> c -> upper_char d <> d ->
  capitalize (String c s) = capitalize (String d t) -> String c s = String d t.
Proof.
  intros Hc Hd [= E ->]. f_equal. rewrite <- (proj1 (lower_upper c Hc)), <- (proj1 (lower_upper d Hd)). now rewrite E.
Qed.
Lemma capitalize_back c t : upper_char c <> c -> String c t <> "qName" ->
  exists s, capitalize (String c t) = Ok s /\ uncapitalize s = Ok (String c t).
Proof.
  intros Hc N. eexists. split; [reflexivity|]. unfold uncapitalize.
  destruct (String.eqb_spec (String (upper_char c) t) "QName") as [E|_].
  - exfalso. injection E as E ->. apply N. f_equal. rewrite <- (proj1 (lower_upper c Hc)), E. reflexivity.
  - now rewrite (proj1 (lower_upper c Hc)).
Qed.
Lemma uncapitalize_back c t : upper_char c = c ->
  exists s, uncapitalize (String c t) = Ok s /\ capitalize s = Ok (String c t).
Proof.
  intros Hc. unfold uncapitalize. destruct (String.eqb_spec (String c t) "QName") as [E|_].
  - rewrite E. eexists. split; reflexivity.
  - eexists. split; [reflexivity|]. cbn [capitalize]. now rewrite upper_lower.
Qed.
Lemma capitalize_collides c t : upper_char c <> c ->
  String c t <> String (upper_char c) t /\ capitalize (String c t) = capitalize (String (upper_char c) t).
Proof.
  intros H. split; [congruence|]. cbn. now rewrite (proj2 (lower_upper c H)).
Qed.
Lemma uncapitalize_collides c t : lower_char c <> c -> String c t <> "QName" ->
  String c t <> String (lower_char c) t /\ uncapitalize (String c t) = uncapitalize (String (lower_char c) t).
Proof.
  intros H N. split; [congruence|]. unfold uncapitalize. apply String.eqb_neq in N. rewrite N.
  destruct (String.eqb_spec (String (lower_char c) t) "QName") as [E|_].
  - exfalso. injection E as E _. destruct c as [[] [] [] [] [] [] [] []]; vm_compute in E; try discriminate; apply H; reflexivity.
  - now rewrite (proj2 (lower_lower c H)).
Qed.
Lemma split_one c l : ~ In c l -> split_l c l = [l].
Proof. intros H. destruct (split_spec c l) as [[_ E]|(a & b & E & _ & _)]; [exact E|]. exfalso. apply H. rewrite E. apply in_elt. Qed.
Lemma split_two c l m : ~ In c l -> ~ In c m -> split_l c (l ++ c :: m) = [l; m].
Proof.
  intros Hl Hm. induction l as [|x l IH]; cbn [app split_l].
  - rewrite Ascii.eqb_refl. now rewrite split_one.
  - destruct (Ascii.eqb_spec x c) as [->|N]; [exfalso; apply Hl; now left|]. rewrite IH; [reflexivity|]. intros I. apply Hl. now right.
Qed.

Lemma get_type_prefixed X K p name : colon_free p -> colon_free name ->
  get_type X K (p ++ ":" ++ name) =
  (name <- capitalize name ;; if prefix_in (Some p) X then Ok ("xsd." ++ name)%string
    else if match K with Some l => str_in name l | None => false end then Ok name else Ok ("__name__ + '." ++ name ++ "'")%string).
Proof.
  intros Hp Hn. unfold get_type.
  assert (E : String.eqb (p ++ ":" ++ name) "" = false) by (destruct p; reflexivity). rewrite E.
  unfold str_split. rewrite to_l_app. cbn [to_l append]. rewrite split_two by assumption. cbn [map bind]. now rewrite !of_to.
Qed.
Lemma prefix_lost X K p q name : colon_free p -> colon_free q -> colon_free name -> prefix_in (Some p) X = false -> prefix_in (Some q) X = false ->
  get_type X K (p ++ ":" ++ name) = get_type X K (q ++ ":" ++ name).
Proof. intros Hp Hq Hn Xp Xq. rewrite !get_type_prefixed by assumption. now rewrite Xp, Xq. Qed.

Ltac letters H := cbn in H; repeat (destruct H as [<- | H]; [|]); try contradiction.
Lemma lower_cased c : In c (list_ascii_of_string "abcdefghijklmnopqrstuvwxyz") -> upper_char c <> c.
Proof. intros H. letters H; vm_compute; discriminate. Qed.
Lemma upper_cased c : In c (list_ascii_of_string "ABCDEFGHIJKLMNOPQRSTUVWXYZ") -> upper_char c = c /\ lower_char c <> c.
Proof. intros H. letters H; vm_compute; (split; [reflexivity|discriminate]). Qed.
Lemma lower_is c : In c (list_ascii_of_string "abcdefghijklmnopqrstuvwxyz") -> In (upper_char c) (list_ascii_of_string "ABCDEFGHIJKLMNOPQRSTUVWXYZ").
Proof. intros H. letters H; vm_compute; tauto. Qed.
Lemma upper_is c : In c (list_ascii_of_string "ABCDEFGHIJKLMNOPQRSTUVWXYZ") -> In (lower_char c) (list_ascii_of_string "abcdefghijklmnopqrstuvwxyz").
Proof. intros H. letters H; vm_compute; tauto. Qed.

Lemma lower_names s t : lower_first s -> lower_first t -> capitalize s = capitalize t -> s = t.
Proof. intros (c & u & -> & Hc) (d & v & -> & Hd). apply capitalize_inj; now apply lower_cased. Qed.
Lemma upper_names s t : upper_first s -> upper_first t -> capitalize s = capitalize t -> s = t.
Proof.
  intros (c & u & -> & Hc) (d & v & -> & Hd). cbn. destruct (upper_cased c Hc) as [-> _], (upper_cased d Hd) as [-> _]. congruence.
Qed.
Lemma upper_tags s t : upper_first s -> upper_first t -> s <> "QName" -> t <> "QName" -> uncapitalize s = uncapitalize t -> s = t.
Proof.
  intros (c & u & -> & Hc) (d & v & -> & Hd) Ns Nt. unfold uncapitalize. apply String.eqb_neq in Ns. apply String.eqb_neq in Nt. rewrite Ns, Nt.
  intros [= E ->]. f_equal. destruct (upper_cased c Hc) as [_ Lc], (upper_cased d Hd) as [_ Ld].
  rewrite <- (proj1 (lower_lower c Lc)), <- (proj1 (lower_lower d Ld)). now rewrite E.
Qed.
Lemma names_back s : lower_first s -> s <> "qName" -> exists n, capitalize s = Ok n /\ uncapitalize n = Ok s.
Proof. intros (c & t & -> & Hc). apply capitalize_back. now apply lower_cased. Qed.
Lemma tags_back s : upper_first s -> exists n, uncapitalize s = Ok n /\ capitalize n = Ok s.
Proof. intros (c & t & -> & Hc). apply uncapitalize_back. now apply upper_cased. Qed.
Lemma names_collide s : lower_first s -> exists t, upper_first t /\ s <> t /\ capitalize s = capitalize t.
Proof.
  intros (c & t & -> & Hc). exists (String (upper_char c) t). split; [eexists _, _; split; [reflexivity|now apply lower_is]|].
  apply capitalize_collides. now apply lower_cased.
Qed.
Lemma upper_lost s : upper_first s -> s <> "QName" -> exists n m, capitalize s = Ok n /\ uncapitalize n = Ok m /\ m <> s.
Proof.
  intros (c & t & -> & Hc) N. destruct (upper_cased c Hc) as [U L]. cbn [capitalize]. rewrite U. eexists _, _. split; [reflexivity|].
  unfold uncapitalize. apply String.eqb_neq in N. rewrite N. split; [reflexivity|]. congruence.
Qed.
Lemma qname_lost : exists n, capitalize "qName" = Ok n /\ uncapitalize n = Ok "QName".
Proof. eexists. split; reflexivity. Qed.
Lemma prefix_in_spec p l : prefix_in (Some p) l = true <-> In (Some p) l.
Proof.
  unfold prefix_in. rewrite existsb_exists. split.
  - intros ([q|] & I & E); [|discriminate]. apply String.eqb_eq in E. now subst.
  - intros I. exists (Some p). split; [exact I|]. apply String.eqb_refl.
Qed.
Lemma prefixes_lost X K p q name : colon_free p -> colon_free q -> colon_free name -> ~ In (Some p) X -> ~ In (Some q) X ->
  get_type X K (p ++ ":" ++ name) = get_type X K (q ++ ":" ++ name).
Proof.
  intros. apply prefix_lost; auto; apply not_true_is_false; now rewrite prefix_in_spec.
Qed.
