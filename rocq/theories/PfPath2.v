(** Tidy absolute paths. *)
From Coq Require Import String Ascii List ZArith NArith Bool Lia.
From Verif Require Import PyBase PyPath SpecPath GenImports SpecImports PfBase PfSimple PfPath.
Import ListNotations.
Open Scope nat_scope.
Open Scope string_scope.
Open Scope list_scope.

Definition piece (c : string) : Prop := c <> "" /\ ~ In slash (to_l c).
Definition tidy (l : list string) : string := String slash (join_with "/" l).
Lemma path_tidy l : path_of l = tidy l.
Proof.
  unfold tidy. destruct l as [|a l]; [reflexivity|]. cbn [path_of].
  revert a. induction l as [|b l IH]; intros a; [reflexivity|].
  change (String.concat "" (map (append "/") (a :: b :: l))) with (("/" ++ a) ++ "" ++ String.concat "" (map (append "/") (b :: l)))%string.
  rewrite IH. rewrite join_cons. cbn [append]. reflexivity.
Qed.
Lemma tidy_abs l : absolute (tidy l).
Proof. reflexivity. Qed.
Lemma pieces_tidy l : Forall piece l -> pieces (tidy l) = "" :: match l with [] => [""] | _ => l end.
Proof.
  intros H. unfold tidy. rewrite pieces_abs. f_equal. destruct l as [|a l]; [reflexivity|]. apply pieces_join; [discriminate|].
  eapply Forall_impl; [|exact H]. now intros c [_ Hc].
Qed.
Lemma tidy_denotes dir l : Forall piece l -> denotes dir (tidy l) = walk [] l.
Proof. intros H. rewrite denotes_abs by reflexivity. rewrite pieces_tidy by assumption. destruct l; reflexivity. Qed.
Lemma proper_piece l : Forall proper l -> Forall piece l.
Proof. apply proper_ok. Qed.
Lemma tidy_proper dir l : Forall proper l -> denotes dir (tidy l) = l.
Proof. intros H. rewrite tidy_denotes by (now apply proper_piece). now apply walk_down. Qed.
Lemma join_last l c : l <> [] -> join_with "/" (l ++ [c]) = (join_with "/" l ++ "/" ++ c)%string.
Proof.
  induction l as [|a [|b l] IH]; intros N; [congruence|reflexivity|]. change (join_with "/" ((a :: b :: l) ++ [c])) with (a ++ "/" ++ join_with "/" ((b :: l) ++ [c]))%string.
  rewrite IH by discriminate. rewrite join_cons. now rewrite !sapp_assoc.
Qed.
Lemma tidy_last l c : l <> [] -> tidy (l ++ [c]) = (tidy l ++ "/" ++ c)%string.
Proof. intros N. unfold tidy. now rewrite join_last. Qed.
Lemma ends_app a b : b <> "" -> ends_slash (a ++ b) = ends_slash b.
Proof.
  intros N. unfold ends_slash. rewrite to_l_app, rev_app_distr. destruct b as [|c b]; [congruence|]. cbn [to_l rev].
  destruct (rev (to_l b) ++ [c]) eqn:E; [destruct (rev (to_l b)); discriminate|reflexivity].
Qed.
Lemma piece_ends c : piece c -> ends_slash c = false.
Proof.
  intros [_ H]. unfold ends_slash. destruct (rev (to_l c)) as [|x l] eqn:E; [reflexivity|]. unfold is_slash.
  destruct (Ascii.eqb_spec x slash) as [->|]; [|reflexivity]. exfalso. apply H. apply in_rev. rewrite E. now left.
Qed.
Lemma tidy_ends l : Forall piece l -> ends_slash (tidy l) = match l with [] => true | _ => false end.
Proof.
  destruct l as [|a l] using rev_ind; intros H; [reflexivity|]. clear IHl. apply Forall_app in H as [_ H]. inversion H as [|? ? Pa _]; subst.
  destruct l as [|b l].
  - change (tidy ([] ++ [a])) with ("/" ++ a)%string. rewrite ends_app by apply Pa. now apply piece_ends.
  - rewrite tidy_last by discriminate. rewrite ends_app by (destruct a; discriminate). change ("/" ++ a)%string with (String slash "" ++ a)%string.
    rewrite ends_app by apply Pa. cbn [app]. now apply piece_ends.
Qed.
Lemma join_tidy l r : Forall piece l -> r <> [] -> Forall piece r -> path_join (tidy l) (join_with "/" r) = tidy (l ++ r).
Proof.
  intros Hl Nr Hr. unfold path_join.
  assert (S : starts_slash (join_with "/" r) = false).
  { destruct r as [|a r]; [congruence|]. inversion Hr as [|? ? [Pa Sa] _]; subst. destruct a as [|x a]; [congruence|].
    assert (E : starts_slash (join_with "/" (String x a :: r)) = is_slash x) by (destruct r; reflexivity). rewrite E.
    unfold is_slash. apply Ascii.eqb_neq. intros ->. apply Sa. now left. }
  rewrite S. rewrite tidy_ends by assumption. cbn [tidy String.eqb orb]. destruct l as [|a l]; [reflexivity|].
  unfold tidy. cbn [append]. f_equal. revert a Hl. induction l as [|b l IH]; intros a Hl.
  - destruct r; [congruence|]. reflexivity.
  - inversion Hl; subst. rewrite join_cons, !sapp_assoc. cbn [app]. rewrite join_cons. do 2 f_equal. now apply IH.
Qed.
Lemma lstrip_stop p a x b : forallb p a = true -> p x = false -> lstrip_l p (a ++ x :: b) = x :: b.
Proof. induction a as [|y a IH]; cbn; intros Ha Hx; [now rewrite Hx|]. apply andb_true_iff in Ha as [-> Ha]. now apply IH. Qed.
Lemma dirname_app a c : ~ In slash (to_l c) -> dirname (a ++ "/" ++ c) =
  match lstrip_l is_slash (rev (to_l a)) with [] => (a ++ "/")%string | h => of_l (rev h) end.
Proof.
  intros H. unfold dirname. rewrite !to_l_app, rev_app_distr. cbn [to_l app rev].
  rewrite <- app_assoc. cbn [app]. rewrite lstrip_stop.
  - cbn [lstrip_l]. change (is_slash slash) with true. cbn iota. destruct (lstrip_l is_slash (rev (to_l a))); [|reflexivity].
    cbn [rev]. rewrite rev_involutive. rewrite of_l_app, of_to. reflexivity.
  - apply forallb_forall. intros x Ix. apply in_rev in Ix. unfold is_slash. destruct (Ascii.eqb_spec x slash) as [->|]; [contradiction|reflexivity].
  - reflexivity.
Qed.
Lemma dirname_tidy l c : Forall piece l -> piece c -> dirname (tidy (l ++ [c])) = tidy l.
Proof.
  intros Hl [_ Hc]. destruct l as [|a l].
  - change (tidy ([] ++ [c])) with ("" ++ "/" ++ c)%string. rewrite dirname_app by assumption. reflexivity.
  - rewrite tidy_last by discriminate. rewrite dirname_app by assumption.
    pose proof (tidy_ends _ Hl) as E. unfold ends_slash in E. destruct (rev (to_l (tidy (a :: l)))) as [|x t] eqn:R.
    + apply (f_equal (@rev ascii)) in R. rewrite rev_involutive in R. discriminate.
    + cbn [lstrip_l]. rewrite E. apply to_l_inj. rewrite to_of, <- R. apply rev_involutive.
Qed.

(** Tidy paths are not URLs. *)
Lemma prefix_form p : forall s, prefix p s = true -> exists b, s = (p ++ b)%string.
Proof.
  induction p as [|c p IH]; intros s H; [now exists s|]. destruct s as [|d s]; [discriminate|]. cbn [prefix] in H.
  destruct (ascii_dec c d) as [->|]; [|discriminate]. destruct (IH s H) as (b & ->). now exists b.
Qed.
Lemma is_url_spec s : is_url s = true <-> remote s.
Proof.
  split.
  - induction s as [|c s IH]; cbn [is_url]; [discriminate|]. intros H. apply orb_true_iff in H as [H|H].
    + destruct (prefix_form _ _ H) as (b & E). rewrite E. now exists "", b.
    + destruct (IH H) as (a & b & ->). now exists (String c a), b.
  - intros (a & b & ->). induction a as [|c a IH]; [destruct b; reflexivity|]. change (prefix "://" (String c (a ++ "://" ++ b)) || is_url (a ++ "://" ++ b) = true). rewrite IH. apply orb_true_r.
Qed.
Lemma not_url s : ~ remote s <-> is_url s = false.
Proof. rewrite <- is_url_spec. destruct (is_url s); split; congruence. Qed.
Lemma remote_pieces s : remote s -> exists a b, a <> [] /\ b <> [] /\ pieces s = a ++ "" :: b.
Proof.
  intros (a & b & ->). exists (pieces (a ++ ":")), (pieces b). split; [apply pieces_nonnil|]. split; [apply pieces_nonnil|].
  change (a ++ "://" ++ b)%string with (a ++ (":" ++ ("/" ++ ("" ++ "/" ++ b))))%string. rewrite <- sapp_assoc, !pieces_app. reflexivity.
Qed.
Lemma tidy_local l : Forall piece l -> ~ remote (tidy l).
Proof.
  intros H R. destruct (remote_pieces _ R) as (a & b & Na & Nb & E). rewrite pieces_tidy in E by assumption.
  destruct a as [|x a]; [congruence|]. injection E as _ E. destruct l as [|c l].
  - destruct a as [|y [|z a]]; destruct b; try congruence; discriminate.
  - rewrite E in H. apply Forall_app in H as [_ H]. inversion H as [|? ? [N _] _]. destruct (N eq_refl).
Qed.
Lemma pieces_local s : Forall piece (pieces s) -> ~ remote s.
Proof.
  intros H R. destruct (remote_pieces _ R) as (a & b & _ & _ & E). rewrite E in H. apply Forall_app in H as [_ H].
  inversion H as [|? ? [N _] _]. destruct (N eq_refl).
Qed.
Lemma rel_local s p : Forall proper p -> ~ remote (rel_of s p).
Proof. intros H. destruct (rel_pieces s p H) as (l & E & F). apply pieces_local. now rewrite E. Qed.
Lemma rel_nonempty s p : Forall proper p -> rel_of s p <> "".
Proof. intros H E. destruct (rel_pieces s p H) as (l & E' & F). rewrite E in E'. subst l. inversion F as [|? ? [N _] _]. destruct (N eq_refl). Qed.
(** A relative path is made of pieces; unless it denotes a directory on the way
    to [s], the last is a name. *)
Lemma rel_join s p : Forall proper p -> exists r, r <> [] /\ Forall piece r /\ rel_of s p = join_with "/" r.
Proof.
  intros H. unfold rel_of. destruct (strip_common s p) as [a b] eqn:E. destruct (strip_spec _ _ _ _ E) as (c & -> & ->).
  apply Forall_app in H as [_ H]. destruct (map (fun _ => "..") a ++ b) eqn:Er.
  - exists ["."]. split; [discriminate|]. split; [|reflexivity]. constructor; [|constructor]. split; [discriminate|]. cbn. intuition discriminate.
  - exists (s :: l). split; [discriminate|]. split; [|reflexivity]. rewrite <- Er. apply Forall_app. split; [apply dots_ok|now apply proper_ok].
Qed.
Lemma rel_file s p : Forall proper p -> (forall rest, s <> p ++ rest) ->
  exists r c, Forall piece r /\ proper c /\ rel_of s p = join_with "/" (r ++ [c]).
Proof.
  intros H N. unfold rel_of. destruct (strip_common s p) as [a b] eqn:E. destruct (strip_spec _ _ _ _ E) as (c & -> & ->).
  apply Forall_app in H as [_ H]. destruct b as [|x b _] using rev_ind.
  - exfalso. apply (N a). now rewrite app_nil_r.
  - apply Forall_app in H as [Hb Hx]. inversion Hx; subst. exists (map (fun _ => "..") a ++ b), x.
    split; [apply Forall_app; split; [apply dots_ok|now apply proper_ok]|]. split; [assumption|].
    rewrite <- app_assoc. destruct (map (fun _ => "..") a ++ b ++ [x]) eqn:Er; [|reflexivity].
    apply app_eq_nil in Er as [_ Er]. destruct b; discriminate.
Qed.
