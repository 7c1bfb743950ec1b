(** Paths and what they denote. *)
From Coq Require Import String Ascii List ZArith NArith Bool Lia.
From Verif Require Import PyBase PyPath SpecPath PfBase PfSimple.
Import ListNotations.
Open Scope nat_scope.
Open Scope string_scope.
Open Scope list_scope.

Lemma split_app c a b : split_l c (a ++ c :: b) = split_l c a ++ split_l c b.
Proof.
  induction a as [|x a IH]; cbn [app split_l].
  - now rewrite Ascii.eqb_refl.
  - destruct (Ascii.eqb x c); [now rewrite IH|]. rewrite IH.
    destruct (split_l c a) eqn:E; [destruct (split_nonnil c a E)|reflexivity].
Qed.
Lemma pieces_app a b : pieces (a ++ "/" ++ b) = pieces a ++ pieces b.
Proof. unfold pieces, str_split. rewrite !to_l_app. cbn [to_l append app]. rewrite split_app. apply map_app. Qed.
Lemma pieces_abs s : pieces (String slash s) = "" :: pieces s.
Proof. exact (pieces_app "" s). Qed.
Lemma pieces_one s : ~ In slash (to_l s) -> pieces s = [s].
Proof.
  intros H. unfold pieces, str_split. destruct (split_spec slash (to_l s)) as [[_ E]|(a & b & E & _)].
  - change "/"%char with slash. rewrite E. cbn. now rewrite of_to.
  - exfalso. apply H. rewrite E. apply in_elt.
Qed.
Lemma pieces_nonnil s : pieces s <> [].
Proof. unfold pieces, str_split. intros H. apply map_eq_nil in H. now apply split_nonnil in H. Qed.
Lemma split_noslash c l x : In x (split_l c l) -> ~ In c x.
Proof.
  revert x. induction l as [|a l IH]; cbn [split_l]; intros x; [intros [<- | []]; tauto|].
  destruct (Ascii.eqb_spec a c) as [->|N]; [intros [<- | H]; [tauto|now apply IH]|].
  destruct (split_l c l) as [|h t] eqn:E; [intros [<- | []]; cbn; tauto|].
  intros [<- | H]; [|apply IH; now right]. intros [-> | H]; [tauto|]. apply (IH h); [now left|exact H].
Qed.
Lemma pieces_noslash s x : In x (pieces s) -> ~ In slash (to_l x).
Proof. intros H. apply in_map_iff in H as (l & <- & I). rewrite to_of. now apply split_noslash in I. Qed.

Lemma join_cons a b l : join_with "/" (a :: b :: l) = (a ++ "/" ++ join_with "/" (b :: l))%string.
Proof. reflexivity. Qed.
Lemma pieces_join l : l <> [] -> Forall (fun c => ~ In slash (to_l c)) l -> pieces (join_with "/" l) = l.
Proof.
  induction l as [|a [|b l] IH]; intros N H; [congruence|inversion H; now apply pieces_one|].
  inversion H as [|? ? Ha H']; subst. rewrite join_cons, pieces_app, IH by (discriminate || assumption). now rewrite pieces_one.
Qed.
Lemma walk_app l : forall dir m, walk dir (l ++ m) = walk (walk dir l) m.
Proof.
  induction l as [|c l IH]; intros dir m; [reflexivity|]. cbn [app walk].
  destruct (String.eqb c ""), (String.eqb c "."), (String.eqb c ".."); apply IH.
Qed.

Definition absolute (p : string) : Prop := starts_slash p = true.
Lemma abs_form p : absolute p -> exists t, p = String slash t.
Proof. unfold absolute. destruct p as [|c t]; [discriminate|]. cbn. unfold is_slash. rewrite Ascii.eqb_eq. intros ->. eauto. Qed.
Lemma denotes_abs dir p : absolute p -> denotes dir p = walk [] (pieces p).
Proof. intros H. destruct (abs_form p H) as (t & ->). reflexivity. Qed.
Lemma denotes_rel dir p : starts_slash p = false -> denotes dir p = walk dir (pieces p).
Proof.
  intros H. destruct p as [|c t]; [reflexivity|]. cbn in H. unfold is_slash in H. apply Ascii.eqb_neq in H.
  unfold denotes. destruct c as [[] [] [] [] [] [] [] []]; try reflexivity. exfalso. now apply H.
Qed.
Lemma starts_app a b : a <> "" -> starts_slash (a ++ b) = starts_slash a.
Proof. destruct a; [congruence|reflexivity]. Qed.
Lemma ends_form a : ends_slash a = true -> exists b, a = (b ++ "/")%string.
Proof.
  unfold ends_slash. destruct (rev (to_l a)) as [|c l] eqn:E; [discriminate|]. unfold is_slash. rewrite Ascii.eqb_eq. intros ->.
  exists (of_l (rev l)). apply to_l_inj. rewrite to_l_app, to_of. rewrite <- (rev_involutive (to_l a)), E. reflexivity.
Qed.
Lemma sapp_assoc (a b c : string) : ((a ++ b) ++ c)%string = (a ++ (b ++ c))%string.
Proof. apply to_l_inj. rewrite !to_l_app. symmetry. apply app_assoc. Qed.
Lemma denotes_walk dir p : denotes dir p = walk (if starts_slash p then [] else dir) (pieces p).
Proof. destruct (starts_slash p) eqn:E; [now apply denotes_abs|now apply denotes_rel]. Qed.
Lemma join_denotes dir a b : denotes dir (path_join a b) = denotes (denotes dir a) b.
Proof.
  unfold path_join. destruct (starts_slash b) eqn:Hb; [now rewrite !denotes_abs|].
  destruct (String.eqb_spec a "") as [->|Na]; cbn [orb]; [cbn [append]; rewrite !denotes_rel; trivial; reflexivity|].
  rewrite (denotes_rel _ b Hb). destruct (ends_slash a) eqn:E.
  - rewrite !denotes_walk, starts_app by assumption. destruct (ends_form a E) as (a' & ->). rewrite sapp_assoc, pieces_app, walk_app.
    f_equal. change (a' ++ "/")%string with (a' ++ "/" ++ "")%string. rewrite pieces_app, walk_app. reflexivity.
  - rewrite !denotes_walk, starts_app by assumption. now rewrite pieces_app, walk_app.
Qed.
Lemma join_absolute a b : absolute a -> absolute (path_join a b).
Proof.
  intros H. unfold path_join. destruct (starts_slash b) eqn:Hb; [exact Hb|].
  assert (N : a <> "") by (intros ->; discriminate). unfold absolute.
  destruct (String.eqb a "" || ends_slash a); now rewrite starts_app.
Qed.

(** Normal forms. *)
Lemma walk_proper l : forall dir, Forall proper dir -> (forall c, In c l -> ~ In slash (to_l c)) -> Forall proper (walk dir l).
Proof.
  induction l as [|c l IH]; intros dir H Hl; [exact H|]. cbn [walk].
  assert (Hl' : forall c, In c l -> ~ In slash (to_l c)) by (intros; apply Hl; now right).
  destruct (String.eqb_spec c ""); [now apply IH|]. destruct (String.eqb_spec c "."); [now apply IH|].
  destruct (String.eqb_spec c ".."); apply IH; auto.
  - apply Forall_forall. intros x Ix. rewrite Forall_forall in H. apply H. clear - Ix. induction dir as [|y [|z d] IH]; cbn in *; tauto.
  - apply Forall_app. split; [exact H|]. constructor; [|constructor]. repeat split; auto. apply Hl. now left.
Qed.
Lemma denotes_proper dir p : Forall proper dir -> Forall proper (denotes dir p).
Proof. intros H. rewrite denotes_walk. apply walk_proper; [destruct (starts_slash p); auto|]. apply pieces_noslash. Qed.
Lemma norm_walk l : forall acc, Forall (fun c => c <> "..") acc -> rev (fold_left (norm_step true) l acc) = walk (rev acc) l.
Proof.
  induction l as [|c l IH]; intros acc H; [reflexivity|]. cbn [fold_left walk]. unfold norm_step at 2.
  destruct (String.eqb_spec c ""); [now apply IH|]. destruct (String.eqb_spec c "."); [now apply IH|]. cbn [orb].
  destruct (String.eqb_spec c ".."); cbn [negb orb].
  - destruct acc as [|a acc]; cbn [negb].
    + now apply IH.
    + inversion H; subst. destruct (String.eqb_spec a ".."); [congruence|]. rewrite IH by assumption. cbn [rev]. now rewrite removelast_last.
  - rewrite IH by (now constructor). reflexivity.
Qed.
Lemma initial_abs p : absolute p -> initial_slashes p = "/" \/ initial_slashes p = "//".
Proof.
  intros H. destruct (abs_form p H) as (t & ->). unfold initial_slashes. cbn [to_l]. destruct (to_l t) as [|b [|c l]]; cbn; auto.
  - destruct (is_slash b); auto.
  - destruct (is_slash b && negb (is_slash c)); auto.
Qed.
Lemma normpath_abs p : absolute p -> normpath p = (initial_slashes p ++ join_with "/" (walk [] (pieces p)))%string.
Proof.
  intros H. unfold normpath. destruct (String.eqb_spec p "") as [->|_]; [discriminate|]. rewrite H.
  change slash with "/"%char. fold (pieces p). rewrite norm_walk by constructor. cbn [rev].
  destruct (initial_abs p H) as [-> | ->]; reflexivity.
Qed.
Lemma filter_proper l : Forall proper l -> filter (fun x => negb (String.eqb x "")) l = l.
Proof.
  induction 1 as [|x l P H IH]; [reflexivity|]. cbn [filter]. destruct (String.eqb_spec x "") as [E|_]; [now destruct P|]. cbn. now rewrite IH.
Qed.
Lemma proper_slash l : Forall proper l -> Forall (fun c => ~ In slash (to_l c)) l.
Proof. apply Forall_impl. now intros c (_ & _ & _ & H). Qed.
Lemma pieces_joined l : Forall proper l -> filter (fun x => negb (String.eqb x "")) (pieces (join_with "/" l)) = l.
Proof.
  intros H. destruct l as [|x l]; [reflexivity|]. rewrite pieces_join; [now apply filter_proper|discriminate|now apply proper_slash].
Qed.
Lemma abs_pieces g p : absolute p -> filter (fun x => negb (String.eqb x "")) (pieces (abspath g p)) = walk [] (pieces p).
Proof.
  intros H. unfold abspath. rewrite H, normpath_abs by assumption.
  assert (P : Forall proper (walk [] (pieces p))) by (apply walk_proper; [constructor|apply pieces_noslash]).
  destruct (initial_abs p H) as [-> | ->].
  - change (pieces ("/" ++ ?x)) with (pieces (String slash x)). rewrite pieces_abs. cbn [filter String.eqb negb]. now apply pieces_joined.
  - change ("//" ++ ?x)%string with (String slash (String slash x)). rewrite !pieces_abs. cbn [filter String.eqb negb]. now apply pieces_joined.
Qed.
Definition rel_of (s p : list string) : string :=
  let (s, p) := strip_common s p in
  match (map (fun _ => "..") s ++ p)%list with
  | [] => "."
  | rel => join_with "/" rel
  end.
Lemma relpath_abs g p s : absolute p -> absolute s -> relpath g p s = Ok (rel_of (denotes [] s) (denotes [] p)).
Proof.
  intros Hp Hs. unfold relpath. destruct (String.eqb_spec p "") as [->|_]; [discriminate|].
  change slash with "/"%char. fold (pieces (abspath g s)). fold (pieces (abspath g p)). rewrite !abs_pieces by assumption.
  rewrite !denotes_abs by assumption. unfold rel_of. destruct (strip_common _ _) as [a b]. destruct (map _ a ++ b); reflexivity.
Qed.
Lemma strip_spec s : forall p a b, strip_common s p = (a, b) -> exists c, s = c ++ a /\ p = c ++ b.
Proof.
  induction s as [|x s IH]; intros [|y p] a b H; cbn [strip_common] in H; try (injection H as <- <-; exists []; auto; fail).
  destruct (String.eqb_spec x y) as [->|_].
  - destruct (IH p a b H) as (c & -> & ->). exists (y :: c). auto.
  - injection H as <- <-. exists []. auto.
Qed.
Lemma walk_down l : forall dir, Forall proper l -> walk dir l = dir ++ l.
Proof.
  induction l as [|c l IH]; intros dir H; [symmetry; apply app_nil_r|]. inversion H as [|? ? (P1 & P2 & P3 & _) H']; subst. cbn [walk].
  apply String.eqb_neq in P1, P2, P3. rewrite P1, P2, P3, IH by assumption. now rewrite <- app_assoc.
Qed.
Lemma walk_up a : forall c, walk (c ++ a) (map (fun _ => "..") a) = c.
Proof.
  induction a as [|x a IH] using rev_ind; intros c; [cbn; apply app_nil_r|].
  assert (E : map (fun _ : string => "..") (a ++ [x]) = ".." :: map (fun _ => "..") a).
  { rewrite map_app. clear. induction a as [|y a IH]; [reflexivity|]. cbn [map app] in *. now rewrite IH. }
  rewrite E. cbn [walk String.eqb Ascii.eqb Bool.eqb]. rewrite app_assoc, removelast_last. apply IH.
Qed.
Lemma dots_ok (a : list string) : Forall (fun c => c <> "" /\ ~ In slash (to_l c)) (map (fun _ => "..") a).
Proof. apply Forall_forall. intros c H. apply in_map_iff in H as (_ & <- & _). split; [discriminate|]. cbn. intuition discriminate. Qed.
Lemma proper_ok l : Forall proper l -> Forall (fun c => c <> "" /\ ~ In slash (to_l c)) l.
Proof. apply Forall_impl. intros c (H & _ & _ & H'). auto. Qed.
(** The pieces of a relative path. *)
Lemma rel_pieces s p : Forall proper p -> exists l, pieces (rel_of s p) = l /\ Forall (fun c => c <> "" /\ ~ In slash (to_l c)) l.
Proof.
  intros H. unfold rel_of. destruct (strip_common s p) as [a b] eqn:E. destruct (strip_spec _ _ _ _ E) as (c & -> & ->).
  apply Forall_app in H as [_ H]. eexists. split; [reflexivity|].
  destruct (map (fun _ => "..") a ++ b) eqn:Er; [repeat constructor; [discriminate|cbn; intuition discriminate]|].
  rewrite <- Er. rewrite pieces_join; [apply Forall_app; split; [apply dots_ok|now apply proper_ok]|congruence|].
  eapply Forall_impl; [|apply Forall_app; split; [apply dots_ok|now apply proper_ok]]. now intros x [_ Hx].
Qed.
Lemma rel_start s p : Forall proper p -> starts_slash (rel_of s p) = false.
Proof.
  intros H. destruct (rel_pieces s p H) as (l & E & F). destruct (starts_slash (rel_of s p)) eqn:S; [|reflexivity].
  destruct (abs_form _ S) as (t & E'). rewrite E', pieces_abs in E. subst l. inversion F as [|? ? [N _] _]. now contradiction N.
Qed.
Lemma rel_denotes s p : Forall proper p -> denotes s (rel_of s p) = p.
Proof.
  intros H. rewrite denotes_rel by (now apply rel_start). unfold rel_of. destruct (strip_common s p) as [a b] eqn:E.
  destruct (strip_spec _ _ _ _ E) as (c & -> & ->). apply Forall_app in H as [_ H].
  assert (W : walk (c ++ a) (map (fun _ => "..") a ++ b) = c ++ b) by (rewrite walk_app, walk_up; now apply walk_down).
  destruct (map (fun _ => "..") a ++ b) eqn:Er.
  - apply app_eq_nil in Er as [Ea ->]. apply map_eq_nil in Ea. subst a. reflexivity.
  - rewrite <- Er in *. rewrite pieces_join; [exact W|congruence|].
    apply Forall_app. split; [eapply Forall_impl; [|apply dots_ok]; now intros x [_ Hx]|now apply proper_slash].
Qed.
