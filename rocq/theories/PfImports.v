(** Following imports in schemas. *)
From Coq Require Import String Ascii List ZArith NArith Bool Lia.
From Verif Require Import PyBase PyPath SpecPath GenImports SpecImports PfBase PfSimple PfPath PfPath2.
Import ListNotations.
Open Scope nat_scope.
Open Scope string_scope.
Open Scope list_scope.

Lemma normpath_denotes p : absolute p -> absolute (normpath p) /\ denotes [] (normpath p) = denotes [] p.
Proof.
  intros H. rewrite normpath_abs by assumption. rewrite (denotes_abs [] p H).
  assert (P : Forall proper (walk [] (pieces p))) by (apply walk_proper; [constructor|apply pieces_noslash]).
  destruct (initial_abs p H) as [-> | ->].
  - split; [reflexivity|]. change ("/" ++ join_with "/" (walk [] (pieces p)))%string with (tidy (walk [] (pieces p))). now apply tidy_proper.
  - split; [reflexivity|]. change ("//" ++ join_with "/" (walk [] (pieces p)))%string with (String slash (tidy (walk [] (pieces p)))).
    rewrite denotes_abs by reflexivity. rewrite pieces_abs. cbn [walk String.eqb]. rewrite <- (denotes_abs [] (tidy _)) by reflexivity.
    now apply tidy_proper.
Qed.

Section Step.
  Variable g : string.
  Variable u : string -> string -> string.
  Variable B : list string.
  Hypothesis PB : Forall proper B.

  (** What becomes of a location [l] in a document whose directory is [dir]. *)
  Inductive step (dir : list string) (l l' path cwd' : string) : Prop :=
  | step_remote : remote l -> l' = l -> path = l -> cwd' = tidy B -> step dir l l' path cwd'
  | step_local C' : ~ remote l -> ~ remote path -> l' = rel_of B (denotes dir l) -> denotes [] path = denotes dir l ->
      Forall piece C' -> cwd' = tidy C' ->
      ((forall rest, B <> denotes dir l ++ rest) -> walk [] C' = directory (denotes dir l)) -> step dir l l' path cwd'.

  Lemma resolve_step C l : Forall piece C ->
    exists l' path cwd', rewrite_path g u (tidy C) (tidy B) (Some l) = Ok (Some l') /\ l' <> "" /\
      resolve_location g l' (tidy B) = Ok (path, cwd', l') /\ step (walk [] C) l l' path cwd'.
  Proof.
    intros PC. unfold rewrite_path. destruct (is_url l) eqn:U.
    - exists l, l, (tidy B). split; [reflexivity|]. split; [intros ->; discriminate|]. unfold resolve_location. rewrite U.
      split; [reflexivity|]. apply is_url_spec in U. now apply step_remote.
    - assert (UC : is_url (tidy C) = false) by (now apply not_url, tidy_local). rewrite UC.
      assert (A : absolute (path_join (tidy C) l)) by (apply join_absolute; reflexivity).
      destruct (normpath_denotes _ A) as [A' D']. rewrite relpath_abs by (assumption || reflexivity). cbn [bind].
      rewrite D', join_denotes, (tidy_denotes [] C PC), (tidy_proper [] B PB).
      set (P := denotes (walk [] C) l).
      assert (PP : Forall proper P).
      { apply denotes_proper. apply walk_proper; [constructor|]. intros c Ic. rewrite Forall_forall in PC. now apply PC. }
      assert (PB' : Forall piece B) by (now apply proper_piece).
      exists (rel_of B P), (path_join (tidy B) (rel_of B P)), (dirname (path_join (tidy B) (rel_of B P))).
      split; [reflexivity|]. split; [now apply rel_nonempty|].
      assert (D : denotes [] (path_join (tidy B) (rel_of B P)) = P) by (rewrite join_denotes, tidy_proper by assumption; now apply rel_denotes).
      unfold resolve_location. rewrite (proj1 (not_url _) (rel_local B P PP)).
      rewrite relpath_abs; [|apply join_absolute; reflexivity|reflexivity]. cbn [bind]. rewrite D, (tidy_proper [] B PB).
      split; [reflexivity|].
      destruct (rel_join B P PP) as (r & Nr & Pr & Er).
      assert (Ep : path_join (tidy B) (rel_of B P) = tidy (B ++ r)) by (rewrite Er; now apply join_tidy).
      assert (Hl : ~ remote (path_join (tidy B) (rel_of B P))) by (rewrite Ep; apply tidy_local; apply Forall_app; now split).
      destruct r as [|c r _] using rev_ind; [congruence|]. apply Forall_app in Pr as [Pr Pc]. inversion Pc; subst.
      apply (step_local _ _ _ _ _ (B ++ r)); auto; try (now apply not_url); try (apply Forall_app; now split).
      + rewrite Ep, app_assoc. apply dirname_tidy; [apply Forall_app; now split|assumption].
      + intros N. rewrite <- (tidy_denotes [] (B ++ r)) by (apply Forall_app; now split).
        destruct (rel_file B P PP N) as (r' & c' & Pr' & Pc' & Er').
        assert (E2 : join_with "/" (r ++ [c]) = join_with "/" (r' ++ [c'])) by congruence.
        apply (f_equal pieces) in E2. rewrite !pieces_join in E2.
        * apply app_inj_tail in E2 as [-> ->]. rewrite tidy_denotes by (apply Forall_app; now split).
          fold P. rewrite <- D, Ep, tidy_denotes by (apply Forall_app; split; [assumption|apply Forall_app; now split]).
          rewrite (app_assoc B), (walk_app (B ++ r')). rewrite (walk_down [c']) by (now constructor). unfold directory. now rewrite removelast_last.
        * destruct r'; discriminate.
        * apply Forall_app. split; [eapply Forall_impl; [|exact Pr']; now intros x [_ Hx]|]. constructor; [apply Pc'|constructor].
        * destruct r; discriminate.
        * apply Forall_app. split; [eapply Forall_impl; [|exact Pr]; now intros x [_ Hx]|]. constructor; [|constructor]. now destruct H1.
  Qed.
End Step.
