(** Following imports in WSDL documents, and documents the generators get wrong. *)
From Coq Require Import String Ascii List ZArith NArith Bool Lia.
From Verif Require Import PyBase PyPath SpecPath GenImports SpecImports PfBase PfSimple PfPath PfPath2 PfImports PfImports2 PfImports3.
Import ListNotations.
Open Scope nat_scope.
Open Scope string_scope.
Open Scope list_scope.

Lemma strip_prefix a b : strip_common a (a ++ b) = ([], b).
Proof. induction a as [|x a IH]; [destruct b; reflexivity|]. cbn [app strip_common]. now rewrite String.eqb_refl. Qed.
Lemma proper_local f : proper f -> ~ remote f.
Proof.
  intros (_ & _ & _ & H) (a & b & E). apply H. rewrite E. rewrite !to_l_app. cbn [to_l app]. apply in_app_iff. right. right. now left.
Qed.
Lemma proper_one f : proper f -> Forall piece [f].
Proof. intros H. apply proper_piece. now constructor. Qed.

(** Events are only added. *)
Lemma each_events {A} (f : A -> state -> state * res unit) l :
  (forall x st, In x l -> exists e, events (fst (f x st)) = events st ++ e) -> forall st, exists e, events (fst (each f l st)) = events st ++ e.
Proof.
  induction l as [|x l IH]; intros H st; [exists []; symmetry; apply app_nil_r|]. cbn [each]. destruct (H x st (or_introl eq_refl)) as (e1 & H1).
  destruct (f x st) as [s1 [[]|er]]; cbn [fst] in *; [|eauto]. destruct (IH (fun y s I => H y s (or_intror I)) s1) as (e2 & H2).
  exists (e1 ++ e2). now rewrite H2, H1, app_assoc.
Qed.
Lemma generate_events g u open n : forall self doc location cwd base st,
  exists e, events (fst (generate g u open n self doc location cwd base st)) = events st ++ e.
Proof.
  induction n as [|n IH]; intros; [exists []; symmetry; apply app_nil_r|]. cbn [generate].
  destruct (match location with Some l => negb (String.eqb l "") && str_in l (known_paths st) | None => false end); [exists []; symmetry; apply app_nil_r|].
  destruct (if String.eqb base "" then Ok (xd_locs doc) else mapM (rewrite_path g u cwd base) (xd_locs doc)) as [locs|er]; [|exists []; symmetry; apply app_nil_r].
  set (st1 := match location with Some l => _ | None => _ end).
  assert (H1 : events st1 = events st) by (unfold st1; destruct location as [l|]; [destruct (String.eqb l "")|]; reflexivity).
  set (body := fun (p : option string * option string) st => _).
  assert (H2 : exists e, events (fst (each body (combine (xd_locs doc) locs) st1)) = events st1 ++ e).
  { apply each_events. intros [o o'] s I. unfold body. cbn [fst snd]. destruct o' as [[|ch l]|]; try (exists []; symmetry; apply app_nil_r).
    destruct (resolve_location g (String ch l) base) as [[[path cwd'] loc']|er]; [|exists []; symmetry; apply app_nil_r].
    destruct (open path) as [doc'|er]; [|now eexists].
    match goal with |- context [log ?e s] => destruct (IH (Some path) doc' (Some loc') cwd' base (log e s)) as (e' & He); exists (e :: e') end.
    rewrite He. cbn. now rewrite <- app_assoc. }
  rewrite <- H1. destruct H2 as (e & H2). fold body. destruct (each body (combine (xd_locs doc) locs) st1) as [s2 [[]|er]]; cbn [fst log events] in *.
  - exists (e ++ [Emitted location doc]). now rewrite H2, app_assoc.
  - eauto.
Qed.

Section Base.
  Variable g : string.
  Variable u : string -> string -> string.
  Variable B : list string.
  Hypothesis PB : Forall proper B.

  (** A location that is just a name. *)
  Lemma resolve_name C f : Forall piece C -> proper f ->
    exists loc, resolve_location g f (tidy C) = Ok (tidy (C ++ [f]), tidy C, loc).
  Proof.
    intros PC Pf. unfold resolve_location. rewrite (proj1 (not_url f) (proper_local f Pf)).
    change f with (join_with "/" [f]) at 1 2 3. rewrite join_tidy; [|assumption|discriminate|now apply proper_one].
    rewrite relpath_abs by reflexivity. cbn [bind]. rewrite dirname_tidy; [|assumption|]; [eauto|].
    split; [apply Pf|apply Pf].
  Qed.
  Lemma name_step f : proper f -> rewrite_path g u (tidy B) (tidy B) (Some f) = Ok (Some f) /\
    resolve_location g f (tidy B) = Ok (tidy (B ++ [f]), tidy B, f).
  Proof.
    intros Pf. assert (PB' : Forall piece B) by (now apply proper_piece).
    assert (PBf : Forall proper (B ++ [f])) by (apply Forall_app; split; [assumption|now constructor]).
    assert (E : rel_of B (B ++ [f]) = f) by (unfold rel_of; rewrite strip_prefix; reflexivity).
    assert (D : denotes B f = B ++ [f]).
    { rewrite denotes_rel; [|destruct f as [|c f]; [reflexivity|]; cbn; unfold is_slash; apply Ascii.eqb_neq; intros ->; destruct Pf as (_ & _ & _ & N); apply N; now left].
      rewrite pieces_one by apply Pf. apply walk_down. now constructor. }
    destruct (resolve_step g u B PB B f PB') as (l' & path & cwd' & E1 & _ & E2 & ST).
    destruct ST as [R _ _ _|C' _ _ E3 _ _ _ _]; [destruct (proper_local f Pf R)|].
    rewrite walk_down in E3 by assumption. rewrite app_nil_l in E3. rewrite D, E in E3. subst l'. split; [exact E1|]. destruct (resolve_name B f PB' Pf) as (loc & E4). rewrite E2 in E4. injection E4 as -> -> _. exact E2.
  Qed.

  (** The document the program starts with is written twice if it imports itself. *)
  Lemma root_twice open n f doc : proper f -> xd_locs doc = [Some f] -> open (path_of (B ++ [f])) = Ok doc ->
    generate_code_from_xsd g u open (S (S (S n))) doc (path_of B) =
    ([Opened None f (path_of (B ++ [f])); Opened (Some (path_of (B ++ [f]))) f (path_of (B ++ [f]));
      Emitted (Some f) doc; Emitted None doc], Ok tt).
  Proof.
    rewrite !path_tidy. intros Pf L Op. unfold generate_code_from_xsd. destruct (name_step f Pf) as [E1 E2].
    assert (N : f <> "") by apply Pf. assert (N' := N). apply String.eqb_neq in N'.
    cbn [generate]. change (String.eqb (tidy B) "") with false. cbn iota. rewrite L. cbn [mapM]. rewrite E1. cbn [bind combine each fst snd].
    destruct f as [|ch f]; [congruence|]. rewrite E2, Op. cbn [negb andb log known_paths events str_in existsb app].
    rewrite N'. cbn [negb andb]. rewrite L. cbn [mapM]. rewrite E1. cbn [bind combine each fst snd]. rewrite E2, Op. cbn [log known_paths events app str_in existsb].
    rewrite N', String.eqb_refl. reflexivity.
  Qed.
  (** In a document fetched from elsewhere, relative locations become files here. *)
  Lemma remote_wrong open n url doc doc' f : remote url -> proper f -> xd_locs doc = [Some url] -> xd_locs doc' = [Some f] -> open url = Ok doc' ->
    In (Opened (Some url) f (path_of (B ++ [f]))) (fst (generate_code_from_xsd g u open (S (S n)) doc (path_of B))).
  Proof.
    rewrite !path_tidy. intros R Pf L L' Op. unfold generate_code_from_xsd. destruct (name_step f Pf) as [E1 E2].
    assert (N : f <> "") by apply Pf. apply is_url_spec in R. assert (Nu : url <> "") by (intros ->; discriminate). assert (Nu' := Nu). apply String.eqb_neq in Nu'.
    cbn [generate]. change (String.eqb (tidy B) "") with false. cbn iota. rewrite L. cbn [mapM rewrite_path]. rewrite R. cbn [bind combine each fst snd].
    destruct url as [|cu url]; [congruence|]. unfold resolve_location at 1. rewrite R, Op. cbn [known_paths log]. rewrite Nu'. cbn [negb andb str_in existsb].
    rewrite L'. cbn [mapM]. rewrite E1. cbn [bind combine each fst snd]. destruct f as [|ch f]; [congruence|]. rewrite E2.
    destruct (open (tidy (B ++ [String ch f]))) as [d|er]; [|cbn; auto].
    match goal with |- context [generate g u open n ?a ?b ?c ?d ?e ?s] =>
      pose proof (generate_events g u open n a b c d e s) as (e' & He); destruct (generate g u open n a b c d e s) as [s2 [[]|er]] end.
    - cbn [fst events log] in *. rewrite He. rewrite <- !app_assoc. cbn. auto.
    - cbn [fst events log] in *. rewrite He. rewrite <- !app_assoc. cbn. auto.
  Qed.
End Base.
