(** Schemas inside WSDL documents, and schemas started from a URL. *)
From Coq Require Import String Ascii List ZArith NArith Bool Lia.
From Verif Require Import PyBase PyPath SpecPath GenImports SpecImports PfBase PfSimple PfPath PfPath2 PfImports PfImports2 PfImports3 PfWsdl PfWsdl2 PfWsdl3.
Import ListNotations.
Open Scope nat_scope.
Open Scope string_scope.
Open Scope list_scope.

Section Inline.
  Variable g : string.
  Variable u : string -> string -> string.
  Variable open : string -> res xdoc.
  Variable B : list string.
  Hypothesis PB : Forall proper B.

  (** A schema with one import, by name. *)
  Lemma one_import n self doc f ev : proper f -> xd_locs doc = [Some f] ->
    exists e r, generate g u open (S n) self doc None (tidy B) (tidy B) (mkState [] ev) = r /\
      events (fst r) = ev ++ Opened self f (tidy (B ++ [f])) :: e.
  Proof.
    intros Pf L. destruct (name_step g u B PB f Pf) as [E1 E2]. assert (N : f <> "") by apply Pf.
    cbn [generate]. change (String.eqb (tidy B) "") with false. cbn iota. rewrite L. cbn [mapM]. rewrite E1. cbn [bind combine each fst snd].
    destruct f as [|ch f]; [congruence|]. rewrite E2. cbn [log events known_paths].
    destruct (open (tidy (B ++ [String ch f]))) as [d|er]; [|exists []; eexists; split; reflexivity].
    match goal with |- context [generate g u open n ?a ?b ?c ?d ?e ?s] =>
      destruct (generate_events g u open n a b c d e s) as (e' & He); destruct (generate g u open n a b c d e s) as [s2 [[]|er]] end.
    - exists (e' ++ [Emitted None doc]). eexists. split; [reflexivity|]. cbn [fst events log] in *. rewrite He, <- !app_assoc. reflexivity.
    - exists e'. eexists. split; [reflexivity|]. cbn [fst events log] in *. now rewrite He, <- app_assoc.
  Qed.
  Lemma one_import_ok n self doc doc' f ev : proper f -> xd_locs doc = [Some f] -> open (tidy (B ++ [f])) = Ok doc' -> xd_locs doc' = [] ->
    generate g u open (S (S n)) self doc None (tidy B) (tidy B) (mkState [] ev) =
    (mkState [f] (ev ++ [Opened self f (tidy (B ++ [f])); Emitted (Some f) doc'; Emitted None doc]), Ok tt).
  Proof.
    intros Pf L Op L'. destruct (name_step g u B PB f Pf) as [E1 E2]. assert (N : f <> "") by apply Pf. assert (N' := N). apply String.eqb_neq in N'.
    cbn [generate]. change (String.eqb (tidy B) "") with false. cbn iota. rewrite L. cbn [mapM]. rewrite E1. cbn [bind combine each fst snd].
    destruct f as [|ch f]; [congruence|]. rewrite E2, Op. cbn [log events known_paths str_in existsb]. rewrite N'. cbn [negb andb]. rewrite L'. cbn [mapM combine each].
    unfold log. cbn [events known_paths app]. now rewrite <- !app_assoc.
  Qed.

  Lemma inline_wrong n openw doc w d f t s : proper d -> proper f -> proper t ->
    wd_imports doc = [(d ++ "/" ++ f)%string] -> wd_schemas doc = [] -> openw (path_of (B ++ [d; f])) = Ok w ->
    wd_imports w = [] -> wd_schemas w = [s] -> xd_locs (ws_doc s) = [Some t] ->
    exists wev e r, generate_code_from_wsdl g u (S n) open openw doc (path_of B) = (wev, Opened None t (path_of (B ++ [t])) :: e, r).
  Proof.
    rewrite !path_tidy. intros Pd Pf Pt Hi Hs Op Wi Ws L. unfold generate_code_from_wsdl.
    assert (PP : forall x, proper x -> piece x) by (intros x (H & _ & _ & H'); now split).
    cbn [merge_imports]. rewrite Hi. cbn [each mg_cwd mg_seen mg_events mg_defs].
    change (d ++ "/" ++ f)%string with (join_with "/" ([d] ++ [f])).
    destruct (resolve_pieces g B [d] f (proper_piece B PB)) as (loc & E); [constructor; auto|auto|apply pieces_not_remote; [discriminate|constructor; auto]|].
    rewrite E. cbn [str_in existsb]. change (B ++ [d] ++ [f]) with (B ++ [d; f]). rewrite Op, Wi. cbn [mg_cwd mg_seen mg_events mg_defs app merge_into wd_schemas].
    rewrite Ws, Hs. cbn [deduplicate deduplicate_from app str_in existsb wsdl_schemas each].
    destruct (one_import n None (ws_doc s) t [] Pt L) as (e & r & E1 & He). rewrite E1. destruct r as [st r]. cbn [fst] in He.
    destruct r as [[]|er]; cbn [events]; rewrite He; cbn [app]; eauto.
  Qed.
  (** Two schemas of a WSDL document that import the same file: its code is written
      twice. *)
  Lemma inline_twice n openw doc s1 s2 f doc' : proper f -> wd_imports doc = [] -> wd_schemas doc = [s1; s2] ->
    xd_locs (ws_doc s1) = [Some f] -> xd_locs (ws_doc s2) = [Some f] -> open (path_of (B ++ [f])) = Ok doc' -> xd_locs doc' = [] ->
    generate_code_from_wsdl g u (S (S n)) open openw doc (path_of B) =
    ([], [Opened None f (path_of (B ++ [f])); Emitted (Some f) doc'; Emitted None (ws_doc s1);
          Opened None f (path_of (B ++ [f])); Emitted (Some f) doc'; Emitted None (ws_doc s2)], Ok tt).
  Proof.
    rewrite !path_tidy. intros Pf Hi Hs L1 L2 Op L'. unfold generate_code_from_wsdl. cbn [merge_imports]. rewrite Hi. cbn [each mg_defs mg_events]. rewrite Hs.
    unfold wsdl_schemas. cbn [each]. rewrite (one_import_ok n None (ws_doc s1) doc' f [] Pf L1 Op L'). cbn [events].
    rewrite (one_import_ok n None (ws_doc s2) doc' f _ Pf L2 Op L'). reflexivity.
  Qed.
End Inline.

(** A document at the URL s/a/..: its import [b] is looked for at s/b. *)
Lemma url_base_wrong g u open n s a b doc : remote s -> u (s ++ "/" ++ a)%string b = (s ++ "/" ++ b)%string -> ~ remote b -> xd_locs doc = [Some b] ->
  In (Opened None b (s ++ "/" ++ b)%string) (fst (generate_code_from_xsd g u open (S n) doc (s ++ "/" ++ a)%string)).
Proof.
  intros R U Nb L. assert (X : forall x, is_url (s ++ x) = true).
  { intros x. apply is_url_spec. destruct R as (p & q & ->). exists p, (q ++ x)%string. now rewrite !sapp_assoc. }
  assert (Ne : forall x : string, (s ++ x)%string <> "").
  { intros x E. specialize (X x). rewrite E in X. discriminate. }
  unfold generate_code_from_xsd. cbn [generate].
  pose proof (Ne ("/" ++ a)%string) as N1. apply String.eqb_neq in N1. rewrite N1. rewrite L. cbn [mapM rewrite_path].
  rewrite (proj1 (not_url b) Nb), X, U. cbn [bind combine each fst snd].
  pose proof (Ne ("/" ++ b)%string) as N2. destruct (s ++ "/" ++ b)%string as [|c t] eqn:E; [congruence|]. rewrite <- E in *. unfold resolve_location. rewrite X.
  destruct (open (s ++ "/" ++ b)%string) as [d|er]; [|cbn; auto].
  match goal with |- context [generate g u open n ?a ?b ?c ?d ?e ?s] =>
      destruct (generate_events g u open n a b c d e s) as (e' & He); destruct (generate g u open n a b c d e s) as [s2 [[]|er]] end;
    cbn [fst events log] in *; rewrite He; cbn; auto.
Qed.

Lemma reads_for_ever g open base n f doc : Forall proper base -> proper f -> wd_imports doc = ["./" ++ f]%string ->
  (forall p, denotes [] p = base ++ [f] -> open p = Ok doc) ->
  snd (merge_imports g open n None doc (path_of base) [] []) = Err RecursionError.
Proof.
  intros PB Pf Hi Op. rewrite path_tidy. apply (self_import g open base n f doc Pf Hi Op); [now apply proper_piece|now apply walk_down|contradiction].
Qed.
Lemma merged_parts g open n doc cwd m : merge_imports g open n None doc cwd [] [] = (m, Ok tt) ->
  (forall x, In x (wd_items (mg_defs m)) <-> some_document (fun w => In x (wd_items w)) open doc (mg_events m)) /\
  (forall s, In s (wd_schemas (mg_defs m)) -> some_document (fun w => In s (wd_schemas w)) open doc (mg_events m)) /\
  (forall s, some_document (fun w => In s (wd_schemas w)) open doc (mg_events m) ->
    exists s', In s' (wd_schemas (mg_defs m)) /\ ws_bytes s' = ws_bytes s) /\
  (NoDup (wd_items doc) -> NoDup (map ws_bytes (wd_schemas doc)) ->
    NoDup (wd_items (mg_defs m)) /\ NoDup (map ws_bytes (wd_schemas (mg_defs m)))).
Proof. intros H. apply merged in H as [H1 H2 H3 H4]. auto. Qed.
