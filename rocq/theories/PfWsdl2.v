(** Merging imported WSDL documents. *)
From Coq Require Import String Ascii List ZArith NArith Bool Lia.
From Verif Require Import PyBase PyPath SpecPath GenImports SpecImports PfBase PfSimple PfPath PfPath2 PfImports PfImports2 PfImports3 PfWsdl.
Import ListNotations.
Open Scope nat_scope.
Open Scope string_scope.
Open Scope list_scope.

Section Merge.
  Variable g : string.
  Variable open : string -> res wdoc.

  Lemma resolve_pieces C r c : Forall piece C -> Forall piece r -> piece c -> ~ remote (join_with "/" (r ++ [c])) ->
    exists loc, resolve_location g (join_with "/" (r ++ [c])) (tidy C) = Ok (tidy (C ++ r ++ [c]), tidy (C ++ r), loc).
  Proof.
    intros PC Pr Pc NR. unfold resolve_location. rewrite (proj1 (not_url _) NR).
    assert (Prc : Forall piece (r ++ [c])) by (apply Forall_app; split; [assumption|now constructor]).
    rewrite join_tidy; [|assumption|destruct r; discriminate|assumption].
    rewrite relpath_abs by reflexivity. cbn [bind]. rewrite (app_assoc C r [c]), dirname_tidy; [eauto|apply Forall_app; now split|assumption].
  Qed.
  Lemma pieces_not_remote r : r <> [] -> Forall piece r -> ~ remote (join_with "/" r).
  Proof.
    intros N H. apply pieces_local. rewrite pieces_join; [assumption|assumption|]. eapply Forall_impl; [|exact H]. now intros c [_ Hc].
  Qed.

  (** Events are only added. *)
  Lemma each_mevents {A} (f : A -> merging -> merging * res unit) l :
    (forall x st, In x l -> exists e, mg_events (fst (f x st)) = mg_events st ++ e) -> forall st, exists e, mg_events (fst (each f l st)) = mg_events st ++ e.
  Proof.
    induction l as [|x l IH]; intros H st; [exists []; symmetry; apply app_nil_r|]. cbn [each]. destruct (H x st (or_introl eq_refl)) as (e1 & H1).
    destruct (f x st) as [s1 [[]|er]]; cbn [fst] in *; [|eauto]. destruct (IH (fun y s I => H y s (or_intror I)) s1) as (e2 & H2).
    exists (e1 ++ e2). now rewrite H2, H1, app_assoc.
  Qed.
  Lemma merge_events n : forall self doc cwd seen ev, exists e, mg_events (fst (merge_imports g open n self doc cwd seen ev)) = ev ++ e.
  Proof.
    induction n as [|n IH]; intros; [exists []; symmetry; apply app_nil_r|]. cbn [merge_imports].
    match goal with |- context [each ?f _ _] => set (body := f) end.
    apply (each_mevents body (wd_imports doc)) with (st := mkMerging seen ev doc cwd). intros l m _. unfold body.
    destruct (resolve_location g l (mg_cwd m)) as [[[path cwd'] loc]|er]; [|exists []; symmetry; apply app_nil_r].
    destruct (str_in path (mg_seen m)); [exists []; symmetry; apply app_nil_r|].
    destruct (open path) as [w|er]; [|now eexists].
    destruct (match wd_imports w with [] => true | _ => false end); [now eexists|].
    destruct (IH (Some path) w cwd' (path :: mg_seen m) (mg_events m ++ [(self, l, path)])) as (e & He).
    destruct (merge_imports g open n _ _ _ _ _) as [m' [[]|er]]; cbn [fst mg_events] in *; rewrite He, <- app_assoc; eauto.
  Qed.

  (** The second import is looked for where the first one was. *)
  Lemma sibling_wrong B n doc w d f h : Forall proper B -> proper d -> proper f -> proper h -> h <> f ->
    wd_imports doc = [(d ++ "/" ++ f)%string; h] -> open (path_of (B ++ [d; f])) = Ok w -> wd_imports w = [] ->
    In (None, h, path_of (B ++ [d; h])) (mg_events (fst (merge_imports g open (S n) None doc (path_of B) [] []))).
  Proof.
    rewrite !path_tidy. intros PB Pd Pf Ph Nh Hi Op Hw.
    assert (PB' : Forall piece B) by (now apply proper_piece).
    assert (PP : forall x, proper x -> piece x) by (intros x (H & _ & _ & H'); now split).
    cbn [merge_imports]. rewrite Hi. cbn [each mg_cwd mg_seen mg_events mg_defs].
    change (d ++ "/" ++ f)%string with (join_with "/" ([d] ++ [f])).
    destruct (resolve_pieces B [d] f PB') as (loc & E); [constructor; auto|auto|apply pieces_not_remote; [discriminate|constructor; auto]|].
    rewrite E. cbn [str_in existsb]. change (B ++ [d] ++ [f]) with (B ++ [d; f]). rewrite Op, Hw. cbn [mg_cwd mg_seen mg_events mg_defs app].
    destruct (resolve_name g (B ++ [d]) h) as (loc' & E'); [apply Forall_app; split; [assumption|constructor; auto]|assumption|].
    rewrite E'. rewrite <- app_assoc. cbn [app].
    assert (Np : str_in (tidy (B ++ [d; h])) [tidy (B ++ [d; f])] = false).
    { apply not_true_is_false. rewrite str_in_spec. intros [E0 | []]. apply (f_equal (denotes [])) in E0.
      rewrite !tidy_proper in E0 by (apply Forall_app; auto). apply app_inv_head in E0. congruence. }
    rewrite Np. destruct (open (tidy (B ++ [d; h]))) as [w'|er]; [|cbn; auto].
    destruct (match wd_imports w' with [] => true | _ => false end); [cbn; auto|].
    destruct (merge_events n (Some (tidy (B ++ [d; h]))) w' (tidy (B ++ [d])) [tidy (B ++ [d; h]); tidy (B ++ [d; f])]
      [(None, (d ++ "/" ++ f)%string, tidy (B ++ [d; f])); (None, h, tidy (B ++ [d; h]))]) as (e & He).
    cbn [join_with app append] in *. destruct (merge_imports g open n _ _ _ _ _) as [m' [[]|er]]; cbn [fst mg_events] in *; rewrite He; cbn; auto.
  Qed.

  (** A document that imports itself as "./f" is read for ever. *)
  Lemma self_import B n f doc : proper f -> wd_imports doc = ["./" ++ f]%string ->
    (forall p, denotes [] p = B ++ [f] -> open p = Ok doc) ->
    forall self C seen ev, Forall piece C -> walk [] C = B -> (forall p, In p seen -> length (pieces p) <= length C + 2) ->
    snd (merge_imports g open n self doc (tidy C) seen ev) = Err RecursionError.
  Proof.
    intros Pf Hi Op. induction n as [|n IH]; intros self C seen ev PC W Hs; [reflexivity|]. cbn [merge_imports]. rewrite Hi. cbn [each mg_cwd mg_seen mg_events mg_defs].
    assert (Pdot : piece ".") by (split; [discriminate|cbn; intuition discriminate]).
    assert (Pf' : piece f) by (destruct Pf as (H & _ & _ & H'); now split).
    change ("./" ++ f)%string with (join_with "/" (["."] ++ [f])).
    destruct (resolve_pieces C ["."] f PC) as (loc & E); [constructor; auto|auto|apply pieces_not_remote; [discriminate|constructor; auto]|].
    rewrite E. assert (PC' : Forall piece (C ++ ["."])) by (apply Forall_app; auto).
    assert (PC2 : Forall piece (C ++ ["."] ++ [f])) by (apply Forall_app; split; [assumption|constructor; auto]).
    assert (L : length (pieces (tidy (C ++ ["."] ++ [f]))) = length C + 3).
    { rewrite pieces_tidy by assumption. destruct (C ++ ["."] ++ [f]) as [|x l] eqn:El; [destruct C; discriminate|]. cbn [length].
      apply (f_equal (@length string)) in El. rewrite app_length in El. cbn [length app] in *. lia. }
    assert (Np : str_in (tidy (C ++ ["."] ++ [f])) seen = false).
    { apply not_true_is_false. rewrite str_in_spec. intros I. specialize (Hs _ I). lia. }
    rewrite Np. rewrite Op.
    - rewrite Hi. cbn iota.
      assert (R : snd (merge_imports g open n (Some (tidy (C ++ ["."] ++ [f]))) doc (tidy (C ++ ["."])) (tidy (C ++ ["."] ++ [f]) :: seen)
        (ev ++ [(self, join_with "/" (["."] ++ [f]), tidy (C ++ ["."] ++ [f]))])) = Err RecursionError).
      { apply IH; [assumption|rewrite walk_app, W; reflexivity|]. rewrite app_length. cbn [length]. intros p [<- | Ip]; [lia|]. specialize (Hs p Ip). lia. }
      destruct (merge_imports g open n _ _ _ _ _) as [m' r]. cbn [snd] in R. subst r. reflexivity.
    - rewrite tidy_denotes by assumption. rewrite !walk_app, W. apply walk_down. now constructor.
  Qed.
End Merge.
