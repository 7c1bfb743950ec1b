(** Modules from several documents: ways of referring that do not work. *)
From Coq Require Import String Ascii List ZArith NArith Bool Lia.
From Verif Require Import PyBase PyPath PyVal XsdSimple XsdComplex XsdMeta LibClasses Py2Xsd GenOrder GenImports Xsd2Py PyLoad PyUrl XsdFiles SpecGenCode SpecPath SpecImports
  SpecUrl SpecService SpecLoadable SpecFiles PfBase PfGenCode PfGenCode2 PfGenCode9 PfLoadable4 PfFiles.
From Verif Require PfPath.
Import ListNotations.
Open Scope nat_scope.
Open Scope string_scope.
Open Scope list_scope.

Lemma mapM_nonempty {A B} (f : A -> res B) a l r : mapM f (a :: l) = Ok r -> r <> [].
Proof. cbn [mapM]. intros H. apply bind_ok in H as (b & _ & H). apply bind_ok in H as (bs & _ & H). injection H as <-. discriminate. Qed.
Lemma foldM_inv {A B} (P : A -> Prop) (f : A -> B -> res A) : (forall a b a', P a -> f a b = Ok a' -> P a') -> forall l a a', P a -> foldM f a l = Ok a' -> P a'.
Proof.
  intros H. induction l as [|b l IH]; intros a a' Pa E; cbn [foldM] in E; [now injection E as <-|]. apply bind_ok in E as (a1 & E1 & E). eauto.
Qed.

Lemma with_types_get x cts a : a <> "complexTypes" -> jget (with_types x cts) a = jget x a.
Proof. intros N. destruct x; try reflexivity. cbn [with_types jget]. now rewrite assoc_set_other. Qed.

Section Wrong.
  Variables (g : string) (u : string -> string -> string) (md5 : string -> string) (checked : string -> bool) (open : string -> res file) (sort : sorter) (n_sort : nat).
  Definition refs (c : filecode) : list string := fc_imports c ++ fc_includes c.

  Lemma no_first rt limit O c code fm : refs c <> [] -> import_files rt limit O (c :: code) = Ok fm -> False.
  Proof.
    intros R E. unfold import_files in E. cbn [foldM] in E. apply bind_ok in E as (fm1 & E & _). unfold exec_file in E.
    destruct (existsb _ _); [discriminate|]. apply bind_ok in E as (ms & _ & E). apply bind_ok in E as (is & Ei & E). apply bind_ok in E as (js & Ej & _).
    unfold refs in R. assert (N : forall v, schema_object fm_start v = Err NameError \/ schema_object fm_start v = Err SyntaxError).
    { intros v. unfold schema_object. destruct (identifier v); [left|right]; reflexivity. }
    destruct (fc_imports c) as [|v l].
    - cbn [app] in R. destruct (fc_includes c) as [|v l]; [contradiction|]. cbn [mapM] in Ej. destruct (N v) as [Q | Q]; rewrite Q in Ej; discriminate.
    - cbn [mapM] in Ei. destruct (N v) as [Q | Q]; rewrite Q in Ei; discriminate.
  Qed.
  Lemma statement_refs nss x ilocs imports loc p c : file_statement md5 checked nss x ilocs imports loc p = Ok c -> ilocs <> [] \/ imports <> [] -> refs c <> [].
  Proof.
    intros E H. unfold file_statement in E. apply bind_ok in E as (v & _ & E). apply bind_ok in E as (is & Ei & E). apply bind_ok in E as (js & Ej & E).
    apply bind_ok in E as (l & _ & E). apply bind_ok in E as (st & _ & E). injection E as <-. unfold refs. cbn [fc_imports fc_includes]. destruct H as [H | H].
    - destruct ilocs; [contradiction|]. apply mapM_nonempty in Ej. destruct js; [contradiction|]. now destruct is.
    - destruct imports; [contradiction|]. apply mapM_nonempty in Ei. now destruct is.
  Qed.

  (** Documents all of which refer to others. *)
  Lemma refs_everywhere : (forall p f, open p = Ok f -> has_references f) -> forall n f loc cwd base st st', has_references f ->
    files_code g u md5 checked open sort n_sort n f loc cwd base st = Ok st' -> Forall (fun c => refs c <> []) (pg_code st) -> Forall (fun c => refs c <> []) (pg_code st').
  Proof.
    intros Ho. induction n as [|n IH]; intros f loc cwd base st st' Hf E H; [discriminate|]. cbn [files_code] in E.
    destruct (match given loc with Some l => str_in l (pg_paths st) | None => false end); [injection E as <-; exact H|]. cbn zeta in E.
    apply bind_ok in E as (includes & E1 & E). apply bind_ok in E as (imports & E2 & E). apply bind_ok in E as (ilocs & E3 & E). apply bind_ok in E as (mlocs & E4 & E).
    apply bind_ok in E as (ilocs' & E5 & E). apply bind_ok in E as (mlocs' & E6 & E). apply bind_ok in E as (x & E7 & E). apply bind_ok in E as (st1 & E8 & E).
    apply bind_ok in E as (p & E9 & E). apply bind_ok in E as (c & E10 & E). injection E as <-. cbn [pg_code]. apply Forall_app. split.
    - refine (foldM_inv (fun st => Forall (fun c => refs c <> []) (pg_code st)) _ _ _ _ _ _ E8); [|destruct (given loc); exact H].
      intros a b a' Pa Ea. cbv beta in Ea. destruct (given b) as [l|]; [|injection Ea as <-; exact Pa]. apply bind_ok in Ea as ([[path cwd'] loc'] & _ & Ea). apply bind_ok in Ea as (f' & Of & Ea).
      eapply IH; [exact (Ho _ _ Of)|exact Ea|exact Pa].
    - constructor; [|constructor]. eapply statement_refs; [exact E10|]. destruct Hf as [(b & i & l & Hf) | (b & i & l & Hf)]; rewrite (has_jget _ _ _ Hf) in *.
      + left. cbn [jlist] in E1. injection E1 as <-. apply mapM_nonempty in E3. destruct (String.eqb base ""); [injection E5 as <-; exact E3|]. destruct ilocs; [contradiction|].
        now apply mapM_nonempty in E5.
      + right. cbn [jlist] in E2. injection E2 as <-. discriminate.
  Qed.
  Lemma circles n x cwd code : has_references x -> (forall p f, open p = Ok f -> has_references f) ->
    module_code g u md5 checked open sort n_sort n x cwd = Ok code -> forall rt limit O fm, import_files rt limit O code <> Ok fm.
  Proof.
    intros Hx Ho E rt limit O fm. unfold module_code in E. apply bind_ok in E as (st & E & Ec). injection Ec as <-.
    pose proof (refs_everywhere Ho _ _ _ _ _ _ _ Hx E (Forall_nil _)) as H. destruct (pg_code st) as [|c code] eqn:Ec.
    - exfalso. destruct n; [discriminate|]. cbn [files_code given] in E. cbn zeta in E.
      do 9 (let z := fresh in let Q := fresh in apply bind_ok in E as (z & Q & E)). apply bind_ok in E as (c & _ & E). injection E as <-. cbn [pg_code] in Ec. now apply app_eq_nil in Ec.
    - intros Q. inversion_clear H as [|? ? Hc _]. exact (no_first _ _ _ _ _ _ Hc Q).
  Qed.

  (** Imports that do not say where. *)
  Lemma unlocated n x cwd b i l code : has (fi_schema x) "imports" (VList b (i :: l)) -> (forall j, In j (i :: l) -> lacks j "schemaLocation") ->
    (exists b, has (fi_schema x) "includes" (VList b [])) ->
    module_code g u md5 checked open sort n_sort n x cwd = Ok code -> forall rt limit O fm, import_files rt limit O code <> Ok fm.
  Proof.
    intros Hi Hl (b0 & H0) E rt limit O fm Q. unfold module_code in E. apply bind_ok in E as (st & E & Ec). injection Ec as <-. destruct n; [discriminate|].
    cbn [files_code given] in E. cbn zeta in E. rewrite (has_jget _ _ _ Hi), (has_jget _ _ _ H0) in E. cbn [jlist bind mapM] in E.
    apply bind_ok in E as (mlocs & E4 & E). apply bind_ok in E as (ilocs' & E5 & E). apply bind_ok in E as (mlocs' & E6 & E). apply bind_ok in E as (x' & E7 & E). apply bind_ok in E as (st1 & E8 & E).
    apply bind_ok in E as (p & E9 & E). apply bind_ok in E as (c & E10 & E). injection E as <-. cbn [pg_code] in Q.
    assert (Ei : ilocs' = []) by (destruct (String.eqb cwd ""); cbn [mapM] in E5; now injection E5 as <-). subst ilocs'. cbn [app] in E8.
    assert (M : forall l ls, (forall j, In j l -> lacks j "schemaLocation") -> mapM location_of l = Ok ls -> Forall (eq None) ls).
    { clear. induction l as [|j l IH]; intros ls H E; cbn [mapM] in E; [injection E as <-; constructor|]. apply bind_ok in E as (a & Ea & E). apply bind_ok in E as (r & Er & E). injection E as <-.
      constructor; [|apply IH; auto with datatypes]. unfold location_of in Ea. rewrite (lacks_jget j _ (H j (or_introl eq_refl))) in Ea. now injection Ea as <-. }
    assert (N1 : Forall (eq None) mlocs) by (apply (M (i :: l)); [exact Hl|exact E4]).
    assert (N2 : Forall (eq None) mlocs').
    { destruct (String.eqb cwd ""); [injection E6 as <-; exact N1|]. clear - N1 E6. revert mlocs' E6. induction N1 as [|a l <- Fl IH]; intros ls E; cbn [mapM] in E; [injection E as <-; constructor|].
      cbn [rewrite_path bind] in E. apply bind_ok in E as (r & Er & E). injection E as <-. constructor; [reflexivity|auto]. }
    assert (st1 = mkProg [] [] []).
    { clear - N2 E8. revert E8. induction N2 as [|a l <- Fl IH]; intros E; cbn [foldM] in E; [now injection E as <-|]. cbn [given bind] in E. auto. }
    subst st1. cbn [pg_code app] in Q. refine (no_first rt limit O c [] fm _ Q). eapply statement_refs; [exact E10|]. right. discriminate.
  Qed.

  (** A document without namespace. *)
  Lemma nameless n f loc cwd base st st' : (forall l, given loc = Some l -> ~ In l (pg_paths st)) -> lacks (fi_schema f) "targetNamespace" ->
    files_code g u md5 checked open sort n_sort n f loc cwd base st <> Ok st'.
  Proof.
    intros Hl Hf E. destruct n; [discriminate|]. cbn [files_code] in E.
    replace (match given loc with Some l => str_in l (pg_paths st) | None => false end) with false in E.
    2:{ destruct (given loc) as [l|]; [|reflexivity]. symmetry. apply not_true_iff_false. intros Q. apply str_in_spec in Q. now apply (Hl l). }
    cbn zeta in E. do 6 (let z := fresh in let Q := fresh in apply bind_ok in E as (z & Q & E)). apply bind_ok in E as (x & Sx & E). apply bind_ok in E as (st1 & _ & E). apply bind_ok in E as (p & _ & E).
    apply bind_ok in E as (c & Ec & _). unfold file_statement in Ec.
    assert (Q : jget x "targetNamespace" = VNone).
    { unfold sorted_schema in Sx. apply bind_ok in Sx as (cts & _ & Sx). apply bind_ok in Sx as (l & _ & Sx). injection Sx as <-. rewrite <- (lacks_jget _ _ Hf). apply with_types_get. discriminate. }
    rewrite Q in Ec. discriminate.
  Qed.
  Lemma nameless_root n x cwd code : lacks (fi_schema x) "targetNamespace" -> module_code g u md5 checked open sort n_sort n x cwd <> Ok code.
  Proof.
    intros Hx E. unfold module_code in E. apply bind_ok in E as (st & E & _). revert E. apply nameless; [discriminate|exact Hx].
  Qed.
  Lemma nameless_include n x base b i b' f y code : Forall proper base -> file_name f ->
    has (fi_schema x) "includes" (VList b [i]) -> has i "schemaLocation" (VStr f) -> has (fi_schema x) "imports" (VList b' []) ->
    open (path_of (base ++ [f])) = Ok y -> lacks (fi_schema y) "targetNamespace" ->
    module_code g u md5 checked open sort n_sort n x (path_of base) <> Ok code.
  Proof.
    intros PB Ff Hi Hl Hm Oy Ly E. unfold module_code in E. apply bind_ok in E as (st & E & _). destruct n; [discriminate|].
    cbn [files_code given] in E. cbn zeta in E. rewrite (has_jget _ _ _ Hi), (has_jget _ _ _ Hm) in E. cbn [jlist bind] in E.
    assert (L : mapM location_of [i] = Ok [Some f]) by (cbn [mapM]; unfold location_of; now rewrite (has_jget _ _ _ Hl)).
    assert (L' : mapM (rewrite_path g u (path_of base) (path_of base)) [Some f] = Ok [Some f]) by (cbn [mapM]; now rewrite (rewrite_file g u base PB f Ff)).
    rewrite L in E. change (mapM location_of []) with (@Ok (list (option string)) []) in E. cbn [bind] in E. rewrite path_some, L' in E. cbn [bind mapM] in E. apply bind_ok in E as (x' & _ & E). apply bind_ok in E as (st1 & E & _).
    cbn [app foldM] in E. rewrite (file_given f Ff), (resolve_file g base PB f Ff) in E. cbn [bind] in E. rewrite Oy in E. cbn [bind] in E. apply bind_ok in E as (st2 & E & _).
    revert E. apply nameless; [intros l _ []|exact Ly].
  Qed.
End Wrong.
