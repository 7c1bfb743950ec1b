(** The generator for schemas terminates; its theorems. *)
From Coq Require Import String Ascii List ZArith NArith Bool Lia.
From Verif Require Import PyBase PyPath SpecPath GenImports SpecImports PfBase PfSimple PfPath PfPath2 PfImports PfImports2.
Import ListNotations.
Open Scope nat_scope.
Open Scope string_scope.
Open Scope list_scope.

Lemma each_inv {A S} (f : A -> S -> S * res unit) (I : S -> Prop) (P : res unit -> Prop) l : P (Ok tt) ->
  (forall x st, In x l -> I st -> I (fst (f x st)) /\ P (snd (f x st))) -> forall st, I st -> P (snd (each f l st)).
Proof.
  intros P0. induction l as [|x l IH]; intros H st Is; [exact P0|]. cbn [each].
  destruct (H x st (or_introl eq_refl) Is) as [I1 P1]. destruct (f x st) as [s1 [[]|er]]; cbn [fst snd] in *; [|exact P1].
  apply IH; [|exact I1]. intros y s Iy. apply H. now right.
Qed.

Lemma each_known {A} (f : A -> state -> state * res unit) l :
  (forall x st, In x l -> incl (known_paths st) (known_paths (fst (f x st)))) -> forall st, incl (known_paths st) (known_paths (fst (each f l st))).
Proof.
  induction l as [|x l IH]; intros H st; [apply incl_refl|]. cbn [each]. pose proof (H x st (or_introl eq_refl)) as H1.
  destruct (f x st) as [s1 [[]|er]]; cbn [fst] in *; [|exact H1]. eapply incl_tran; [exact H1|]. apply IH. intros y s Iy. apply H. now right.
Qed.
Lemma generate_known g u open n : forall self doc location cwd base st,
  incl (known_paths st) (known_paths (fst (generate g u open n self doc location cwd base st))).
Proof.
  induction n as [|n IH]; intros; [apply incl_refl|]. cbn [generate].
  destruct (match location with Some l => negb (String.eqb l "") && str_in l (known_paths st) | None => false end); [apply incl_refl|].
  destruct (if String.eqb base "" then Ok (xd_locs doc) else mapM (rewrite_path g u cwd base) (xd_locs doc)) as [locs|er]; [|apply incl_refl].
  set (st1 := match location with Some l => _ | None => _ end).
  assert (H1 : incl (known_paths st) (known_paths st1)).
  { unfold st1. destruct location as [l|]; [|apply incl_refl]. destruct (String.eqb l ""); [apply incl_refl|]. cbn. apply incl_appl, incl_refl. }
  set (body := fun (p : option string * option string) st => _).
  assert (H2 : incl (known_paths st1) (known_paths (fst (each body (combine (xd_locs doc) locs) st1)))).
  { apply each_known. intros [o o'] s I. unfold body. cbn [fst snd]. destruct o' as [[|ch l]|]; try apply incl_refl.
    destruct (resolve_location g (String ch l) base) as [[[path cwd'] loc']|er]; [|apply incl_refl].
    destruct (open path) as [doc'|er]; [|apply incl_refl].
    match goal with |- context [log ?e s] => apply (IH (Some path) doc' (Some loc') cwd' base (log e s)) end. }
  fold body. destruct (each body (combine (xd_locs doc) locs) st1) as [s2 [[]|er]]; cbn [fst log known_paths] in *; eapply incl_tran; eauto.
Qed.

Lemma filter_true {A} (l : list A) : filter (fun _ => true) l = l.
Proof. induction l as [|x l IH]; [reflexivity|]. cbn. now rewrite IH. Qed.

Section Term.
  Variable g : string.
  Variable u : string -> string -> string.
  Variable open : string -> res xdoc.
  Variable B : list string.
  Hypothesis PB : Forall proper B.
  Variable files : list (list string).
  Variable urls : list string.
  Hypothesis RO : reads_only open files urls.

  Definition places : list string := urls ++ map (rel_of B) files.
  Definition rem (K : list string) : nat := length (filter (fun l => negb (str_in l K)) places).
  Lemma filter_le {A} (p q : A -> bool) l : (forall x, q x = true -> p x = true) -> length (filter q l) <= length (filter p l).
  Proof. intros H. induction l as [|x l IH]; [constructor|]. cbn. destruct (q x) eqn:E; [rewrite (H x E); cbn; lia|]. destruct (p x); cbn; lia. Qed.
  Lemma filter_lt {A} (p q : A -> bool) l a : (forall x, q x = true -> p x = true) -> In a l -> p a = true -> q a = false ->
    length (filter q l) < length (filter p l).
  Proof.
    intros H I Pa Qa. induction l as [|x l IH]; [destruct I|]. cbn. pose proof (filter_le p q l H). destruct I as [-> | I].
    - rewrite Pa, Qa. cbn. lia.
    - specialize (IH I). destruct (q x) eqn:E; [rewrite (H x E); cbn; lia|]. destruct (p x); cbn; lia.
  Qed.
  Lemma rem_le K K' : incl K K' -> rem K' <= rem K.
  Proof.
    intros H. apply filter_le. intros x. rewrite !negb_true_iff, <- !not_true_iff_false, !str_in_spec. intros N C. now apply N, H.
  Qed.
  Lemma rem_lt K l : In l places -> ~ In l K -> rem (K ++ [l]) < rem K.
  Proof.
    intros I N. apply (filter_lt _ _ _ l).
    - intros x. rewrite !negb_true_iff, <- !not_true_iff_false, !str_in_spec. intros H C. apply H, in_app_iff. now left.
    - exact I.
    - rewrite negb_true_iff, <- not_true_iff_false, str_in_spec. exact N.
    - apply negb_false_iff, str_in_spec, in_app_iff. right. now left.
  Qed.

  Lemma generate_term n : forall self doc location cwd st, (exists C, Forall piece C /\ cwd = tidy C) ->
    match location with
    | Some l => l <> "" /\ In l places /\ (remote l \/ exists p, Forall proper p /\ l = rel_of B p) /\ rem (known_paths st) < n
    | None => rem (known_paths st) + 1 < n
    end ->
    snd (generate g u open n self doc location cwd (tidy B) st) <> Err RecursionError.
  Proof.
    induction n as [|n IH]; intros self doc location cwd st CO LO; [destruct location; lia|].
    cbn [generate].
    destruct (match location with Some l => negb (String.eqb l "") && str_in l (known_paths st) | None => false end) eqn:K; [discriminate|].
    change (String.eqb (tidy B) "") with false. cbn iota.
    destruct CO as (C & PC & ->).
    destruct (mapM_all (rewrite_path g u (tidy C) (tidy B)) (xd_locs doc)) as (locs & M).
    { intros [l|] _; [|now exists None]. destruct (resolve_step g u B PB C l PC) as (l' & _ & _ & E & _). eauto. }
    rewrite M.
    set (st1 := match location with Some l => if String.eqb l "" then st else mkState (known_paths st ++ [l]) (events st) | None => st end).
    set (body := fun (p : option string * option string) st => _).
    assert (R1 : rem (known_paths st1) < n).
    { unfold st1. destruct location as [l|]; [|lia]. destruct LO as (Nl & Il & _ & Hr). apply String.eqb_neq in Nl. rewrite Nl in *. cbn [negb andb] in K. cbn.
      assert (Nk : ~ In l (known_paths st)) by (intros C0; apply str_in_spec in C0; congruence).
      pose proof (rem_lt (known_paths st) l Il Nk). lia. }
    assert (E : snd (each body (combine (xd_locs doc) locs) st1) <> Err RecursionError).
    { apply (each_inv body (fun s => rem (known_paths s) < n) (fun r => r <> Err RecursionError)); [discriminate| |exact R1].
      intros [o o'] s I Hs. pose proof (mapM_combine _ _ _ M _ I) as E. cbn [fst snd] in E. unfold body. cbn [fst snd].
      destruct o as [l|]; [|injection E as <-; split; [exact Hs|discriminate]].
      destruct (resolve_step g u B PB C l PC) as (l' & path & cwd' & E' & Nl & RL & ST).
      rewrite E' in E. injection E as <-. destruct l' as [|ch l']; [congruence|]. rewrite RL.
      set (s1 := log (Opened self l path) s). assert (Hs1 : rem (known_paths s1) < n) by exact Hs.
      destruct (RO path) as [RO1 RO2].
      destruct (open path) as [doc'|er] eqn:Op; [|split; [exact Hs1|cbn; congruence]].
      assert (CW : exists C', Forall piece C' /\ cwd' = tidy C').
      { destruct ST as [Rl E1 -> ->|C' NR NRp E1 Dp PC' -> W]; [exists B; split; [now apply proper_piece|reflexivity]|now exists C']. }
      assert (CA : remote (String ch l') \/ exists p, Forall proper p /\ String ch l' = rel_of B p).
      { destruct ST as [Rl E1 -> ->|C' NR NRp E1 Dp PC' -> W]; [left; now rewrite E1|right].
        exists (denotes (walk [] C) l). split; [rewrite <- Dp; apply denotes_proper; constructor|exact E1]. }
      assert (PL : In (String ch l') places).
      { destruct (RO1 doc' eq_refl) as [F1 F2]. apply in_app_iff. destruct ST as [Rl E1 -> ->|C' NR NRp E1 Dp PC' -> W].
        - left. rewrite E1. now apply F1.
        - right. rewrite E1, <- Dp. apply in_map. now apply F2. }
      split.
      - eapply Nat.le_lt_trans; [|exact Hs1]. apply rem_le. apply (generate_known g u open n (Some path) doc' (Some (String ch l')) cwd' (tidy B) s1).
      - apply (IH (Some path) doc' (Some (String ch l')) cwd' s1 CW). split; [discriminate|]. auto. }
    fold body. destruct (each body (combine (xd_locs doc) locs) st1) as [s2 [[]|er]]; cbn [snd] in *; [discriminate|exact E].
  Qed.
End Term.

(** ** The theorems *)
Section Top.
  Variable g : string.
  Variable u : string -> string -> string.
  Variable open : string -> res xdoc.
  Variable base : list string.
  Hypothesis PB : Forall proper base.

  Lemma terminates files urls n doc : reads_only open files urls -> length files + length urls + 1 < n ->
    snd (generate_code_from_xsd g u open n doc (path_of base)) <> Err RecursionError.
  Proof.
    intros RO L. unfold generate_code_from_xsd. rewrite path_tidy.
    assert (H : snd (generate g u open n None doc None (tidy base) (tidy base) (mkState [] [])) <> Err RecursionError).
    { apply (generate_term g u open base PB files urls RO); [exists base; split; [now apply proper_piece|reflexivity]|].
      assert (rem base files urls (known_paths (mkState [] [])) <= length (places base files urls)).
      { unfold rem. rewrite <- (filter_true (places base files urls)) at 2. now apply filter_le. }
      unfold places in H. rewrite app_length, map_length in H. lia. }
    destruct (generate _ _ _ _ _ _ _ _ _ _). exact H.
  Qed.
  Lemma top_call : call_ok open base None (tidy base).
  Proof. exists base. split; [now apply proper_piece|]. split; [reflexivity|]. intros _ _. rewrite walk_down by assumption. reflexivity. Qed.
  Lemma top_ran n doc : exists st (e : list event), fst (generate_code_from_xsd g u open n doc (path_of base)) = e /\ ran open base (mkState [] []) st (okb (snd (generate_code_from_xsd g u open n doc (path_of base)))) e.
  Proof.
    unfold generate_code_from_xsd. rewrite path_tidy.
    destruct (generate_ran g u open base PB n None doc None (tidy base) (mkState [] []) top_call I) as (e & R & _).
    destruct (generate _ _ _ _ _ _ _ _ _ _) as [st r]. cbn [fst snd] in *. exists st, e. split; [exact (rn_events _ _ _ _ _ _ R)|exact R].
  Qed.
  Lemma resolves n doc by_ loc path : reads_files open base ->
    In (Opened by_ loc path) (fst (generate_code_from_xsd g u open n doc (path_of base))) ->
    (remote loc -> path = loc) /\ (~ remote loc -> local by_ -> ~ remote path /\ denotes [] path = denotes (dir_of base by_) loc).
  Proof.
    intros RF. destruct (top_ran n doc) as (st & e & -> & R). intros I. destruct (rn_open _ _ _ _ _ _ R _ _ _ I) as [[G1 G2] _].
    split; [exact G1|]. intros N Lo. destruct (G2 N) as [G3 G4]. split; [exact G3|now apply G4].
  Qed.
  Lemma written_once n doc : let w := written (fst (generate_code_from_xsd g u open n doc (path_of base))) in
    NoDup w /\ forall l l', In l w -> In l' w -> ~ remote l -> ~ remote l' -> denotes base l = denotes base l' -> l = l'.
  Proof.
    cbn zeta. destruct (top_ran n doc) as (st & e & -> & R). split; [exact (rn_nodup _ _ _ _ _ _ R)|].
    assert (C : forall l, In l (written e) -> ~ remote l -> l = rel_of base (denotes base l)).
    { intros l Il Nl. destruct (rn_new _ _ _ _ _ _ R l Il) as [_ K]. destruct (rn_canon _ _ _ _ _ _ R l K) as [[] | [Rl | (p & Pp & ->)]]; [contradiction|].
      now rewrite rel_denotes. }
    intros l l' Il Il' Nl Nl' E. rewrite (C l Il Nl), (C l' Il' Nl'). now rewrite E.
  Qed.
  Lemma all_written n doc by_ loc path : snd (generate_code_from_xsd g u open n doc (path_of base)) = Ok tt ->
    In (Opened by_ loc path) (fst (generate_code_from_xsd g u open n doc (path_of base))) ->
    exists l d path', In (Emitted (Some l) d) (fst (generate_code_from_xsd g u open n doc (path_of base))) /\
      open path' = Ok d /\ stands_for base l path /\ stands_for base l path'.
  Proof.
    intros Hr. destruct (top_ran n doc) as (st & e & -> & R). rewrite Hr in R. intros I.
    destruct (rn_open _ _ _ _ _ _ R _ _ _ I) as [_ K]. destruct (K eq_refl) as (l & S & Kl). destruct (rn_done _ _ _ _ _ _ R eq_refl l Kl) as [[] | H].
    apply written_in in H as (d & H). destruct (rn_docs _ _ _ _ _ _ R l d H) as (p & Op & Sp). exists l, d, p. auto.
  Qed.
  Lemma ends_with n doc : snd (generate_code_from_xsd g u open n doc (path_of base)) = Ok tt ->
    exists e, fst (generate_code_from_xsd g u open n doc (path_of base)) = e ++ [Emitted None doc].
  Proof.
    unfold generate_code_from_xsd. destruct n as [|n]; [discriminate|]. cbn [generate].
    destruct (if String.eqb (path_of base) "" then _ else _) as [locs|er]; [|discriminate].
    destruct (each _ _ _) as [s2 [[]|er]]; [|discriminate]. intros _. exists (events s2). reflexivity.
  Qed.
End Top.
