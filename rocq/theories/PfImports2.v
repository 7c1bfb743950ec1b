(** Runs of the generator for schemas. *)
From Coq Require Import String Ascii List ZArith NArith Bool Lia.
From Verif Require Import PyBase PyPath SpecPath GenImports SpecImports PfBase PfSimple PfPath PfPath2 PfImports.
Import ListNotations.
Open Scope nat_scope.
Open Scope string_scope.
Open Scope list_scope.

Lemma written_app a b : written (a ++ b) = written a ++ written b.
Proof. induction a as [|[by_ l p|[l|] d] a IH]; cbn [app written]; [reflexivity|exact IH| |exact IH]. now rewrite IH. Qed.
Lemma written_in l e : In l (written e) -> exists d, In (Emitted (Some l) d) e.
Proof.
  induction e as [|[by_ x p|[x|] d] e IH]; cbn [written]; intros I; [destruct I| | |].
  - destruct (IH I) as (d & H). exists d. now right.
  - destruct I as [-> | I]; [exists d; now left|]. destruct (IH I) as (d' & H). exists d'. now right.
  - destruct (IH I) as (d' & H). exists d'. now right.
Qed.
Lemma mapM_combine {A C} (f : A -> res C) l : forall l', mapM f l = Ok l' -> forall p, In p (combine l l') -> f (fst p) = Ok (snd p).
Proof.
  induction l as [|x l IH]; cbn [mapM]; intros l' H p I; [destruct l'; destruct I|].
  apply bind_ok in H as (y & Hy & H). apply bind_ok in H as (t & Ht & H). injection H as <-. destruct I as [<- | I]; [exact Hy|]. now apply (IH t).
Qed.
Lemma mapM_all {A C} (f : A -> res C) l : (forall x, In x l -> exists y, f x = Ok y) -> exists l', mapM f l = Ok l'.
Proof.
  induction l as [|x l IH]; intros H; [now exists []|]. destruct (H x (or_introl eq_refl)) as (y & Hy).
  destruct IH as (t & Ht); [intros; apply H; now right|]. exists (y :: t). cbn. now rewrite Hy, Ht.
Qed.

Section Run.
  Variable g : string.
  Variable u : string -> string -> string.
  Variable open : string -> res xdoc.
  Variable B : list string.
  Hypothesis PB : Forall proper B.

  (** Which calls there are. *)
  Definition call_ok (self : option string) (cwd : string) : Prop :=
    exists C, Forall piece C /\ cwd = tidy C /\ (local self -> reads_files open B -> walk [] C = dir_of B self).
  Definition good_open (by_ : option string) (loc path : string) : Prop :=
    (remote loc -> path = loc) /\
    (~ remote loc -> ~ remote path /\ (local by_ -> reads_files open B -> denotes [] path = denotes (dir_of B by_) loc)).

  Record ran (st st' : state) (ok : bool) (e : list event) : Prop := {
    rn_events : events st' = events st ++ e;
    rn_known : incl (known_paths st) (known_paths st');
    rn_nodup : NoDup (written e);
    rn_new : forall l, In l (written e) -> ~ In l (known_paths st) /\ In l (known_paths st');
    rn_done : ok = true -> forall l, In l (known_paths st') -> In l (known_paths st) \/ In l (written e);
    rn_open : forall by_ loc path, In (Opened by_ loc path) e -> good_open by_ loc path /\
      (ok = true -> exists l, stands_for B l path /\ In l (known_paths st'));
    rn_canon : forall l, In l (known_paths st') -> In l (known_paths st) \/ remote l \/ exists p, Forall proper p /\ l = rel_of B p;
    rn_docs : forall l d, In (Emitted (Some l) d) e -> exists p, open p = Ok d /\ stands_for B l p }.

  Lemma ran_refl st : ran st st true [].
  Proof.
    split; [symmetry; apply app_nil_r|intros x H; exact H|constructor|contradiction|intros _ x H; now left|contradiction|intros x H; now left|contradiction].
  Qed.
  Lemma ran_trans s1 s2 s3 ok e1 e2 : ran s1 s2 true e1 -> ran s2 s3 ok e2 -> ran s1 s3 ok (e1 ++ e2).
  Proof.
    intros R1 R2. split.
    - rewrite (rn_events _ _ _ _ R2), (rn_events _ _ _ _ R1). now rewrite app_assoc.
    - intros l I. apply (rn_known _ _ _ _ R2), (rn_known _ _ _ _ R1), I.
    - rewrite written_app. apply NoDup_app_intro; [apply (rn_nodup _ _ _ _ R1)|apply (rn_nodup _ _ _ _ R2)|].
      intros l I1 I2. destruct (rn_new _ _ _ _ R1 l I1) as [_ K]. now destruct (rn_new _ _ _ _ R2 l I2) as [K' _].
    - intros l I. rewrite written_app in I. apply in_app_iff in I as [I|I].
      + destruct (rn_new _ _ _ _ R1 l I) as [N K]. split; [exact N|now apply (rn_known _ _ _ _ R2)].
      + destruct (rn_new _ _ _ _ R2 l I) as [N K]. split; [|exact K]. intros C. apply N, (rn_known _ _ _ _ R1), C.
    - intros E l I. rewrite written_app, in_app_iff. destruct (rn_done _ _ _ _ R2 E l I) as [K|K]; [|auto].
      destruct (rn_done _ _ _ _ R1 eq_refl l K); auto.
    - intros by_ loc path I. apply in_app_iff in I as [I|I].
      + destruct (rn_open _ _ _ _ R1 _ _ _ I) as [G K]. split; [exact G|]. intros _. destruct (K eq_refl) as (l & S & Kl).
        exists l. split; [exact S|now apply (rn_known _ _ _ _ R2)].
      + exact (rn_open _ _ _ _ R2 _ _ _ I).
    - intros l I. destruct (rn_canon _ _ _ _ R2 l I) as [K|K]; [|auto]. now apply (rn_canon _ _ _ _ R1).
    - intros l d I. apply in_app_iff in I as [I|I]; [exact (rn_docs _ _ _ _ R1 l d I)|exact (rn_docs _ _ _ _ R2 l d I)].
  Qed.
  Lemma ran_weak s1 s2 e : ran s1 s2 true e -> ran s1 s2 false e.
  Proof.
    intros R. destruct R. split; auto; try discriminate. intros by_ loc path I. destruct (rn_open0 _ _ _ I). split; [assumption|discriminate].
  Qed.

  Definition okb (r : res unit) : bool := match r with Ok _ => true | Err _ => false end.

  (** The loop. *)
  Lemma each_ran {A} (f : A -> state -> state * res unit) l :
    (forall x st, In x l -> exists e, ran st (fst (f x st)) (okb (snd (f x st))) e) ->
    forall st, exists e, ran st (fst (each f l st)) (okb (snd (each f l st))) e.
  Proof.
    induction l as [|x l IH]; intros H st; [exists []; apply ran_refl|]. cbn [each].
    destruct (H x st (or_introl eq_refl)) as (e1 & R1). destruct (f x st) as [s1 [[]|er]]; cbn [fst snd okb] in *; [|now exists e1].
    destruct (IH (fun y s I => H y s (or_intror I)) s1) as (e2 & R2). exists (e1 ++ e2). eapply ran_trans; eauto.
  Qed.

  Lemma generate_ran n : forall self doc location cwd st, call_ok self cwd ->
    match location with Some l => l <> "" /\ (exists p, open p = Ok doc /\ stands_for B l p) /\ (remote l \/ exists p, Forall proper p /\ l = rel_of B p) | None => True end ->
    exists e, ran st (fst (generate g u open n self doc location cwd (tidy B) st)) (okb (snd (generate g u open n self doc location cwd (tidy B) st))) e /\
      (okb (snd (generate g u open n self doc location cwd (tidy B) st)) = true -> forall l, location = Some l -> 
        In l (known_paths (fst (generate g u open n self doc location cwd (tidy B) st)))).
  Proof.
    induction n as [|n IH]; intros self doc location cwd st CO LO; [exists []; split; [apply ran_weak, ran_refl|discriminate]|].
    cbn [generate]. 
    destruct (match location with Some l => negb (String.eqb l "") && str_in l (known_paths st) | None => false end) eqn:K.
    { exists []. split; [apply ran_refl|]. intros _ l ->. cbn. apply andb_true_iff in K as [_ K]. now apply str_in_spec. }
    change (String.eqb (tidy B) "") with false. cbn iota.
    destruct CO as (C & PC & -> & DC).
    destruct (mapM_all (rewrite_path g u (tidy C) (tidy B)) (xd_locs doc)) as (locs & M).
    { intros [l|] _; [|now exists None]. destruct (resolve_step g u B PB C l PC) as (l' & _ & _ & E & _). eauto. }
    rewrite M.
    set (st1 := match location with Some l => if String.eqb l "" then st else mkState (known_paths st ++ [l]) (events st) | None => st end).
    set (body := fun (p : option string * option string) st => _).
    destruct (each_ran body (combine (xd_locs doc) locs)) with (st := st1) as (e & R).
    { intros [o o'] s I. pose proof (mapM_combine _ _ _ M _ I) as E. cbn [fst snd] in E. unfold body. cbn [fst snd].
      destruct o as [l|]; [|injection E as <-; exists []; apply ran_refl].
      destruct (resolve_step g u B PB C l PC) as (l' & path & cwd' & E' & Nl & RL & ST).
      rewrite E' in E. injection E as <-. destruct l' as [|ch l']; [congruence|]. rewrite RL.
      set (s1 := log (Opened self l path) s).
      assert (GO : good_open self l path).
      { destruct ST as [? _ E1 _|C' ? ? _ Dp ? ? ?]; split; try tauto; try (intros; congruence); intros _. split; [assumption|]. intros Lo RF. now rewrite Dp, <- (DC Lo RF). }
      assert (R1 : ran s s1 false [Opened self l path]).
      { split; [reflexivity|intros x Hx; exact Hx|constructor|contradiction|discriminate| |intros x Hx; now left|intros x d [[=] | []]].
        intros by_ loc p [[= <- <- <-] | []]. split; [exact GO|discriminate]. }
      destruct (open path) as [doc'|er] eqn:Op; [|exists [Opened self l path]; exact R1].
      assert (SF : stands_for B (String ch l') path).
      { destruct ST as [? E1 -> ?|C' NR NRp E1 Dp ? ? ?]; [now left|]. right.
        assert (PP : Forall proper (denotes [] path)) by (apply denotes_proper; constructor).
        rewrite E1, <- Dp. split; [now apply rel_local|]. split; [assumption|]. now apply rel_denotes. }
      destruct (IH (Some path) doc' (Some (String ch l')) cwd' s1) as (e2 & R2 & K2).
      - destruct ST as [Rl E1 -> ->|C' NR NRp E1 Dp PC' -> W].
        + exists B. split; [now apply proper_piece|]. split; [reflexivity|]. intros N. now contradiction N.
        + exists C'. split; [exact PC'|]. split; [reflexivity|]. intros _ RF. cbn [dir_of]. rewrite Dp. apply W. intros rest EB.
          apply (RF path doc' NRp Op). exists rest. now rewrite Dp.
      - split; [discriminate|]. split; [exists path; now split|]. destruct ST as [Rl E1 -> ->|C' NR NRp E1 Dp PC' -> W]; [left; now rewrite E1|right].
        exists (denotes (walk [] C) l). split; [rewrite <- Dp; apply denotes_proper; constructor|exact E1].
      - exists ([Opened self l path] ++ e2). destruct (generate _ _ _ n _ _ _ _ _ s1) as [s2 r]. cbn [fst snd] in *.
        destruct R2. split; auto.
        + rewrite rn_events0. unfold s1, log. cbn. now rewrite <- app_assoc.
        + intros by_ loc p [[= <- <- <-] | Io]; [|now apply rn_open0]. split; [exact GO|]. intros Okr. exists (String ch l'). split; [exact SF|].
          now apply K2.
        + intros x d [[=] | Io]. now apply rn_docs0. }
    fold body. destruct (each body (combine (xd_locs doc) locs) st1) as [s2 [[]|er]] eqn:Ea; cbn [fst snd okb] in *.
    - exists (e ++ [Emitted location doc]). destruct location as [l|].
      + destruct LO as (Nl & Ld & Lc). assert (Nl' := Nl). apply String.eqb_neq in Nl'. unfold st1 in *. rewrite Nl' in *. cbn [negb andb] in K.
        assert (Nk : ~ In l (known_paths st)) by (intros C0; apply str_in_spec in C0; congruence).
        destruct R. cbn [known_paths events] in *. split.
        * split; cbn [log events known_paths].
          -- rewrite rn_events0. now rewrite <- app_assoc.
          -- intros x Hx. apply rn_known0. apply in_app_iff. now left.
          -- rewrite written_app. apply NoDup_app_intro; [assumption|repeat constructor; tauto|].
             intros x Hx [<- | []]. destruct (rn_new0 l Hx) as [N _]. apply N. apply in_app_iff. right. now left.
          -- intros x Hx. rewrite written_app in Hx. apply in_app_iff in Hx as [Hx | [<- | []]].
             ++ destruct (rn_new0 x Hx) as [N Kx]. split; [|exact Kx]. intros C0. apply N, in_app_iff. now left.
             ++ split; [exact Nk|]. apply rn_known0, in_app_iff. right. now left.
          -- intros _ x Hx. rewrite written_app, in_app_iff. destruct (rn_done0 eq_refl x Hx) as [Hk|Hk]; [|auto].
             apply in_app_iff in Hk as [Hk | [<- | []]]; [auto|]. right. right. now left.
          -- intros by_ loc p I. apply in_app_iff in I as [I | [[=] | []]]. now apply rn_open0.
          -- intros x Hx. destruct (rn_canon0 x Hx) as [Hk|Hk]; [|auto]. apply in_app_iff in Hk as [Hk | [<- | []]]; auto.
          -- intros x d I. apply in_app_iff in I as [I | [[= <- <-] | []]]; [now apply rn_docs0|exact Ld].
        * intros _ x [= <-]. cbn. apply rn_known0, in_app_iff. right. now left.
      + split; [|discriminate]. unfold st1 in R. destruct R. split; cbn [log events known_paths]; auto.
        * rewrite rn_events0. now rewrite <- app_assoc.
        * rewrite written_app. cbn. now rewrite app_nil_r.
        * intros x. rewrite written_app. cbn. rewrite app_nil_r. apply rn_new0.
        * intros _ x. rewrite written_app. cbn. rewrite app_nil_r. now apply rn_done0.
        * intros by_ loc p I. apply in_app_iff in I as [I | [[=] | []]]. now apply rn_open0.
        * intros x d I. apply in_app_iff in I as [I | [[=] | []]]. now apply rn_docs0.
    - exists e. split; [|discriminate]. unfold st1 in R. destruct location as [l|]; [|exact R].
      destruct LO as (Nl & Ld & Lc). apply String.eqb_neq in Nl. rewrite Nl in *. destruct R. cbn [known_paths events] in *. split; auto; try discriminate.
      + intros x Hx. apply rn_known0, in_app_iff. now left.
      + intros x Hx. destruct (rn_new0 x Hx) as [N Kx]. split; [|exact Kx]. intros C0. apply N, in_app_iff. now left.
      + intros x Hx. destruct (rn_canon0 x Hx) as [Hk|Hk]; [|auto]. apply in_app_iff in Hk as [Hk | [<- | []]]; auto.
  Qed.
End Run.
