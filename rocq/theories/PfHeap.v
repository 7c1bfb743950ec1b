(** Instances of different parties do not share cells. *)
From Coq Require Import String Ascii List ZArith NArith Bool Lia.
From Verif Require Import PyBase PyVal XsdSimple XsdComplex XsdHeap SpecHeap PfBase.
Import ListNotations.
Open Scope nat_scope.
Open Scope string_scope.
Open Scope list_scope.

(** Every cell has a colour: the party it belongs to, or None for the types kept
    by the library. *)
Definition colours := list (option nat).
Definition has_colour (col : colours) (l : loc) (k : option nat) : Prop := nth_error col l = Some k.
Definition vcol (col : colours) (k : option nat) (v : hval) : Prop :=
  match v with HV _ => True | HL l => has_colour col l k end.
Definition is_HV (v : hval) : Prop := match v with HV _ => True | HL _ => False end.
Definition dcol (col : colours) (k : option nat) (dict : list (string * hval)) : Prop := forall n v, In (n, v) dict -> vcol col k v.
Definition flat_class (E : env) (c : string) : Prop := forall d g, e_cls E c = Some d -> In g (cd_fields d) -> f_kind g <> KList /\ f_kind g <> KRef.

Section S.
  Variable O : oracle.
  Variable E : env.
  Variable num : string -> string -> nat.
  Hypothesis SG : simple_groups E.
  Hypothesis NU : numbered E num.

  (** [f] is the field with number [id] of some class. *)
  Definition known (id : nat) (f : field) : Prop := exists c d, e_cls E c = Some d /\ In f (cd_fields d) /\ id = num c (f_name f).
  Definition cell_ok (col : colours) (k : option nat) (c : cell) : Prop :=
    match c with
    | CObj cls dict => dcol col k dict /\ (k = None -> flat_class E cls -> forall n v, In (n, v) dict -> is_HV v)
    | CList e items => (forall v, In v items -> vcol col k v) /\ match e with Some (id, f) => known id f | None => True end
    end.
  Record wc (s : hstate) (col : colours) : Prop := {
    wc_len : length col = length (hs_heap s);
    wc_cell : forall l c k, nth_error (hs_heap s) l = Some c -> has_colour col l k -> cell_ok col k c;
    wc_cache : forall id p, hs_types s id = Some p -> has_colour col p None /\
      forall f, known id f -> exists ct dict, f_type f = TComplex ct /\ nth_error (hs_heap s) p = Some (CObj ct dict) }.

  (** Cells keep their colours; cells of other parties stay as they are, and all
      keep their classes. *)
  Record ext (k : option nat) (s : hstate) (col : colours) (s' : hstate) (col' : colours) : Prop := {
    ex_col : forall l j, has_colour col l j -> has_colour col' l j;
    ex_frame : forall l j, has_colour col l j -> j <> None -> j <> k -> nth_error (hs_heap s') l = nth_error (hs_heap s) l;
    ex_class : forall l c dict, nth_error (hs_heap s) l = Some (CObj c dict) -> exists dict', nth_error (hs_heap s') l = Some (CObj c dict') }.
  Definition safe {A} (k : option nat) (m : M A) (Pre : hstate -> colours -> Prop) (Q : A -> hstate -> colours -> Prop) : Prop :=
    forall s col, wc s col -> Pre s col -> exists col', wc (fst (m s)) col' /\ ext k s col (fst (m s)) col' /\
      forall a, snd (m s) = Ok a -> Q a (fst (m s)) col'.

  Lemma ext_refl k s col : ext k s col s col.
  Proof. split; eauto. Qed.
  Lemma ext_trans k s1 c1 s2 c2 s3 c3 : ext k s1 c1 s2 c2 -> ext k s2 c2 s3 c3 -> ext k s1 c1 s3 c3.
  Proof.
    intros [A1 A2 A3] [B1 B2 B3]. split.
    - auto.
    - intros l j H N1 N2. rewrite (B2 l j) by auto. now apply (A2 l j).
    - intros l c dict H. destruct (A3 l c dict H) as (d' & H'). eauto.
  Qed.
  Lemma ext_lib k s c s' c' : ext None s c s' c' -> ext k s c s' c'.
  Proof. intros [A B C]. split; eauto. Qed.
  Lemma vcol_ext k s c s' c' j v : ext k s c s' c' -> vcol c j v -> vcol c' j v.
  Proof. intros X. destruct v; cbn; auto. apply (ex_col _ _ _ _ _ X). Qed.

  Lemma safe_ret {A} k (a : A) Pre : safe k (ret a) Pre (fun b s c => b = a /\ Pre s c).
  Proof. intros s col W P. exists col. split; [exact W|]. split; [apply ext_refl|]. cbn. intros b [= <-]. auto. Qed.
  Lemma safe_fail {A} k e Pre (Q : A -> _ -> _ -> Prop) : safe k (fail e) Pre Q.
  Proof. intros s col W P. exists col. split; [exact W|]. split; [apply ext_refl|]. cbn. discriminate. Qed.
  Lemma safe_bind {A B} k (m : M A) (f : A -> M B) Pre Q R :
    safe k m Pre Q -> (forall a, safe k (f a) (Q a) R) -> safe k (bindM m f) Pre R.
  Proof.
    intros Hm Hf s col W P. unfold bindM. destruct (Hm s col W P) as (c1 & W1 & X1 & Q1).
    destruct (m s) as [s1 [a|e]]; cbn [fst snd] in *.
    - destruct (Hf a s1 c1 W1 (Q1 a eq_refl)) as (c2 & W2 & X2 & Q2). exists c2. split; [exact W2|]. split; [eapply ext_trans; eauto|exact Q2].
    - exists c1. split; [exact W1|]. split; [exact X1|]. discriminate.
  Qed.
  Lemma safe_weaken {A} k (m : M A) (Pre Pre' : _ -> _ -> Prop) (Q Q' : A -> _ -> _ -> Prop) :
    safe k m Pre Q -> (forall s c, wc s c -> Pre' s c -> Pre s c) -> (forall a s c, Q a s c -> Q' a s c) -> safe k m Pre' Q'.
  Proof. intros H HP HQ s col W P. destruct (H s col W (HP _ _ W P)) as (c' & W' & X & Q1). exists c'. split; [exact W'|]. split; [exact X|]. eauto. Qed.
  Lemma safe_lib {A} k (m : M A) Pre Q : safe None m Pre Q -> safe k m Pre Q.
  Proof. intros H s col W P. destruct (H s col W P) as (c' & W' & X & Q1). exists c'. split; [exact W'|]. split; [now apply ext_lib|exact Q1]. Qed.
  (** What holds of the state before and is kept by every extension holds after. *)
  Definition stable (R : hstate -> colours -> Prop) : Prop := forall k s c s' c', ext k s c s' c' -> R s c -> R s' c'.
  Lemma safe_keep {A} k (m : M A) Pre Q (R : hstate -> colours -> Prop) : stable R -> safe k m Pre Q ->
    safe k m (fun s c => Pre s c /\ R s c) (fun a s c => Q a s c /\ R s c).
  Proof.
    intros St H s col W [P R0]. destruct (H s col W P) as (c' & W' & X & Q1). exists c'. split; [exact W'|]. split; [exact X|].
    intros a Ha. split; [now apply Q1|]. eapply St; eauto.
  Qed.
  Lemma safe_lift {A} k (r : res A) Pre : safe k (lift r) Pre (fun a s c => r = Ok a /\ Pre s c).
  Proof. intros s col W P. exists col. split; [exact W|]. split; [apply ext_refl|]. cbn. auto. Qed.
  Lemma safe_load k l Pre : safe k (load l) Pre (fun c s col => nth_error (hs_heap s) l = Some c /\ Pre s col).
  Proof.
    intros s col W P. exists col. split; [exact W|]. split; [apply ext_refl|]. unfold load. cbn. intros a.
    destruct (nth_error (hs_heap s) l); [|discriminate]. intros [= ->]. auto.
  Qed.

  Lemma bind_load {A} l (f : cell -> M A) s : bindM (load l) f s =
    match nth_error (hs_heap s) l with Some c => f c s | None => (s, Err (Exn (EOther "dangling") "")) end.
  Proof. unfold bindM, load. destruct (nth_error (hs_heap s) l); reflexivity. Qed.
  Lemma bind_run {A B} (m : M A) (f : A -> M B) s : bindM m f s = match m s with (s', Ok a) => f a s' | (s', Err e) => (s', Err e) end.
  Proof. reflexivity. Qed.
  Lemma bind_lift {A B} (r : res A) (f : A -> M B) s : bindM (lift r) f s = match r with Ok a => f a s | Err e => (s, Err e) end.
  Proof. unfold bindM, lift. destruct r; reflexivity. Qed.

  Lemma cell_ok_ext col col' k c : (forall l j, has_colour col l j -> has_colour col' l j) -> cell_ok col k c -> cell_ok col' k c.
  Proof.
    intros X. destruct c as [cls dict|e items]; cbn.
    - intros [D F]. split; [|exact F]. intros n v H. specialize (D n v H). destruct v; cbn in *; auto.
    - intros [D F]. split; [|exact F]. intros v H. specialize (D v H). destruct v; cbn in *; auto.
  Qed.
  Lemma update_length {A} (l : list A) : forall i x, length (update l i x) = length l.
  Proof. induction l; intros [|i] x; cbn; auto. Qed.
  Lemma update_same {A} (l : list A) : forall i x, i < length l -> nth_error (update l i x) i = Some x.
  Proof. induction l; intros [|i] x H; cbn in *; try lia; auto. apply IHl. lia. Qed.
  Lemma update_other {A} (l : list A) : forall i j x, i <> j -> nth_error (update l i x) j = nth_error l j.
  Proof. induction l; intros [|i] [|j] x H; cbn in *; try lia; auto. Qed.

  Lemma safe_alloc k c (Pre : hstate -> colours -> Prop) : (forall s col, Pre s col -> cell_ok col k c) ->
    safe k (alloc c) Pre (fun l s col => has_colour col l k /\ nth_error (hs_heap s) l = Some c).
  Proof.
    intros Hc s col W P. exists (col ++ [k]). cbn [alloc fst snd].
    assert (X : forall l j, has_colour col l j -> has_colour (col ++ [k]) l j).
    { unfold has_colour. intros l j H. rewrite nth_error_app1; [exact H|]. apply nth_error_Some. congruence. }
    assert (L := wc_len _ _ W).
    assert (Hl : has_colour (col ++ [k]) (length (hs_heap s)) k) by (unfold has_colour; rewrite <- L, nth_error_app2, Nat.sub_diag by auto; reflexivity).
    split; [|split].
    - split; cbn [hs_heap hs_types].
      + rewrite !app_length. cbn. lia.
      + intros l c' j Hn Hj. destruct (Nat.lt_ge_cases l (length (hs_heap s))) as [Lt|Ge].
        * rewrite nth_error_app1 in Hn by exact Lt. unfold has_colour in Hj. rewrite nth_error_app1 in Hj by lia.
          apply (cell_ok_ext col); [exact X|]. now apply (wc_cell _ _ W l).
        * rewrite nth_error_app2 in Hn by exact Ge. destruct (l - length (hs_heap s)) as [|m] eqn:D; [|destruct m; discriminate].
          injection Hn as <-. assert (l = length (hs_heap s)) by lia. subst l. unfold has_colour in *. rewrite Hl in Hj. injection Hj as <-.
          apply (cell_ok_ext col); [exact X|]. eapply Hc; eauto.
      + intros id p Hp. destruct (wc_cache _ _ W id p Hp) as [C F]. split; [now apply X|]. intros f Kf. destruct (F f Kf) as (ct & dict & T & N).
        exists ct, dict. split; [exact T|]. rewrite nth_error_app1; [exact N|]. apply nth_error_Some. congruence.
    - split; cbn [hs_heap].
      + exact X.
      + intros l j H _ _. apply nth_error_app1. rewrite <- L. apply nth_error_Some. unfold has_colour in H. congruence.
      + intros l c0 dict H. exists dict. rewrite nth_error_app1; [exact H|]. apply nth_error_Some. congruence.
    - intros a [= <-]. split; [exact Hl|]. cbn [hs_heap]. rewrite nth_error_app2, Nat.sub_diag by auto. reflexivity.
  Qed.
  (** A cell of one's own may be changed, its class apart. *)
  Definition same_shape (c c' : cell) : Prop :=
    match c, c' with CObj a _, CObj b _ => a = b | CList _ _, CList _ _ => True | _, _ => False end.
  Lemma safe_store k l c (Pre : hstate -> colours -> Prop) :
    (forall s col, Pre s col -> has_colour col l k /\ cell_ok col k c /\ exists c0, nth_error (hs_heap s) l = Some c0 /\ same_shape c0 c) ->
    safe k (store l c) Pre (fun _ _ _ => True).
  Proof.
    intros Hc s col W P. destruct (Hc s col P) as (Hl & Ok_ & c0 & N0 & Sh). exists col. cbn [store fst snd].
    assert (Ll : l < length (hs_heap s)) by (apply nth_error_Some; congruence).
    split; [|split; [|auto]].
    - split; cbn [hs_heap hs_types].
      + rewrite update_length. apply (wc_len _ _ W).
      + intros l' c' j Hn Hj. destruct (Nat.eq_dec l l') as [<-|Nl].
        * rewrite update_same in Hn by exact Ll. injection Hn as <-. unfold has_colour in *. rewrite Hl in Hj. injection Hj as <-. exact Ok_.
        * rewrite update_other in Hn by exact Nl. now apply (wc_cell _ _ W l').
      + intros id p Hp. destruct (wc_cache _ _ W id p Hp) as [C F]. split; [exact C|]. intros f Kf. destruct (F f Kf) as (ct & dict & T & N).
        destruct (Nat.eq_dec l p) as [<-|Nl].
        * rewrite update_same by exact Ll. rewrite N in N0. injection N0 as <-. destruct c as [cls d'|]; cbn in Sh; [subst cls|contradiction].
          exists ct, d'. auto.
        * rewrite update_other by exact Nl. eauto.
    - split; cbn [hs_heap].
      + auto.
      + intros l' j H _ Nj. apply update_other. intros <-. unfold has_colour in *. congruence.
      + intros l' cl dict H. destruct (Nat.eq_dec l l') as [<-|Nl].
        * rewrite update_same by exact Ll. rewrite H in N0. injection N0 as <-. destruct c as [cls d'|]; cbn in Sh; [subst cls|contradiction]. eauto.
        * rewrite update_other by exact Nl. eauto.
  Qed.

  Lemma safe_cached k id Pre : safe k (cached id) Pre (fun p s col => p = hs_types s id /\ Pre s col).
  Proof. intros s col W P. exists col. split; [exact W|]. split; [apply ext_refl|]. cbn. intros a [= <-]. auto. Qed.
  Lemma safe_cache id p ct : safe None (cache id p)
    (fun s col => has_colour col p None /\ (exists dict, nth_error (hs_heap s) p = Some (CObj ct dict)) /\ forall f, known id f -> f_type f = TComplex ct)
    (fun _ s col => hs_types s id = Some p).
  Proof.
    intros s col W (Hp & (dict & N) & T). exists col. cbn [cache fst snd]. split; [|split].
    - split; cbn [hs_heap hs_types].
      + apply (wc_len _ _ W). + apply (wc_cell _ _ W).
      + intros i q. destruct (Nat.eqb_spec i id) as [->|].
        * intros [= <-]. split; [exact Hp|]. intros f Kf. exists ct, dict. auto.
        * apply (wc_cache _ _ W).
    - split; cbn [hs_heap]; eauto.
    - intros a _. cbn [hs_types]. now rewrite Nat.eqb_refl.
  Qed.

  (** ** The functions of the library *)
  Definition good_rec (rec : string -> M loc) : Prop := forall k c,
    safe k (rec c) (fun _ _ => True) (fun l s col => has_colour col l k /\ exists dict, nth_error (hs_heap s) l = Some (CObj c dict)).

  Lemma known_type id f f' : known id f -> known id f' -> f = f'.
  Proof. intros (c & d & H & I & ->) (c' & d' & H' & I' & Eq). exact (NU c d f c' d' f' H I H' I' Eq). Qed.

  Section R.
    Variable rec : string -> M loc.
    Hypothesis GR : good_rec rec.

    Lemma safe_evaluate k id f : known id f ->
      safe k (evaluate rec id f) (fun _ _ => True)
        (fun p s col => forall l, p = Some l -> has_colour col l None /\ exists ct dict, f_type f = TComplex ct /\ nth_error (hs_heap s) l = Some (CObj ct dict)).
    Proof.
      intros Kf. apply safe_lib. unfold evaluate. apply (safe_bind _ _ _ _ _ _ (safe_cached _ id _)).
      intros [p|].
      - intros s col W [Hp _]. exists col. split; [exact W|]. split; [apply ext_refl|]. cbn. intros a [= <-] l [= <-].
        destruct (wc_cache _ _ W id p (eq_sym Hp)) as [C F]. split; [exact C|]. exact (F f Kf).
      - destruct (f_type f) as [t|ct] eqn:T.
        + intros s col W _. exists col. split; [exact W|]. split; [apply ext_refl|]. cbn. intros a [= <-] l [=].
        + eapply safe_weaken; [| |intros a s c H; exact H]; [|intros s c _ _; exact I].
          eapply safe_bind; [apply (GR None ct)|]. intros p.
          set (R := fun (s : hstate) (col : colours) => has_colour col p None /\ exists dict, nth_error (hs_heap s) p = Some (CObj ct dict)).
          assert (SR : stable R).
          { intros k0 s c s' c' X (A & dict & B). split; [now apply (ex_col _ _ _ _ _ X)|]. eapply ex_class; eauto. }
          eapply safe_bind.
          * eapply safe_weaken; [apply (safe_keep None _ _ _ R SR (safe_cache id p ct))| |intros a s c H; exact H].
            intros s c _ H. split; [|exact H]. destruct H as [A B]. repeat split; auto. intros f' Kf'. now rewrite (known_type id f' f Kf' Kf).
          * intros u s col W [_ (A & dict & B)]. exists col. split; [exact W|]. split; [apply ext_refl|]. cbn. intros a [= <-] l [= <-].
            split; [exact A|]. exists ct, dict. auto.
    Qed.

    Lemma assoc_set_in {A} k (v : A) l n x : In (n, x) (assoc_set k v l) -> (n, x) = (k, v) \/ In (n, x) l.
    Proof.
      induction l as [|[k' v'] l IH]; cbn; [intuition|]. destruct (String.eqb_spec k k') as [<-|].
      - intros [H|H]; [left; congruence|right; now right].
      - intros [H|H]; [right; now left|]. apply IH in H as [H|H]; auto.
    Qed.
    Lemma merge_in dict : forall dict' n v, In (n, v) (fold_left (fun (d : list (string * hval)) b => assoc_set (fst b) (snd b) d) dict dict') ->
      In (n, v) dict \/ In (n, v) dict'.
    Proof.
      induction dict as [|[a b] dict IH]; intros dict' n v H; cbn in *; [auto|]. apply IH in H as [H|H]; [auto|].
      apply assoc_set_in in H as [H|H]; auto.
    Qed.
    Lemma safe_copy k p ct : flat_class E ct ->
      safe k (shallow_copy rec p) (fun s col => has_colour col p None /\ exists dict, nth_error (hs_heap s) p = Some (CObj ct dict))
        (fun q s col => has_colour col q k).
    Proof.
      intros Fl. unfold shallow_copy. intros s col W (Cp & dict & Np). rewrite bind_load, Np.
      assert (HV0 : forall n v, In (n, v) dict -> is_HV v) by (exact (proj2 (wc_cell _ _ W p _ None Np Cp) eq_refl Fl)).
      revert s col W Cp Np.
      assert (G : safe k (q <-- rec ct ;; c' <-- load q ;;
         match c' with
         | CObj _ dict' => _ <-- store q (CObj ct (fold_left (fun d b => assoc_set (fst b) (snd b) d) dict dict')) ;; ret q
         | CList _ _ => fail TypeError
         end) (fun _ _ => True) (fun q s col => has_colour col q k)).
      { eapply safe_bind; [apply (GR k ct)|]. intros q. eapply safe_bind; [apply safe_load|]. intros [cls dict'|e items]; [|apply safe_fail].
        eapply safe_bind.
        - set (R := fun (s : hstate) (col : colours) => has_colour col q k).
          assert (SR : stable R) by (intros k0 s c s' c' X A; now apply (ex_col _ _ _ _ _ X)).
          eapply safe_weaken; [apply (safe_keep k _ (fun s col => wc s col /\ nth_error (hs_heap s) q = Some (CObj cls dict') /\ has_colour col q k /\
              exists dict, nth_error (hs_heap s) q = Some (CObj ct dict)) (fun _ _ _ => True) R SR)| |intros a s c H; exact H].
          + apply safe_store. intros s col (W & N & C & d0 & N'). split; [exact C|]. rewrite N in N'. injection N' as -> <-.
            destruct (wc_cell _ _ W q _ k N C) as [Dc Fv]. split.
            * cbn. split.
              -- intros n v H. apply merge_in in H as [H|H]; [|exact (Dc n v H)]. specialize (HV0 n v H). destruct v; [exact I|contradiction].
              -- intros Kn _ n v H. apply merge_in in H as [H|H]; [exact (HV0 n v H)|exact (Fv Kn Fl n v H)].
            * exists (CObj ct dict'). split; [exact N|reflexivity].
          + intros s c W (N & C & D). exact (conj (conj W (conj N (conj C D))) C).
        - intros u s col W [_ C]. exists col. split; [exact W|]. split; [apply ext_refl|]. cbn. intros a [= <-]. exact C. }
      intros s col W Cp Np. exact (G s col W I).
    Qed.
    Lemma safe_empty k id f c d : e_cls E c = Some d -> In f (cd_fields d) -> id = num c (f_name f) ->
      safe k (empty_value rec id f) (fun _ _ => True) (fun v s col => vcol col k v /\ (f_kind f <> KList -> f_kind f <> KRef -> is_HV v)).
    Proof.
      intros Hc Hf ->. assert (Kf : known (num c (f_name f)) f) by (exists c, d; auto).
      unfold empty_value. destruct (f_kind f) eqn:K.
      1, 2, 3, 5: intros s col W _; exists col; (split; [exact W|]); (split; [apply ext_refl|]); cbn; intros a [= <-]; split; [exact I|intros _ _; exact I].
      - eapply safe_bind; [apply (safe_evaluate k _ f Kf)|]. intros [p|].
        + destruct (f_type f) as [t|ct] eqn:T.
          * intros s col W H. destruct (H p eq_refl) as (_ & ct & dict & Tf & _). congruence.
          * assert (Fl : flat_class E ct) by (intros dt g H1 H2; exact (SG c d f ct dt g Hc Hf K T H1 H2)).
            eapply safe_bind.
            -- eapply safe_weaken; [apply (safe_copy k p ct Fl)| |intros a s c0 H; exact H].
               intros s c0 _ H. destruct (H p eq_refl) as (A & ct' & dict & Tf & B). injection Tf as <-. eauto.
            -- intros q s col W C. exists col. split; [exact W|]. split; [apply ext_refl|]. cbn. intros a [= <-]. split; [exact C|congruence].
        + intros s col W _. exists col. split; [exact W|]. split; [apply ext_refl|]. cbn. intros a [= <-]. split; [exact I|congruence].
      - eapply safe_bind.
        + apply (safe_alloc k _ (fun _ _ => True)). intros s col _. cbn. split; [intros v []|exact Kf].
        + intros l s col W [C _]. exists col. split; [exact W|]. split; [apply ext_refl|]. cbn. intros a [= <-]. split; [exact C|congruence].
    Qed.

    Lemma outside_pure v s : fst (outside v s) = s.
    Proof. destruct v; cbn; [reflexivity|]. unfold bindM, load. cbn. destruct (nth_error (hs_heap s) l); reflexivity. Qed.
    Lemma safe_outside k v Pre : safe k (outside v) Pre (fun _ s col => Pre s col).
    Proof.
      intros s col W P. exists col. pose proof (outside_pure v s) as Ep. rewrite Ep. split; [exact W|]. split; [apply ext_refl|]. auto.
    Qed.
    Lemma kept_col col k v y : vcol col k v -> vcol col k (kept v y).
    Proof. destruct v; cbn; auto. Qed.
    Lemma kept_HV v y : is_HV v -> is_HV (kept v y).
    Proof. destruct v; cbn; auto. Qed.
    Lemma vcol_stable k v : stable (fun _ col => vcol col k v).
    Proof. intros j s c s' c' X H. eapply vcol_ext; eauto. Qed.
    Lemma find_field_in F name f : find_field F name = Ok f -> In f F /\ f_name f = name.
    Proof.
      unfold find_field. destruct (find _ F) as [g|] eqn:Fd; [|discriminate]. intros [= <-]. apply find_some in Fd as [A B]. apply String.eqb_eq in B. auto.
    Qed.
    Lemma safe_set k l name v : safe k (hset O E num rec l name v)
      (fun s col => has_colour col l k /\ vcol col k v /\
         (k = None -> forall cls dict, nth_error (hs_heap s) l = Some (CObj cls dict) -> flat_class E cls -> is_HV v))
      (fun _ _ _ => True).
    Proof.
      unfold hset. intros s col W (Cl & Cv & Fv). rewrite bind_load. destruct (nth_error (hs_heap s) l) as [c|] eqn:N; cbn [fst snd].
      2: { exists col. split; [exact W|]. split; [apply ext_refl|]. discriminate. }
      destruct c as [cls dict|e items]; [|exact (safe_fail k _ (fun _ _ => True) (fun _ _ _ => True) s col W I)].
      assert (Hv : k = None -> flat_class E cls -> is_HV v) by (intros Kn Fl; eapply Fv; eauto).
      rewrite bind_lift. destruct (get_class E cls) as [d|e] eqn:Gd; [|exists col; split; [exact W|]; split; [apply ext_refl|]; discriminate].
      rewrite bind_lift. destruct (find_field (cd_fields d) name) as [f|e] eqn:Ff; [|exists col; split; [exact W|]; split; [apply ext_refl|]; discriminate].
      apply find_field_in in Ff as [If Nf].
      assert (Hd : e_cls E cls = Some d) by (unfold get_class in Gd; destruct (e_cls E cls); congruence).
      assert (Kf : known (num cls (f_name f)) f) by (exists cls, d; auto).
      assert (Ev : exists col', wc (fst ((match f_kind f with KList => ret None | _ => evaluate rec (num cls (f_name f)) f end) s)) col' /\
         ext None s col (fst ((match f_kind f with KList => ret None | _ => evaluate rec (num cls (f_name f)) f end) s)) col').
      { destruct (f_kind f) eqn:Kd; [| | | | |exists col; split; [exact W|apply ext_refl]].
        all: destruct (safe_evaluate None _ f Kf s col W I) as (c' & W' & X' & _); exists c'; auto. }
      destruct Ev as (col1 & W1 & X1). rewrite bind_run.
      destruct ((match f_kind f with KList => ret None | _ => evaluate rec (num cls (f_name f)) f end) s) as [s1 [p|e]] eqn:Es; cbn [fst snd] in *.
      2: { exists col1. split; [exact W1|]. split; [now apply ext_lib|]. discriminate. }
      assert (Cl1 : has_colour col1 l k) by now apply (ex_col _ _ _ _ _ X1).
      assert (Cv1 : vcol col1 k v) by exact (vcol_ext _ _ _ _ _ k v X1 Cv).
      assert (St : safe k (x <-- outside v ;; y <-- lift (field_accept O E f x) ;; c <-- load l ;;
          match c with CObj cls dict => store l (CObj cls (assoc_set name (kept v y) dict)) | CList _ _ => fail AttributeError end)
        (fun s' col' => has_colour col' l k /\ vcol col' k v /\ exists dict1, nth_error (hs_heap s') l = Some (CObj cls dict1)) (fun _ _ _ => True)).
      { eapply safe_bind; [apply safe_outside|]. intros x. eapply safe_bind; [apply safe_lift|]. intros y. eapply safe_bind; [apply safe_load|].
        intros [cls2 dict2|]; [|apply safe_fail].
        eapply safe_weaken; [apply (safe_store k l _ (fun s' col' => wc s' col' /\ nth_error (hs_heap s') l = Some (CObj cls2 dict2) /\ field_accept O E f x = Ok y /\
           has_colour col' l k /\ vcol col' k v /\ exists dict1, nth_error (hs_heap s') l = Some (CObj cls dict1)))| |intros a s0 c0 H; exact H].
        - intros s' col' (W' & N2 & _ & C & V & dict1 & N1). rewrite N2 in N1. injection N1 as -> ->. split; [exact C|].
          destruct (wc_cell _ _ W' l _ k N2 C) as [Dc Fc]. split.
          + cbn. split.
            * intros n0 v0 H. apply assoc_set_in in H as [H|H]; [|exact (Dc n0 v0 H)]. injection H as -> ->. now apply kept_col.
            * intros Kn Fl n0 v0 H. apply assoc_set_in in H as [H|H]; [|exact (Fc Kn Fl n0 v0 H)]. injection H as -> ->. apply kept_HV. auto.
          + eexists. split; [exact N2|reflexivity].
        - intros s0 c0 W0 H. split; [exact W0|exact H]. }
      destruct (ex_class _ _ _ _ _ X1 l cls dict N) as (dict1 & N1).
      destruct (St s1 col1 W1) as (col2 & W2 & X2 & _).
      { split; [exact Cl1|]. split; [exact Cv1|]. eauto. }
      exists col2. split; [exact W2|]. split; [|auto]. eapply ext_trans; [apply ext_lib; exact X1|exact X2].
    Qed.
    Lemma vcol_in_stable k l : stable (fun _ col => has_colour col l k).
    Proof. intros j s c s' c' X H. now apply (ex_col _ _ _ _ _ X). Qed.
    Lemma safe_append k l v : safe k (happend O E rec l v) (fun s col => has_colour col l k /\ vcol col k v) (fun _ _ _ => True).
    Proof.
      assert (SR : stable (fun (_ : hstate) col => has_colour col l k /\ vcol col k v)).
      { intros j s c s' c' X [H1 H2]. split; [now apply (ex_col _ _ _ _ _ X)|eapply vcol_ext; eauto]. }
      assert (Fin : forall e items y, safe k (store l (CList e (items ++ [kept v y])))
        (fun s col => wc s col /\ nth_error (hs_heap s) l = Some (CList e items) /\ has_colour col l k /\ vcol col k v) (fun _ _ _ => True)).
      { intros e items y. apply safe_store. intros s col (W & N & C & V). split; [exact C|]. destruct (wc_cell _ _ W l _ k N C) as [Ic Kc]. split.
        - split; [|exact Kc]. intros x H. apply in_app_or in H as [H|[<-|[]]]; [now apply Ic|now apply kept_col].
        - eexists. split; [exact N|exact I]. }
      unfold happend. intros s col W P. rewrite bind_load. destruct (nth_error (hs_heap s) l) as [c|] eqn:N; cbn [fst snd].
      2: { exists col. split; [exact W|]. split; [apply ext_refl|]. discriminate. }
      destruct c as [cls dict|[[id f]|] items]; [exact (safe_fail k _ (fun _ _ => True) (fun _ _ _ => True) s col W I)| |].
      - assert (Kc : known id f) by exact (proj2 (wc_cell _ _ W l _ k N (proj1 P))).
        revert s col W P N. enough (G : safe k (_ <-- evaluate rec id f ;; x <-- outside v ;;
            y <-- lift (match x with VNil => if f_nillable f then Ok VNil else Err ValueError | _ => type_accept O E (f_type f) x end) ;;
            c <-- load l ;;
            match c with
            | CList e items0 => if exceeds (Z.of_nat (length items0) + 1) (f_max f) then fail ValueError else store l (CList e (items0 ++ [kept v y]))
            | CObj _ _ => fail AttributeError
            end) (fun s col => True /\ has_colour col l k /\ vcol col k v) (fun _ _ _ => True)) by (intros s col W P N; exact (G s col W (conj I P))).
        eapply safe_bind; [apply (safe_keep k _ _ _ _ SR (safe_evaluate k id f Kc))|]. intros p. cbn beta.
        eapply safe_bind; [apply safe_outside|]. intros x. eapply safe_bind; [apply safe_lift|]. intros y. eapply safe_bind; [apply safe_load|].
        intros [cls dict|e items0]; [apply safe_fail|]. destruct (exceeds _ _); [apply safe_fail|].
        eapply safe_weaken; [apply (Fin e items0 y)| |intros a s c H; exact H]. intros s c W (N & _ & _ & C & V). auto.
      - specialize (Fin None items (match v with HV u => u | HL _ => VNone end)).
        assert (Ek : kept v (match v with HV u => u | HL _ => VNone end) = v) by (destruct v; reflexivity). rewrite Ek in Fin.
        apply (Fin s col W). destruct P. auto.
    Qed.

    Lemma safe_forM {A} k (g : A -> M unit) L (R : hstate -> colours -> Prop) : stable R ->
      (forall x, In x L -> safe k (g x) R (fun _ _ _ => True)) -> safe k (forM g L) R (fun _ s col => R s col).
    Proof.
      intros SR. induction L as [|x L IH]; intros H; cbn [forM].
      - eapply safe_weaken; [apply safe_ret| |]; [intros s c _ HR; exact HR|]. intros a s c [_ HR]. exact HR.
      - eapply safe_bind.
        + eapply safe_weaken; [apply (safe_keep k _ _ _ R SR (H x (or_introl eq_refl)))| |intros a s c Q; exact Q]. intros s c _ HR. exact (conj HR HR).
        + intros u. eapply safe_weaken; [apply IH; intros y Hy; apply H; now right| |intros a s c Q; exact Q]. intros s c _ Q. exact (proj2 Q).
    Qed.
  End R.

  Lemma good_new n : good_rec (hnew n O E num).
  Proof.
    induction n as [|n IH]; intros k c; cbn [hnew]; [apply safe_fail|].
    eapply safe_bind; [apply safe_lift|]. intros d. eapply safe_bind.
    - eapply safe_weaken; [apply (safe_keep k _ (fun _ _ => True) (fun l s col => has_colour col l k /\ nth_error (hs_heap s) l = Some (CObj c [])) (fun _ _ => get_class E c = Ok d))| |intros a s c0 H; exact H].
      + intros j s c0 s' c' _ H. exact H.
      + apply safe_alloc. intros s col _. cbn. split; [intros x y []|intros _ _ x y []].
      + intros s c0 _ [H _]. auto.
    - intros l. intros s col W [[Cl Nl] Gd]. revert s col W Cl Nl.
      assert (Hd : e_cls E c = Some d) by (unfold get_class in Gd; destruct (e_cls E c); congruence).
      set (R := fun (s : hstate) (col : colours) => has_colour col l k /\ exists dict, nth_error (hs_heap s) l = Some (CObj c dict)).
      assert (SR : stable R).
      { intros j s c0 s' c' X (A & dict & B). split; [now apply (ex_col _ _ _ _ _ X)|]. eapply ex_class; eauto. }
      enough (G : safe k (_ <-- forM (fun f => v <-- empty_value (hnew n O E num) (num c (f_name f)) f ;;
              hset O E num (hnew n O E num) l (f_name f) v) (cd_fields d) ;; ret l) R
              (fun l s col => has_colour col l k /\ exists dict, nth_error (hs_heap s) l = Some (CObj c dict))).
      { intros s col W Cl Nl. apply (G s col W). split; [exact Cl|]. eauto. }
      eapply safe_bind.
      + apply (safe_forM k _ (cd_fields d) R SR). intros f Hf. eapply safe_bind.
        * eapply safe_weaken; [apply (safe_keep k _ _ _ R SR (safe_empty (hnew n O E num) IH k _ f c d Hd Hf eq_refl))| |intros a s c0 H; exact H]. intros s c0 _ H. exact (conj I H).
        * intros v. eapply safe_weaken; [apply (safe_set (hnew n O E num) IH k l (f_name f) v)| |auto].
          intros s c0 _ [[V Hv] [C [dict N]]]. split; [exact C|]. split; [exact V|]. intros _ cls dict' N' Fl. rewrite N in N'. injection N' as <- <-.
          destruct (Fl d f Hd Hf). auto.
      + intros u. eapply safe_weaken; [apply safe_ret| |]; [intros s c0 _ H; exact H|]. intros a s c0 [-> H]. exact H.
  Qed.

  (** ** Programs *)
  Section P.
    Variable n : nat.
    Definition vars_ok (vs : list (string * hval)) (k : nat) (col : colours) : Prop := forall x v, In (x, v) vs -> vcol col (Some k) v.
    Lemma vars_stable vs k : stable (fun _ col => vars_ok vs k col).
    Proof. intros j s c s' c' X H x v I. eapply vcol_ext; eauto. Qed.
    Lemma safe_var vs k x : safe (Some k) (var vs x) (fun _ col => vars_ok vs k col) (fun v _ col => vcol col (Some k) v /\ vars_ok vs k col).
    Proof.
      unfold var. destruct (assoc x vs) as [v|] eqn:A; [|apply safe_fail].
      eapply safe_weaken; [apply safe_ret| |]; [intros s c _ H; exact H|]. intros a s c [-> H]. split; [|exact H]. apply (H x). now apply assoc_in.
    Qed.
    Lemma safe_arg vs k a : safe (Some k) (eval_arg vs a) (fun _ col => vars_ok vs k col) (fun v _ col => vcol col (Some k) v /\ vars_ok vs k col).
    Proof.
      destruct a as [v|x]; [|apply safe_var]. eapply safe_weaken; [apply safe_ret| |]; [intros s c _ H; exact H|]. intros a s c [-> H]. split; [exact I|exact H].
    Qed.
    Lemma forall_vcol_stable k l : stable (fun _ col => forall v, In v l -> vcol col k v).
    Proof. intros j s c s' c' X H v I. eapply vcol_ext; eauto. Qed.
    Lemma safe_args vs k l : safe (Some k) (eval_args vs l) (fun _ col => vars_ok vs k col)
      (fun vals _ col => (forall v, In v vals -> vcol col (Some k) v) /\ vars_ok vs k col).
    Proof.
      induction l as [|a l IH]; cbn [eval_args].
      - eapply safe_weaken; [apply safe_ret| |]; [intros s c _ H; exact H|]. intros b s c [-> H]. split; [intros v []|exact H].
      - eapply safe_bind; [apply safe_arg|]. intros v. eapply safe_bind.
        + eapply safe_weaken; [apply (safe_keep (Some k) _ _ _ _ (vcol_stable (Some k) v) IH)| |intros b s c H; exact H]. intros s c _ [A B]. split; assumption.
        + intros r. eapply safe_weaken; [apply safe_ret| |]; [intros s c _ H; exact H|]. intros b s c [-> [[H1 H2] H3]]. split; [|exact H2].
          intros y [<- | Hy]; auto.
    Qed.
    Lemma safe_addr k v (R : hstate -> colours -> Prop) : safe (Some k) (addr v) (fun s col => vcol col (Some k) v /\ R s col)
      (fun l s col => has_colour col l (Some k) /\ R s col).
    Proof.
      destruct v as [v|l]; cbn; [apply safe_fail|]. eapply safe_weaken; [apply safe_ret| |]; [intros s c _ H; exact H|]. intros b s c [-> H]. exact H.
    Qed.
    Definition assigned (k : nat) (r : option (string * hval)) (col : colours) : Prop := forall x v, r = Some (x, v) -> vcol col (Some k) v.
    Lemma safe_run vs k st : safe (Some k) (run n O E num vs st) (fun _ col => vars_ok vs k col) (fun r _ col => assigned k r col).
    Proof.
      assert (None_ : forall (Pre : hstate -> colours -> Prop), safe (Some k) (ret None) Pre (fun r _ col => assigned k r col)).
      { intros Pre. eapply safe_weaken; [apply (safe_ret (Some k) None Pre)| |]; [auto|]. intros a s c [-> _] x v [=]. }
      assert (Some_ : forall x v, safe (Some k) (ret (Some (x, v))) (fun _ col => vcol col (Some k) v) (fun r _ col => assigned k r col)).
      { intros x v. eapply safe_weaken; [apply safe_ret| |]; [intros s c _ H; exact H|]. intros a s c [-> H] x' v' [= <- <-]. exact H. }
      destruct st as [x c|x items|x y name|x y i|x name a|x a|x items]; cbn [run].
      - eapply safe_bind; [eapply safe_weaken; [apply (good_new n (Some k) c)|intros; exact I|intros b s c0 H; exact H]|]. intros l.
        eapply safe_weaken; [apply (Some_ x (HL l))| |auto]. intros s c0 _ [H _]. exact H.
      - eapply safe_bind; [apply safe_args|]. intros vals. eapply safe_bind.
        + apply safe_alloc. intros s col [H _]. cbn. auto.
        + intros l. eapply safe_weaken; [apply (Some_ x (HL l))| |auto]. intros s c0 _ [H _]. exact H.
      - eapply safe_bind; [apply safe_var|]. intros v. eapply safe_bind; [apply safe_addr|]. intros l. eapply safe_bind; [apply safe_load|].
        intros [cls dict|e items]; [|apply safe_fail]. destruct (assoc name dict) as [u|] eqn:A; [|apply safe_fail].
        eapply safe_weaken; [apply (Some_ x u)| |auto]. intros s c W (N & C & _). destruct (wc_cell _ _ W l _ _ N C) as [D _]. apply (D name). now apply assoc_in.
      - eapply safe_bind; [apply safe_var|]. intros v. eapply safe_bind; [apply safe_addr|]. intros l. eapply safe_bind; [apply safe_load|].
        intros [cls dict|e items]; [apply safe_fail|]. destruct (nth_error items i) as [u|] eqn:A; [|apply safe_fail].
        eapply safe_weaken; [apply (Some_ x u)| |auto]. intros s c W (N & C & _). destruct (wc_cell _ _ W l _ _ N C) as [D _]. apply D. eapply nth_error_In; eauto.
      - eapply safe_bind; [apply safe_var|]. intros v. eapply safe_bind; [apply safe_addr|]. intros l. eapply safe_bind.
        + eapply safe_weaken; [apply (safe_keep (Some k) _ _ _ _ (vcol_in_stable (Some k) l) (safe_arg vs k a))| |intros b s c H; exact H].
          intros s c _ [A B]. split; assumption.
        + intros b. eapply safe_bind; [|intros u; apply None_]. eapply safe_weaken; [apply (safe_set (hnew n O E num) (good_new n) (Some k) l name b)| |intros r s c H; exact H].
          intros s c _ [[H1 H2] H3]. repeat split; auto. discriminate.
      - eapply safe_bind; [apply safe_var|]. intros v. eapply safe_bind; [apply safe_addr|]. intros l. eapply safe_bind.
        + eapply safe_weaken; [apply (safe_keep (Some k) _ _ _ _ (vcol_in_stable (Some k) l) (safe_arg vs k a))| |intros b s c H; exact H].
          intros s c _ [A B]. split; assumption.
        + intros b. eapply safe_bind; [|intros u; apply None_]. eapply safe_weaken; [apply (safe_append (hnew n O E num) (good_new n) (Some k) l b)| |intros r s c H; exact H].
          intros s c _ [[H1 H2] H3]. split; auto.
      - eapply safe_bind; [apply safe_var|]. intros v. eapply safe_bind; [apply safe_addr|]. intros l. eapply safe_bind.
        + eapply safe_weaken; [apply (safe_keep (Some k) _ _ _ _ (vcol_in_stable (Some k) l) (safe_args vs k items))| |intros b s c H; exact H].
          intros s c _ [A B]. split; assumption.
        + intros vals. eapply safe_bind; [apply safe_load|]. intros [cls dict|e items0]; [apply safe_fail|].
          eapply safe_bind; [|intros u; apply None_].
          eapply safe_weaken; [apply (safe_store (Some k) l _ (fun s col => wc s col /\ nth_error (hs_heap s) l = Some (CList e items0) /\
             has_colour col l (Some k) /\ forall v, In v vals -> vcol col (Some k) v))| |intros r s c H; exact H].
          * intros s col (W & N & C & H). split; [exact C|]. destruct (wc_cell _ _ W l _ _ N C) as [_ Kc]. split; [split; assumption|].
            eexists. split; [exact N|exact I].
          * intros s c W (N & [H1 H2] & C). auto.
    Qed.

    (** Every party's variables refer to its own cells. *)
    Definition tidy (m : machine) (col : colours) : Prop := wc (m_state m) col /\ forall k, vars_ok (m_vars m k) k col.
    Lemma step_tidy m col k st : tidy m col -> exists col', tidy (step n O E num m k st) col' /\ ext (Some k) (m_state m) col (m_state (step n O E num m k st)) col' /\
      forall j, j <> k -> m_vars (step n O E num m k st) j = m_vars m j.
    Proof.
      intros [W V]. destruct (safe_run (m_vars m k) k st (m_state m) col W (V k)) as (col' & W' & X & Q). unfold step.
      exists col'. destruct (run n O E num (m_vars m k) st (m_state m)) as [s' [[[x v]|]|e]]; cbn [fst snd m_state m_vars] in *.
      2, 3: split; [split; [exact W'|intros j; eapply vars_stable; [exact X|apply V]]|split; [exact X|reflexivity]].
      split; [|split; [exact X|]].
      - split; [exact W'|]. cbn [m_vars]. intros j. destruct (Nat.eqb_spec j k) as [->|Nj]; [|eapply vars_stable; [exact X|apply V]].
        intros y u H. apply assoc_set_in in H as [H|H]; [injection H as -> ->; exact (Q _ eq_refl x v eq_refl)|].
        eapply vars_stable; [exact X|apply V|exact H].
      - intros j Nj. destruct (Nat.eqb_spec j k); [contradiction|reflexivity].
    Qed.
    Lemma run_tidy p : exists col, tidy (run_all n O E num p) col.
    Proof.
      unfold run_all.
      assert (H : exists col, tidy boot col).
      { exists []. split; [split; cbn|intros k x v []].
        - reflexivity. - intros [|l] c k [=]. - discriminate. }
      revert H. generalize boot. induction p as [|[k st] p IH]; intros m [col T]; cbn [fold_left]; [eauto|].
      apply IH. destruct (step_tidy m col k st T) as (col' & T' & _). eauto.
    Qed.
    Lemma look_frame k s col s' col' j : wc s col -> ext (Some k) s col s' col' -> j <> k -> forall path v, vcol col (Some j) v ->
      look (hs_heap s') v path = look (hs_heap s) v path.
    Proof.
      intros W X Nj. assert (Fr : forall l, has_colour col l (Some j) -> nth_error (hs_heap s') l = nth_error (hs_heap s) l).
      { intros l C. apply (ex_frame _ _ _ _ _ X l (Some j)); [exact C|discriminate|congruence]. }
      induction path as [|a path IH]; intros [u|l] C; cbn [look]; auto.
      - now rewrite Fr.
      - rewrite Fr by exact C. destruct (nth_error (hs_heap s) l) as [[cls dict|e items]|] eqn:N; auto; destruct a as [name|i]; auto.
        + destruct (assoc name dict) as [u|] eqn:A; auto. apply IH. destruct (wc_cell _ _ W l _ _ N C) as [D _]. apply (D name). now apply assoc_in.
        + destruct (nth_error items i) as [u|] eqn:A; auto. apply IH. destruct (wc_cell _ _ W l _ _ N C) as [D _]. apply D. eapply nth_error_In; eauto.
    Qed.
    Lemma separate p k st j x path : j <> k ->
      sees (step n O E num (run_all n O E num p) k st) j x path = sees (run_all n O E num p) j x path.
    Proof.
      intros Nj. destruct (run_tidy p) as (col & T). destruct (step_tidy _ col k st T) as (col' & T' & X & V). destruct T as [W Vo].
      unfold sees. rewrite V by exact Nj. destruct (assoc x _) as [v|] eqn:A; [|reflexivity].
      eapply look_frame; eauto. apply (Vo j x). now apply assoc_in.
    Qed.
  End P.
End S.
