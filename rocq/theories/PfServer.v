(** What a server reads from the texts of a request: proofs for C40 and C49. *)
From Coq Require Import String Ascii List ZArith NArith Bool Lia.
From Verif Require Import PyBase PyHttp Soap Dispatch SpecDispatch SpecServer PfBase PfHttp.
Import ListNotations.
Open Scope nat_scope.
Open Scope string_scope.
Open Scope list_scope.

(** ** Query strings *)
Lemma hex_digit_val d n : hex_digit d n -> hex_val d = Some (N.of_nat n) /\ n < 16.
Proof.
  intros [H | H]; (do 16 (destruct n as [|n]; [injection H as <-; split; [reflexivity|lia]|]); cbn in H; destruct n; discriminate H).
Qed.
Lemma hex_pair a b x y l : hex_digit a x -> hex_digit b y -> x < 8 ->
  unquote_l ("%"%char :: a :: b :: l) = ascii_of_nat (16 * x + y) :: unquote_l l.
Proof.
  intros Ha Hb Hx. destruct (hex_digit_val _ _ Ha) as [Va _], (hex_digit_val _ _ Hb) as [Vb Hy].
  cbn [unquote_l]. change (Ascii.eqb "%" "+") with false. change (Ascii.eqb "%" "%") with true. cbn iota. rewrite Va, Vb. f_equal.
  unfold ascii_of_nat, chr. f_equal. lia.
Qed.
Lemma decodes sp w s : encodes sp w s -> unquote_l (to_l w) = to_l s.
Proof.
  induction 1 as [|c w s N _ IH|w s _ IH|a b x y w s Ha Hb Hx _ IH].
  - reflexivity.
  - change (to_l (String c w)) with (c :: to_l w). change (to_l (String c s)) with (c :: to_l s). cbn [unquote_l].
    destruct (Ascii.eqb_spec c "+") as [-> | _]; [destruct N; now left|].
    destruct (Ascii.eqb_spec c "%") as [-> | _]; [destruct N; right; now left|]. now rewrite IH.
  - change (to_l (String "+" w)) with ("+"%char :: to_l w). change (to_l (String " " s)) with (" "%char :: to_l s). cbn [unquote_l].
    change (Ascii.eqb "+" "+") with true. cbn iota. now rewrite IH.
  - change (to_l (String "%" (String a (String b w)))) with ("%"%char :: a :: b :: to_l w).
    rewrite (hex_pair a b x y) by assumption. now rewrite IH.
Qed.
Lemma hex_plain d n c : hex_digit d n -> In c ["&"; "="]%char -> d <> c.
Proof.
  intros H I ->. destruct (hex_digit_val _ _ H) as [V _]. destruct I as [<- | [<- | []]]; discriminate V.
Qed.
Lemma encodes_free sp w s c : encodes sp w s -> In c sp -> In c ["&"; "="]%char -> ~ In c (to_l w).
Proof.
  intros E I1 I2. induction E as [|d w s N _ IH|w s _ IH|a b x y w s Ha Hb Hx _ IH].
  - intros [].
  - intros [-> | H]; [apply N; right; now right|now apply IH].
  - intros [<- | H]; [|now apply IH]. destruct I2 as [Q | [Q | []]]; discriminate Q.
  - intros [<- | [Q | [Q | H]]]; [| | |now apply IH].
    + destruct I2 as [Q | [Q | []]]; discriminate Q.
    + exact (hex_plain _ _ _ Ha I2 Q).
    + exact (hex_plain _ _ _ Hb I2 Q).
Qed.
Definition qpair (nv : list ascii) : list (string * string) :=
  match nv with
  | [] => []
  | _ => let '(n, v) := partition_l "="%char nv in
         [(of_l (unquote_l n), of_l (unquote_l (match v with Some v => v | None => [] end)))]
  end.
Lemma partition_none c l : ~ In c l -> partition_l c l = (l, None).
Proof.
  induction l as [|x l IH]; intros N; [reflexivity|]. cbn [partition_l]. destruct (Ascii.eqb_spec x c) as [-> | Q]; [destruct N; now left|].
  rewrite IH; [reflexivity|]. intros H. apply N. now right.
Qed.
Lemma partition_some c l r : ~ In c l -> partition_l c (l ++ c :: r) = (l, Some r).
Proof.
  induction l as [|x l IH]; intros N; cbn [app partition_l].
  - now rewrite Ascii.eqb_refl.
  - destruct (Ascii.eqb_spec x c) as [-> | Q]; [destruct N; now left|]. rewrite IH; [reflexivity|]. intros H. apply N. now right.
Qed.
Lemma pair_read w p : encodes_pair w p -> qpair (to_l w) = [p] /\ ~ In "&"%char (to_l w).
Proof.
  intros [wn n wv v Hn Hv|wn n Hn N].
  - split.
    + unfold qpair. rewrite !to_l_app. change (to_l "=") with ["="%char]. cbn [app].
      rewrite partition_some by (apply (encodes_free _ _ _ "="%char Hn); cbn; tauto).
      rewrite (decodes _ _ _ Hn), (decodes _ _ _ Hv), !of_to. destruct (to_l wn); reflexivity.
    + rewrite !to_l_app, !in_app_iff. intros [H | [H | H]].
      * revert H. apply (encodes_free _ _ _ "&"%char Hn); cbn; tauto.
      * cbn in H. destruct H as [Q | []]. discriminate Q.
      * revert H. apply (encodes_free _ _ _ "&"%char Hv); cbn; tauto.
  - split; [|apply (encodes_free _ _ _ "&"%char Hn); cbn; tauto].
    unfold qpair. rewrite partition_none by (apply (encodes_free _ _ _ "="%char Hn); cbn; tauto).
    rewrite (decodes _ _ _ Hn), of_to. destruct wn; [congruence|reflexivity].
Qed.
Lemma split_none c l : ~ In c l -> split_l c l = [l].
Proof.
  induction l as [|x l IH]; intros N; [reflexivity|]. cbn [split_l]. destruct (Ascii.eqb_spec x c) as [-> | Q]; [destruct N; now left|].
  rewrite IH; [reflexivity|]. intros H. apply N. now right.
Qed.
Lemma split_some c l r : ~ In c l -> split_l c (l ++ c :: r) = l :: split_l c r.
Proof.
  induction l as [|x l IH]; intros N; cbn [app split_l].
  - now rewrite Ascii.eqb_refl.
  - destruct (Ascii.eqb_spec x c) as [-> | Q]; [destruct N; now left|]. rewrite IH; [reflexivity|]. intros H. apply N. now right.
Qed.
Lemma query_read q pairs : encodes_query q pairs -> parse_qsl q = pairs.
Proof.
  intros (ws & -> & F). unfold parse_qsl. fold qpair. change (flat_map qpair (split_l "&" (to_l (String.concat "&" ws))) = pairs).
  induction F as [|w p ws pairs Hp F IH]; [reflexivity|]. destruct (pair_read _ _ Hp) as [R N].
  destruct ws as [|w2 ws].
  - inversion F; subst. cbn [String.concat]. rewrite split_none by exact N. cbn [flat_map]. now rewrite R.
  - change (String.concat "&" (w :: w2 :: ws)) with (w ++ "&" ++ String.concat "&" (w2 :: ws))%string.
    rewrite !to_l_app. change (to_l "&") with ["&"%char]. cbn [app]. rewrite split_some by exact N. cbn [flat_map]. now rewrite R, IH.
Qed.
Lemma query_keys rq pairs : encodes_query (query_of rq) pairs ->
  (forall k, has_key rq k <-> exists v, In (k, v) pairs) /\
  (forall k v, first_value rq k v <-> exists l1 l2, pairs = l1 ++ (k, v) :: l2 /\ forall v', ~ In (k, v') l1).
Proof. intros H. unfold has_key, first_value. rewrite (query_read _ _ H). split; reflexivity. Qed.

(** ** Content types *)
Definition inert (l : list ascii) : Prop := forall c, In c l -> c <> quote_c /\ c <> bslash.
Lemma split_inert odd l r : inert l -> (odd = false -> ~ In semi l) ->
  param_split false odd (l ++ r) = let '(p, q) := param_split false odd r in (l ++ p, q).
Proof.
  induction l as [|c l IH]; intros H N.
  - cbn [app]. now destruct (param_split false odd r).
  - cbn [app param_split]. destruct (H c (or_introl eq_refl)) as [Q B].
    rewrite (proj2 (Ascii.eqb_neq c quote_c) Q), (proj2 (Ascii.eqb_neq c bslash) B). cbn [andb].
    assert (E : Ascii.eqb c semi && negb odd = false).
    { destruct odd; [apply andb_false_r|]. destruct (Ascii.eqb_spec c semi) as [-> | _]; [|reflexivity]. destruct (N eq_refl). now left. }
    rewrite E, IH; [|intros d Hd; apply H; now right|intros O I; apply (N O); now right].
    now destruct (param_split false odd r).
Qed.
Lemma split_stop r : match r with c :: _ => c = semi | [] => True end -> param_split false false r = ([], r).
Proof. destruct r as [|c r]; [reflexivity|]. intros ->. reflexivity. Qed.
Lemma split_plain l r : inert l -> ~ In semi l -> match r with c :: _ => c = semi | [] => True end ->
  param_split false false (l ++ r) = (l, r).
Proof. intros H N R. rewrite split_inert by auto. rewrite (split_stop r R). now rewrite app_nil_r. Qed.
Lemma split_quoted l1 v l2 r : inert l1 -> ~ In semi l1 -> inert v -> inert l2 -> ~ In semi l2 ->
  match r with c :: _ => c = semi | [] => True end ->
  param_split false false (l1 ++ quote_c :: v ++ quote_c :: l2 ++ r) = (l1 ++ quote_c :: v ++ quote_c :: l2, r).
Proof.
  intros H1 N1 Hv H2 N2 R. rewrite split_inert by auto. cbn [param_split].
  change (Ascii.eqb quote_c semi) with false. change (Ascii.eqb quote_c quote_c) with true. change (Ascii.eqb quote_c bslash) with false. cbn [andb negb].
  rewrite split_inert by (auto; discriminate). cbn [param_split].
  change (Ascii.eqb quote_c semi) with false. change (Ascii.eqb quote_c quote_c) with true. change (Ascii.eqb quote_c bslash) with false. cbn [andb negb].
  rewrite (split_plain l2 r) by auto. reflexivity.
Qed.

Lemma blanks_space s : blanks s -> forallb is_space (to_l s) = true.
Proof. intros H. apply forallb_forall. intros c I. destruct (H c I) as [-> | ->]; reflexivity. Qed.
Lemma blanks_inert s : blanks s -> inert (to_l s) /\ ~ In semi (to_l s) /\ ~ In "="%char (to_l s).
Proof.
  intros H. split; [|split].
  - intros c I. destruct (H c I) as [-> | ->]; split; discriminate.
  - intros I. destruct (H _ I) as [Q | Q]; discriminate Q.
  - intros I. destruct (H _ I) as [Q | Q]; discriminate Q.
Qed.
Lemma token_inert s : token s -> inert (to_l s) /\ ~ In semi (to_l s) /\ ~ In "="%char (to_l s).
Proof.
  intros [_ H]. split; [|split].
  - intros c I. destruct (H c I) as [_ N]. split; intros ->; apply N; cbn; auto.
  - intros I. destruct (H _ I) as [_ N]. apply N. now left.
  - intros I. destruct (H _ I) as [_ N]. apply N. right. now left.
Qed.
Lemma graph_not_space c : 33 <= nat_of_ascii c <= 126 -> is_space c = false.
Proof. intros H. destruct c as [[] [] [] [] [] [] [] []]; try reflexivity; exfalso; cbv in H; lia. Qed.
Lemma lstrip_all p l r : forallb p l = true -> lstrip_l p (l ++ r) = lstrip_l p r.
Proof.
  induction l as [|c l IH]; intros H; [reflexivity|]. cbn [app lstrip_l forallb] in *. apply andb_true_iff in H as [-> H]. now apply IH.
Qed.
Lemma forallb_rev {A} (p : A -> bool) l : forallb p l = true -> forallb p (rev l) = true.
Proof. rewrite !forallb_forall. intros H x I. apply H. now apply in_rev. Qed.
Lemma strip_between p b1 l b2 : forallb p b1 = true -> forallb p b2 = true ->
  match l with c :: _ => p c = false | [] => False end -> match rev l with c :: _ => p c = false | [] => False end ->
  strip_l p (b1 ++ l ++ b2) = l.
Proof.
  intros H1 H2 A B. unfold strip_l. rewrite lstrip_all by exact H1. destruct l as [|c l]; [destruct A|].
  cbn [app]. cbn [lstrip_l]. rewrite A. change (c :: l ++ b2) with ((c :: l) ++ b2). rewrite rev_app_distr.
  rewrite lstrip_all by now apply forallb_rev. destruct (rev (c :: l)) as [|d m] eqn:E; [destruct B|]. cbn [lstrip_l]. rewrite B, <- E.
  apply rev_involutive.
Qed.
Lemma token_ends s : token s ->
  match to_l s with c :: _ => is_space c = false | [] => False end /\ match rev (to_l s) with c :: _ => is_space c = false | [] => False end.
Proof.
  intros [N H]. split.
  - destruct s as [|c s]; [congruence|]. apply graph_not_space, H. now left.
  - destruct (rev (to_l s)) as [|c l] eqn:E.
    + apply (f_equal (@rev ascii)) in E. rewrite rev_involutive in E. destruct s; [congruence|discriminate E].
    + apply graph_not_space, H. apply in_rev. rewrite E. now left.
Qed.
Lemma strip_token b1 s b2 : blanks b1 -> blanks b2 -> token s -> strip_l is_space (to_l b1 ++ to_l s ++ to_l b2) = to_l s.
Proof. intros H1 H2 T. destruct (token_ends _ T). apply strip_between; auto using blanks_space. Qed.

(** The text of a parameter after its semicolon, and what it is read as. *)
Definition lowered (n : string) : string := of_l (map lower_char (to_l n)).
Definition par_text (w : string) (p : string * string) (l : list ascii) : Prop :=
  to_l w = semi :: l /\
  (forall r, match r with c :: _ => c = semi | [] => True end -> param_split false false (l ++ r) = (l, r)) /\
  param_pair (strip_l is_space l) = Some (lowered (fst p), snd p).
Lemma pair_of n v x : token n -> strip_l is_space v = v -> unquote_param v = to_l x ->
  param_pair (to_l n ++ "="%char :: v) = Some (lowered n, x).
Proof.
  intros T S U. unfold param_pair. rewrite partition_some by apply (token_inert _ T). f_equal. f_equal.
  - unfold lowered. f_equal. f_equal. assert (B : blanks "") by (intros c []). pose proof (strip_token "" n "" B B T) as E.
    cbn [app] in E. change (to_l "") with (@nil ascii) in E. cbn [app] in E. now rewrite app_nil_r in E.
  - now rewrite S, U, of_to.
Qed.
Lemma strip_self l : match l with c :: _ => is_space c = false | [] => False end ->
  match rev l with c :: _ => is_space c = false | [] => False end -> strip_l is_space l = l.
Proof. intros A B. pose proof (strip_between is_space [] l [] eq_refl eq_refl A B) as E. cbn [app] in E. now rewrite app_nil_r in E. Qed.
Lemma unquote_token v : token v -> unquote_param (to_l v) = to_l v.
Proof.
  intros T. destruct (token_inert _ T) as [H _]. destruct v as [|c v]; [reflexivity|]. change (to_l (String c v)) with (c :: to_l v) in *.
  unfold unquote_param. destruct (rev (to_l v)); [reflexivity|]. destruct (H c (or_introl eq_refl)) as [Q _].
  now rewrite (proj2 (Ascii.eqb_neq c quote_c) Q).
Qed.
Lemma last_ends l c : match rev l with d :: _ => is_space d = false | [] => False end ->
  match rev (c :: l) with d :: _ => is_space d = false | [] => False end.
Proof. cbn [rev]. destruct (rev l); [intros []|auto]. Qed.
Lemma param_text w p : writes_param w p -> exists l, par_text w p l.
Proof.
  intros [b1 b2 n v H1 H2 Tn Tv|b1 b2 n v H1 H2 Tn Tv].
  - exists (to_l b1 ++ (to_l n ++ "="%char :: to_l v) ++ to_l b2). split; [|split].
    + rewrite !to_l_app. change (to_l ";") with [semi]. change (to_l "=") with ["="%char]. cbn [app].
      now rewrite <- !app_assoc.
    + intros r R. apply split_plain; auto.
      * intros c. rewrite !in_app_iff. intros [I | [[I | [<- | I]] | I]].
        -- now apply (blanks_inert _ H1).
        -- now apply (token_inert _ Tn).
        -- split; discriminate.
        -- now apply (token_inert _ Tv).
        -- now apply (blanks_inert _ H2).
      * rewrite !in_app_iff. intros [I | [[I | [I | I]] | I]]; revert I.
        -- apply (blanks_inert _ H1).
        -- apply (token_inert _ Tn).
        -- discriminate.
        -- apply (token_inert _ Tv).
        -- apply (blanks_inert _ H2).
    + destruct (token_ends _ Tn) as [A _], (token_ends _ Tv) as [A2 B]. rewrite strip_between; auto using blanks_space.
      * apply pair_of; auto; [now apply strip_self|now apply unquote_token].
      * destruct (to_l n); [destruct A|exact A].
      * rewrite rev_app_distr. cbn [rev]. destruct (rev (to_l v)); [destruct B|exact B].
  - exists (to_l b1 ++ (to_l n ++ "="%char :: quote_c :: to_l v ++ [quote_c]) ++ to_l b2). split; [|split].
    + rewrite !to_l_app. change (to_l ";") with [semi]. change (to_l "=") with ["="%char]. cbn [app].
      change (to_l (String the_quote v)) with (quote_c :: to_l v).
      change (to_l (String the_quote b2)) with (quote_c :: to_l b2). rewrite <- !app_assoc. cbn [app]. now rewrite <- !app_assoc.
    + intros r R. set (l1 := to_l b1 ++ to_l n ++ ["="%char]).
      replace (to_l b1 ++ (to_l n ++ "="%char :: quote_c :: to_l v ++ [quote_c]) ++ to_l b2) with (l1 ++ quote_c :: to_l v ++ quote_c :: to_l b2)
        by (unfold l1; rewrite <- !app_assoc; cbn [app]; now rewrite <- !app_assoc).
      replace ((l1 ++ quote_c :: to_l v ++ quote_c :: to_l b2) ++ r) with (l1 ++ quote_c :: to_l v ++ quote_c :: to_l b2 ++ r)
        by (rewrite <- !app_assoc; cbn [app]; now rewrite <- !app_assoc).
      apply split_quoted; auto.
      * intros c. unfold l1. rewrite !in_app_iff. intros [I | [I | [<- | []]]].
        -- now apply (blanks_inert _ H1).
        -- now apply (token_inert _ Tn).
        -- split; discriminate.
      * unfold l1. rewrite !in_app_iff. intros [I | [I | [I | []]]]; revert I.
        -- apply (blanks_inert _ H1).
        -- apply (token_inert _ Tn).
        -- discriminate.
      * apply (blanks_inert _ H2).
      * apply (blanks_inert _ H2).
    + destruct (token_ends _ Tn) as [A _].
      assert (B : forall x l, match rev (x ++ "="%char :: quote_c :: l ++ [quote_c]) with d :: _ => is_space d = false | [] => False end).
      { intros x l. rewrite rev_app_distr. cbn [rev]. rewrite rev_app_distr. reflexivity. }
      rewrite strip_between; auto using blanks_space.
      * apply pair_of; auto.
        -- apply strip_self; [reflexivity|]. cbn [rev]. rewrite rev_app_distr. reflexivity.
        -- apply unquote_quoted.
           ++ intros I. destruct (Tv _ I) as [Q _]. now apply Q.
           ++ intros l1 l2 E. cbn [snd] in E. assert (I : In bslash (to_l v)) by (rewrite E; apply in_elt). destruct (Tv _ I) as [_ Q]. now apply Q.
      * destruct (to_l n); [destruct A|exact A].
      * apply B.
Qed.
Lemma concat_cons w ws : to_l (String.concat "" (w :: ws)) = to_l w ++ to_l (String.concat "" ws).
Proof. now rewrite !to_l_concat. Qed.
Lemma starts_semi ws params : Forall2 writes_param ws params ->
  match to_l (String.concat "" ws) with c :: _ => c = semi | [] => True end.
Proof.
  intros [|w p ws' params' Hp F]; [exact I|]. rewrite concat_cons. destruct (param_text _ _ Hp) as (l & -> & _). reflexivity.
Qed.
Lemma params_read ws params : Forall2 writes_param ws params -> forall n, length (to_l (String.concat "" ws)) <= n ->
  map param_pair (parse_params n (to_l (String.concat "" ws))) = map (fun p => Some (lowered (fst p), snd p)) params.
Proof.
  induction 1 as [|w p ws params Hp F IH]; intros n Hn.
  - destruct n; reflexivity.
  - rewrite concat_cons in *. destruct (param_text _ _ Hp) as (l & E & S & R). rewrite E in *. cbn [app] in *. cbn [length] in Hn.
    destruct n as [|n]; [lia|]. cbn [parse_params]. change (Ascii.eqb semi semi) with true. cbn iota.
    rewrite S by exact (starts_semi _ _ F). cbn [map]. rewrite R. f_equal. apply IH. rewrite app_length in Hn. lia.
Qed.
Lemma header_read line media params : writes_type line media params ->
  parse_header line = (media, fold_left (fun d p => assoc_set (fst p) (snd p) d) (map (fun p => (lowered (fst p), snd p)) params) []).
Proof.
  intros (b1 & b2 & ws & H1 & H2 & T & F & ->). unfold parse_header.
  set (line := (b1 ++ media ++ b2 ++ String.concat "" ws)%string).
  assert (EL : to_l line = (to_l b1 ++ to_l media ++ to_l b2) ++ to_l (String.concat "" ws))
    by (unfold line; rewrite !to_l_app; now rewrite <- !app_assoc).
  remember (S (String.length line)) as n eqn:En. cbn [parse_params]. change (Ascii.eqb semi semi) with true. cbn iota.
  rewrite EL, split_plain; [|..|exact (starts_semi _ _ F)].
  - rewrite strip_token by assumption. rewrite of_to. f_equal.
    assert (L : length (to_l (String.concat "" ws)) <= n).
    { rewrite En, <- length_to_l, EL, app_length. lia. }
    pose proof (params_read _ _ F n L) as R. clear -R.
    revert params R. generalize (@nil (string * string)) as d. generalize (parse_params n (to_l (String.concat "" ws))) as l.
    induction l as [|x l IH]; intros d [|p params] R; try discriminate R; [reflexivity|].
    cbn [map] in R. injection R as R1 R2. cbn [fold_left map]. rewrite R1. now apply IH.
  - intros c. rewrite !in_app_iff. intros [I | [I | I]].
    + now apply (blanks_inert _ H1).
    + now apply (token_inert _ T).
    + now apply (blanks_inert _ H2).
  - rewrite !in_app_iff. intros [I | [I | I]]; revert I.
    + apply (blanks_inert _ H1).
    + apply (token_inert _ T).
    + apply (blanks_inert _ H2).
Qed.
Lemma lower_two c l u : In (l, u) [("a", "A"); ("c", "C"); ("t", "T"); ("i", "I"); ("o", "O"); ("n", "N")]%char ->
  (lower_char c = l <-> In c [l; u]).
Proof.
  intros I. cbn [In] in I. repeat destruct I as [E | I]; try (injection E as <- <-); try destruct I;
    (destruct c as [[] [] [] [] [] [] [] []]; vm_compute; split; intros H; try discriminate H; try tauto; repeat destruct H as [H | H]; try discriminate H; destruct H).
Qed.
Lemma lowered_action n : lowered n = "action" <-> named_action n.
Proof.
  unfold lowered, named_action. rewrite <- (of_to "action"). 
  assert (E : of_l (map lower_char (to_l n)) = of_l (to_l "action") <-> map lower_char (to_l n) = to_l "action").
  { split; [|congruence]. intros H. apply (f_equal to_l) in H. now rewrite !to_of in H. }
  rewrite E. change (to_l "action") with ["a"; "c"; "t"; "i"; "o"; "n"]%char. split.
  - intros H. destruct (to_l n) as [|c1 [|c2 [|c3 [|c4 [|c5 [|c6 [|? ?]]]]]]]; try discriminate H. cbn [map] in H. injection H as H1 H2 H3 H4 H5 H6.
    apply (lower_two c1 "a" "A") in H1; [|cbn; tauto]. apply (lower_two c2 "c" "C") in H2; [|cbn; tauto]. apply (lower_two c3 "t" "T") in H3; [|cbn; tauto].
    apply (lower_two c4 "i" "I") in H4; [|cbn; tauto]. apply (lower_two c5 "o" "O") in H5; [|cbn; tauto]. apply (lower_two c6 "n" "N") in H6; [|cbn; tauto].
    repeat (constructor; [assumption|]). constructor.
  - intros H. inversion H as [|c1 ? m1 ? H1 F1]; subst; clear H. inversion F1 as [|c2 ? m2 ? H2 F2]; subst; clear F1. inversion F2 as [|c3 ? m3 ? H3 F3]; subst; clear F2.
    inversion F3 as [|c4 ? m4 ? H4 F4]; subst; clear F3. inversion F4 as [|c5 ? m5 ? H5 F5]; subst; clear F4. inversion F5 as [|c6 ? m6 ? H6 F6]; subst; clear F5. inversion F6; subst.
    cbn [map]. apply (lower_two c1 "a" "A") in H1; [|cbn; tauto]. apply (lower_two c2 "c" "C") in H2; [|cbn; tauto]. apply (lower_two c3 "t" "T") in H3; [|cbn; tauto].
    apply (lower_two c4 "i" "I") in H4; [|cbn; tauto]. apply (lower_two c5 "o" "O") in H5; [|cbn; tauto]. apply (lower_two c6 "n" "N") in H6; [|cbn; tauto]. congruence.
Qed.
Lemma last_set k (l : list (string * string)) : forall d a,
  assoc k (fold_left (fun d p => assoc_set (fst p) (snd p) d) l d) = Some a <->
  (exists l1 l2, l = l1 ++ (k, a) :: l2 /\ forall v, ~ In (k, v) l2) \/ (forall v, ~ In (k, v) l) /\ assoc k d = Some a.
Proof.
  induction l as [|[k1 v1] l IH]; intros d a; cbn [fold_left fst snd].
  - split; [intros H; right; split; [intros v []|exact H]|]. intros [(l1 & l2 & E & _) | [_ H]]; [destruct l1; discriminate E|exact H].
  - rewrite IH. split.
    + intros [(l1 & l2 & -> & N) | [N H]]; [left; exists ((k1, v1) :: l1), l2; split; [reflexivity|exact N]|].
      destruct (String.eqb_spec k k1) as [<- | Q].
      * rewrite assoc_set_same in H. injection H as <-. left. exists [], l. split; [reflexivity|exact N].
      * rewrite assoc_set_other in H by congruence. right. split; [|exact H]. intros v [E | I]; [injection E as E _; congruence|exact (N v I)].
    + intros [(l1 & l2 & E & N) | [N H]].
      * destruct l1 as [|[k2 v2] l1]; cbn [app] in E; injection E as -> -> ->.
        -- right. split; [exact N|apply assoc_set_same].
        -- left. exists l1, l2. now split.
      * right. split; [intros v I; apply (N v); now right|]. destruct (String.eqb_spec k k1) as [<- | Q]; [destruct (N v1); now left|].
        rewrite assoc_set_other by congruence. exact H.
Qed.
Lemma server12 env line media params a : env "CONTENT_TYPE" = Some line -> writes_type line media params ->
  determine_soap_action V12 env = Some a <-> media = "application/soap+xml" /\ action_param params a.
Proof.
  intros E C. unfold determine_soap_action. rewrite E, (header_read _ _ _ C).
  change (Soap.content_type V12) with "application/soap+xml". destruct (String.eqb_spec media "application/soap+xml") as [-> | Q].
  2: { split; [discriminate|]. intros [? _]. congruence. }
  rewrite last_set. unfold action_param. cbn [assoc]. split.
  - intros [(l1 & l2 & E1 & N) | [_ H]]; [|discriminate H]. split; [reflexivity|]. apply map_eq_app in E1 as (m1 & m2 & -> & _ & E1).
    destruct m2 as [|[n v] m2]; [discriminate E1|]. cbn [map fst snd] in E1. injection E1 as E1 <- <-.
    exists m1, n, m2. split; [reflexivity|]. split; [now apply lowered_action|]. intros n' v' I A. apply (N v').
    apply lowered_action in A. rewrite <- A. exact (in_map (fun p => (lowered (fst p), snd p)) _ _ I).
  - intros [_ (l1 & n & l2 & -> & A & N)]. left. apply lowered_action in A.
    exists (map (fun p => (lowered (fst p), snd p)) l1), (map (fun p => (lowered (fst p), snd p)) l2). split.
    + rewrite map_app. cbn [map fst snd]. now rewrite A.
    + intros v I. apply in_map_iff in I as ([n' v'] & E1 & I). injection E1 as E1 _. apply (N n' v' I). now apply lowered_action.
Qed.
Lemma without_quotes_spec s a : str_remove quote_c s = a <-> without_quotes s a.
Proof.
  unfold str_remove. split.
  - intros <-. induction s as [|c s IH]; [constructor|]. change (to_l (String c s)) with (c :: to_l s). cbn [filter].
    destruct (Ascii.eqb_spec c quote_c) as [-> | Q]; cbn [negb].
    + now constructor.
    + now apply wq_other.
  - induction 1 as [|s a _ IH|c s a N _ IH]; [reflexivity|exact IH|]. change (to_l (String c s)) with (c :: to_l s). cbn [filter].
    rewrite (proj2 (Ascii.eqb_neq c quote_c) N). cbn [negb]. change (of_l (c :: ?x)) with (String c (of_l x)). now rewrite IH.
Qed.
Lemma server11 env a :
  determine_soap_action V11 env = Some a <->
  exists s, (env "SOAPACTION" = Some s /\ s <> "" \/
             (env "SOAPACTION" = None \/ env "SOAPACTION" = Some "") /\ env "ACTION" = Some s /\ s <> "") /\ without_quotes s a.
Proof.
  unfold determine_soap_action. generalize (env "SOAPACTION") as o1, (env "ACTION") as o2. intros o1 o2.
  assert (T : forall o, truthy_str o = true -> exists s, o = Some s /\ s <> "").
  { intros [[|c s]|] H; try discriminate H. exists (String c s). now split. }
  assert (F : forall o, truthy_str o = false -> o = None \/ o = Some "") by (intros [[|c s]|] H; try discriminate H; auto).
  assert (R : forall s, option_map (str_remove quote_c) (Some s) = Some a <-> without_quotes s a).
  { intros s. rewrite <- without_quotes_spec. cbn [option_map]. split; [now injection 1|now intros ->]. }
  destruct (truthy_str o1) eqn:E1; [|destruct (truthy_str o2) eqn:E2].
  - destruct (T _ E1) as (s1 & -> & N1). rewrite R. split; [intros H; exists s1; auto|].
    intros (s & [[E _] | [[E | E] _]] & H); [injection E as <-; exact H|discriminate E|congruence].
  - destruct (T _ E2) as (s2 & -> & N2). rewrite R. split; [intros H; exists s2; auto|].
    intros (s & [[-> N] | [_ [E _]]] & H); [|injection E as <-; exact H]. destruct (F _ E1) as [E | E]; congruence.
  - split; [discriminate|]. intros (s & [[-> N] | [_ [-> N]]] & H); [destruct (F _ E1) as [E | E]|destruct (F _ E2) as [E | E]]; congruence.
Qed.
