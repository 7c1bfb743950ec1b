(** Proofs about String, Boolean, Decimal, Integer, MaxOccurs. *)
From Coq Require Import String Ascii List ZArith NArith Bool QArith Lia.
From Verif Require Import PyBase PfBase PyRe PfRe Xml PyVal XsdDate XsdSimple SpecSimple.
Import ListNotations.
Open Scope Z_scope.

(** ** White space *)

Lemma replace_spec l : ws_replaced l (ws_replace l).
Proof.
  induction l as [|c l IH]; simpl; constructor; auto. destruct (is_space c); reflexivity.
Qed.
Lemma replace_unique l l' : ws_replaced l l' -> l' = ws_replace l.
Proof.
  induction 1 as [|c c' l l' H _ IH]; simpl; [reflexivity|]. subst.
  destruct (is_space c); now subst.
Qed.

Lemma collapse_spec_gen l :
  ws_collapsed l (ws_collapse false l) /\
  (forall w, w <> [] -> forallb is_space w = true ->
     ws_collapsed (w ++ l) (space :: ws_collapse true l)).
Proof.
  induction l as [|c l [IH1 IH2]].
  - split; [constructor|]. intros w Hw Hs. apply wc_run; auto. constructor.
  - simpl. destruct (is_space c) eqn:E.
    + split.
      * apply (IH2 [c]); [discriminate|]. simpl. now rewrite E.
      * intros w Hw Hs. change (c :: l) with ([c] ++ l). rewrite app_assoc. apply IH2.
        -- destruct w; discriminate.
        -- rewrite forallb_app, Hs. simpl. now rewrite E.
    + split.
      * now constructor.
      * intros w Hw Hs. apply wc_run; auto. now constructor.
Qed.
Lemma collapse_spec l : ws_collapsed l (ws_collapse false l).
Proof. apply collapse_spec_gen. Qed.

Lemma collapse_true_nows l : starts_with_ws l = false -> ws_collapse true l = ws_collapse false l.
Proof. destruct l as [|c l]; simpl; [reflexivity|]. now intros ->. Qed.
Lemma collapse_run_true w l : forallb is_space w = true -> ws_collapse true (w ++ l) = ws_collapse true l.
Proof.
  induction w as [|c w IH]; simpl; [reflexivity|]. intros H.
  apply andb_true_iff in H as [-> H]. auto.
Qed.
Lemma collapse_unique l l' : ws_collapsed l l' -> l' = ws_collapse false l.
Proof.
  induction 1 as [|c l l' Hc _ IH|w l l' Hw Hs Hn _ IH]; simpl.
  - reflexivity.
  - rewrite Hc. now f_equal.
  - destruct w as [|c w]; [congruence|]. simpl in *. apply andb_true_iff in Hs as [-> Hs].
    rewrite collapse_run_true by assumption. rewrite collapse_true_nows by assumption.
    now f_equal.
Qed.

Lemma clean_ws_spec ws s : ws_normal ws s (clean_ws ws s).
Proof.
  unfold ws_normal, clean_ws. destruct ws as [w|]; [|reflexivity].
  destruct (String.eqb_spec w "preserve") as [->|Hp]; [reflexivity|].
  destruct (String.eqb w "replace"); [rewrite to_of; apply replace_spec|].
  destruct (String.eqb w "collapse"); [|reflexivity].
  rewrite to_of. apply collapse_spec.
Qed.
Lemma clean_ws_unique ws s s' : ws_normal ws s s' -> s' = clean_ws ws s.
Proof.
  unfold ws_normal, clean_ws. destruct ws as [w|]; [|auto].
  destruct (String.eqb_spec w "preserve") as [->|Hp]; [auto|].
  destruct (String.eqb w "replace").
  { intros H. apply to_l_inj. rewrite to_of. now apply replace_unique. }
  destruct (String.eqb w "collapse"); [|auto].
  intros H. apply to_l_inj. rewrite to_of. now apply collapse_unique.
Qed.

Lemma is_space_space : is_space space = true.
Proof. reflexivity. Qed.

Lemma replace_idem l : ws_replace (ws_replace l) = ws_replace l.
Proof.
  unfold ws_replace. rewrite map_map. apply map_ext. intros c.
  destruct (is_space c) eqn:E; [reflexivity|]. now rewrite E.
Qed.
Lemma replace_only_space l c : In c (ws_replace l) -> is_space c = true -> c = space.
Proof.
  unfold ws_replace. rewrite in_map_iff. intros (x & <- & _).
  destruct (is_space x) eqn:E; congruence.
Qed.
Lemma replace_length l : length (ws_replace l) = length l.
Proof. apply map_length. Qed.

Lemma replace_nonws l : nonws (ws_replace l) = nonws l.
Proof.
  unfold nonws. induction l as [|c l IH]; simpl; [reflexivity|].
  destruct (is_space c) eqn:E; simpl; [assumption|]. rewrite E. simpl. now f_equal.
Qed.
Lemma collapse_nonws l : forall b, nonws (ws_collapse b l) = nonws l.
Proof.
  unfold nonws. induction l as [|c l IH]; intros b; simpl; [reflexivity|].
  destruct (is_space c) eqn:E; simpl.
  - destruct b; simpl; auto.
  - rewrite E. simpl. now rewrite IH.
Qed.
Lemma collapse_only_space l : forall b c, In c (ws_collapse b l) -> is_space c = true -> c = space.
Proof.
  induction l as [|x l IH]; intros b c; simpl; [intros []|].
  destruct (is_space x) eqn:E.
  - destruct b; simpl; [apply IH|]. intros [<-|H]; auto. now apply IH with true.
  - simpl. intros [<-|H]; [congruence|]. now apply IH with false.
Qed.

Lemma collapse_no_double l : forall b,
  no_double (ws_collapse b l) /\ (b = true -> starts_with_ws (ws_collapse b l) = false).
Proof.
  induction l as [|x l IH]; intros b; simpl; [auto|].
  destruct (is_space x) eqn:E.
  - destruct b.
    + apply IH.
    + split; [|discriminate]. destruct (IH true) as [H1 H2]. specialize (H2 eq_refl).
      simpl. destruct (ws_collapse true l) as [|d t]; auto. split; auto.
      simpl in H2. congruence.
  - split; [|simpl; auto]. destruct (IH false) as [H1 _].
    simpl. destruct (ws_collapse false l) as [|d t]; auto. split; auto. congruence.
Qed.
Lemma collapse_fix l :
  (forall c, In c l -> is_space c = true -> c = space) ->
  forall b, no_double l -> (b = true -> starts_with_ws l = false) -> ws_collapse b l = l.
Proof.
  induction l as [|c l IH]; intros Hs b Hd Hb; simpl; [reflexivity|].
  destruct (is_space c) eqn:E.
  - destruct b; [simpl in Hb; specialize (Hb eq_refl); congruence|].
    rewrite (Hs c (or_introl eq_refl) E). f_equal. apply IH.
    + intros; apply Hs; simpl; auto.
    + destruct l; simpl in *; tauto.
    + intros _. destruct l as [|d t]; [reflexivity|]. simpl in *.
      destruct (is_space d) eqn:D; auto. destruct Hd as [Hd _]. exfalso; auto.
  - f_equal. apply IH.
    + intros; apply Hs; simpl; auto.
    + destruct l; simpl in *; tauto.
    + discriminate.
Qed.
Lemma collapse_idem l : ws_collapse false (ws_collapse false l) = ws_collapse false l.
Proof.
  apply collapse_fix.
  - intros c. apply collapse_only_space.
  - apply collapse_no_double.
  - discriminate.
Qed.
Lemma clean_ws_idem ws s : clean_ws ws (clean_ws ws s) = clean_ws ws s.
Proof.
  unfold clean_ws. destruct ws as [w|]; [|reflexivity].
  destruct (String.eqb w "preserve"); [reflexivity|].
  destruct (String.eqb w "replace"); [now rewrite to_of, replace_idem|].
  destruct (String.eqb w "collapse"); [|reflexivity]. now rewrite to_of, collapse_idem.
Qed.

(** ** String.accept *)

Lemma check_int_ok f bad : f <> Some 0 ->
  (check_int f bad = Ok tt <-> forall n, f = Some n -> bad n = false)
  /\ (check_int f bad <> Ok tt -> check_int f bad = Err ValueError).
Proof.
  intros H. unfold check_int. destruct f as [n|]; [|now split].
  destruct (Z.eqb_spec n 0); [congruence|].
  destruct (bad n) eqn:E; split; try tauto.
  - split; [discriminate|]. intros C. rewrite C in E by reflexivity. discriminate.
  - split; [|reflexivity]. intros _ m [= <-]. assumption.
Qed.

Lemma res_unit_cases (r : res unit) :
  r = Ok tt \/ exists e, r = Err e.
Proof. destruct r as [[]|e]; eauto. Qed.

Lemma str_accept_str f s : facets_proper f -> exists b : bool,
  str_accept f (VStr s) = (if b then Ok (VStr (clean_ws (sf_ws f) s)) else Err ValueError)
  /\ (b = true <-> facets_sat f (clean_ws (sf_ws f) s)).
Proof.
  intros (Pe & Pl & Pmin & Pmax & Pp). cbn [str_accept].
  set (s' := clean_ws (sf_ws f) s). unfold facets_sat.
  (* pattern *)
  assert (Gp : (sf_pattern f = None \/ exists r, sf_pattern f = Some r) ) by (destruct (sf_pattern f); eauto).
  assert (Hpat : exists b, (match sf_pattern f with
       | None => Ok tt
       | Some r => if re_match (append_dollar r) s' then Ok tt else Err ValueError
       end = if b : bool then Ok tt else Err ValueError)
       /\ (b = true <-> forall r, sf_pattern f = Some r -> pattern_sat r s')).
  { destruct (sf_pattern f) as [r|].
    - exists (re_match (append_dollar r) s'). split; [reflexivity|].
      rewrite (match_dollar_no_alt r s' (Pp r eq_refl)). unfold pattern_sat.
      split; [intros H r' [= <-]; exact H | auto].
    - exists true. split; [reflexivity|]. split; [discriminate|reflexivity]. }
  assert (Hen : exists b, (match sf_enum f with
       | None => Ok tt | Some [] => Ok tt
       | Some l => if str_in s' l then Ok tt else Err ValueError
       end = if b : bool then Ok tt else Err ValueError)
       /\ (b = true <-> forall l, sf_enum f = Some l -> In s' l)).
  { destruct (sf_enum f) as [[|x l]|].
    - congruence.
    - exists (str_in s' (x :: l)). split; [reflexivity|]. rewrite str_in_spec.
      split; [intros H l' [= <-]; exact H | auto].
    - exists true. split; [reflexivity|]. split; [discriminate|reflexivity]. }
  assert (Hci : forall g bad, g <> Some 0 -> exists b,
       (check_int g bad = if b : bool then Ok tt else Err ValueError)
       /\ (b = true <-> forall n, g = Some n -> bad n = false)).
  { intros g bad Hg. destruct (check_int_ok g bad Hg) as [A B].
    destruct (res_unit_cases (check_int g bad)) as [E|(e & E)].
    - exists true. split; [assumption|]. split; auto. intros _. now apply A.
    - exists false. split; [apply B; rewrite E; discriminate|].
      split; [discriminate|]. intros H. apply A in H. rewrite E in H. discriminate. }
  destruct Hpat as (b1 & -> & I1). destruct Hen as (b2 & -> & I2).
  destruct (Hci _ (fun n => negb (slen s' =? n)) Pl) as (b3 & -> & I3).
  destruct (Hci _ (fun n => (slen s' <? n)) Pmin) as (b4 & -> & I4).
  destruct (Hci _ (fun n => (n <? slen s')) Pmax) as (b5 & -> & I5).
  assert (J3 : b3 = true <-> forall n, sf_length f = Some n -> slen s' = n).
  { rewrite I3. split; intros H n Hn; specialize (H n Hn).
    - apply negb_false_iff, Z.eqb_eq in H. assumption.
    - apply negb_false_iff, Z.eqb_eq. assumption. }
  assert (J4 : b4 = true <-> forall n, sf_minLength f = Some n -> n <= slen s').
  { rewrite I4. split; intros H n Hn; specialize (H n Hn); [apply Z.ltb_ge in H | apply Z.ltb_ge]; lia. }
  assert (J5 : b5 = true <-> forall n, sf_maxLength f = Some n -> slen s' <= n).
  { rewrite I5. split; intros H n Hn; specialize (H n Hn); [apply Z.ltb_ge in H | apply Z.ltb_ge]; lia. }
  exists (b1 && b2 && b3 && b4 && b5). split.
  - destruct b1, b2, b3, b4, b5; reflexivity.
  - rewrite !andb_true_iff. tauto.
Qed.

(** ** Boolean *)

Lemma bool_accept_bool b : bool_accept (VBool b) = Ok (VBool b).
Proof. destruct b; reflexivity. Qed.

(** ** Integers *)

Lemma dec_Z_chars z c : In c (to_l (dec_Z z)) -> is_digit c = true \/ c = "-"%char.
Proof.
  destruct z as [|p|p]; unfold dec_Z.
  - intros [<-|[]]. now left.
  - unfold dec_N. rewrite to_of. intros H. left.
    pose proof (dec_l_digits (N.pos p)) as D. rewrite forallb_forall in D. auto.
  - unfold dec_N. change (to_l (String "-" (of_l (dec_l (N.pos p))))) with
      ("-"%char :: to_l (of_l (dec_l (N.pos p)))). rewrite to_of.
    intros [<-|H]; [now right|]. left.
    pose proof (dec_l_digits (N.pos p)) as D. rewrite forallb_forall in D. auto.
Qed.

Lemma dec_Z_no_dot z : char_in "." (dec_Z z) = false.
Proof.
  destruct (char_in "." (dec_Z z)) eqn:E; [|reflexivity].
  apply char_in_spec in E. apply dec_Z_chars in E as [E|E]; discriminate.
Qed.

Lemma rm_star_set p l : forall b, forallb p l = true -> exists b', rm (RStar (RSet p)) (b, l) (b', []).
Proof.
  induction l as [|c l IH]; intros b H.
  - exists b. constructor.
  - simpl in H. apply andb_true_iff in H as [Hc Hl]. destruct (IH false Hl) as (b' & Hb).
    exists b'. eapply rm_star_cons; [constructor; exact Hc | exact Hb].
Qed.
Lemma rm_plus_set p l : forall b, l <> [] -> forallb p l = true ->
  exists b', rm (r_plus (RSet p)) (b, l) (b', []).
Proof.
  intros b Hn H. destruct l as [|c l]; [congruence|].
  simpl in H. apply andb_true_iff in H as [Hc Hl].
  destruct (rm_star_set p l false Hl) as (b' & Hb). exists b'.
  unfold r_plus. econstructor; [constructor; exact Hc | exact Hb].
Qed.

Lemma int_pattern_dec z : full_match int_pattern (to_l (dec_Z z)).
Proof.
  unfold full_match, int_pattern.
  assert (G : forall b n, exists b', rm (r_plus (RSet (in_range 48 57))) (b, dec_l n) (b', [])).
  { intros b n. apply rm_plus_set; [apply dec_l_nonnil | apply dec_l_digits]. }
  assert (Opt : forall l, rm (r_opt (RSet (fun c => Ascii.eqb c "-" || Ascii.eqb c "+")))
                           (true, l) (true, l)).
  { intros l. unfold r_opt. constructor. apply rm_alt_r. constructor. }
  destruct z as [|p|p]; unfold dec_Z.
  - destruct (G true 0%N) as (b' & H). exists b'. econstructor; [apply Opt | exact H].
  - unfold dec_N. rewrite to_of. destruct (G true (N.pos p)) as (b' & H).
    exists b'. econstructor; [apply Opt | exact H].
  - unfold dec_N. change (to_l (String "-" (of_l (dec_l (N.pos p))))) with
      ("-"%char :: to_l (of_l (dec_l (N.pos p)))). rewrite to_of.
    destruct (G false (N.pos p)) as (b' & H). exists b'. econstructor.
    + unfold r_opt. constructor. apply rm_alt_l. constructor. reflexivity.
    + exact H.
Qed.

Lemma int_pattern_match z : re_match (append_dollar int_pattern) (dec_Z z) = true.
Proof. apply match_dollar_no_alt; [reflexivity|]. left. apply int_pattern_dec. Qed.

Lemma int_pattern_bool b : re_match (append_dollar int_pattern) (if b : bool then "True" else "False") = false.
Proof. destruct b; reflexivity. Qed.

Lemma Zeq_bool_eqb a b : Zeq_bool a b = (a =? b).
Proof.
  destruct (Z.eqb_spec a b) as [->|H].
  - now apply Zeq_is_eq_bool.
  - destruct (Zeq_bool a b) eqn:E; [|reflexivity]. apply Zeq_bool_eq in E. congruence.
Qed.
Lemma num_eqb_Z a b : num_eqb (NFin (inject_Z a)) (NFin (inject_Z b)) = (a =? b).
Proof. unfold num_eqb, Qeq_bool, inject_Z. cbn [Qnum Qden]. rewrite !Z.mul_1_r. apply Zeq_bool_eqb. Qed.

Lemma py_ltb_Z a b : py_ltb (VInt a) (VInt b) = Ok (a <? b).
Proof.
  unfold py_ltb, num_of. f_equal. unfold num_ltb, num_leb, num_eqb, Qle_bool, Qeq_bool, inject_Z.
  cbn [Qnum Qden]. rewrite !Z.mul_1_r, Zeq_bool_eqb. 
  destruct (Z.leb_spec a b), (Z.eqb_spec a b), (Z.ltb_spec a b); auto; lia.
Qed.
Lemma py_leb_Z a b : py_leb (VInt a) (VInt b) = Ok (a <=? b).
Proof.
  unfold py_leb, num_of. f_equal. unfold num_leb, Qle_bool, inject_Z. cbn [Qnum Qden].
  now rewrite !Z.mul_1_r.
Qed.

(** Effective facets of each class: range, fraction digits, pattern. *)
Lemma mk_integer_fields c u :
  df_enum (mk_integer c u) = df_enum u /\ df_fraction (mk_integer c u) = Some 0
  /\ df_maxEx (mk_integer c u) = df_maxEx u /\ df_minEx (mk_integer c u) = df_minEx u
  /\ df_total (mk_integer c u) = df_total u /\ df_pattern (mk_integer c u) = Some int_pattern
  /\ df_maxIn (mk_integer c u) = match int_hi c with Some h => Some (VInt h) | None => df_maxIn u end
  /\ df_minIn (mk_integer c u) = match int_lo c with Some l => Some (VInt l) | None => df_minIn u end.
Proof. destruct c; cbn; repeat split. Qed.

Definition in_int_rangeb (c : intcls) (z : Z) : bool :=
  (match int_lo c with Some b => b <=? z | None => true end)
  && (match int_hi c with Some b => z <=? b | None => true end).
Lemma in_int_rangeb_spec c z : in_int_rangeb c z = true <-> in_int_range c z.
Proof.
  unfold in_int_rangeb, in_int_range. rewrite andb_true_iff.
  destruct (int_lo c) as [l|], (int_hi c) as [h|]; rewrite ?Z.leb_le;
    (split; [intros [A B]; split; intros b [= <-]; assumption
            | intros [A B]; split; try reflexivity; auto]).
Qed.

Lemma integer_check O c z :
  check_restrictions O (mk_integer c no_dfacets) (VInt z)
  = if in_int_rangeb c z then Ok tt else Err ValueError.
Proof.
  destruct (mk_integer_fields c no_dfacets) as (E1 & E2 & E3 & E4 & E5 & E6 & E7 & E8).
  unfold check_restrictions. rewrite E1, E2, E3, E4, E5, E6, E7, E8.
  cbn [df_enum df_maxEx df_minEx df_total df_maxIn df_minIn no_dfacets check_opt bind].
  unfold bad_fraction. cbn [Z.eqb py_str]. rewrite dec_Z_no_dot, int_pattern_match. cbn [bind negb].
  unfold in_int_rangeb.
  destruct (int_hi c) as [h|], (int_lo c) as [l|]; cbn [check_opt bind];
    rewrite ?py_ltb_Z; cbn [bind].
  - destruct (Z.ltb_spec h z), (Z.leb_spec z h); try lia; cbn [bind];
      rewrite ?andb_false_r, ?andb_true_r; auto.
    destruct (Z.ltb_spec z l), (Z.leb_spec l z); try lia; reflexivity.
  - destruct (Z.ltb_spec h z), (Z.leb_spec z h); try lia; reflexivity.
  - rewrite andb_true_r. destruct (Z.ltb_spec z l), (Z.leb_spec l z); try lia; reflexivity.
  - reflexivity.
Qed.

Lemma integer_accept_int O c z :
  st_accept O (SInteger c no_dfacets) (VInt z)
  = if in_int_rangeb c z then Ok (VInt z) else Err ValueError.
Proof.
  cbn [st_accept integer_accept bind]. rewrite integer_check. destruct (in_int_rangeb c z); reflexivity.
Qed.

Lemma int_of_str_err s e : int_of_str s = Err e -> e = ValueError.
Proof.
  unfold int_of_str. cbv zeta.
  match goal with |- match ?r with _ => _ end = _ -> _ => destruct r end;
    [discriminate|]. now intros [= <-].
Qed.

Lemma dec_Z_head z : exists c t, dec_Z z = String c t /\ (is_digit c = true \/ c = "-"%char).
Proof.
  destruct (dec_Z z) as [|c t] eqn:E.
  - destruct z; try discriminate. unfold dec_Z, dec_N in E.
    destruct (dec_l (N.pos p)) eqn:D; [|discriminate]. now apply dec_l_nonnil in D.
  - exists c, t. split; [reflexivity|]. apply (dec_Z_chars z). rewrite E. now left.
Qed.
Lemma dec_Z_neq z s : (match s with String c _ => is_digit c = false /\ c <> "-"%char | "" => True end) ->
  dec_Z z <> s.
Proof.
  intros H E. destruct (dec_Z_head z) as (c & t & E' & [D|D]); rewrite E' in E; subst s;
    destruct H as [H1 H2]; congruence.
Qed.

Lemma decimal_pythonvalue_nonnil accept s : s <> "nil"%string ->
  decimal_pythonvalue accept (VStr s) = accept (VStr s).
Proof.
  intros H. unfold decimal_pythonvalue.
  destruct (String.eqb_spec s "nil") as [->|N]; [congruence|].
  repeat match goal with |- context [match ?x with _ => _ end] =>
    first [ destruct x as [|[[] [] [] [] [] [] [] []] ?]; try reflexivity ] end; congruence.
Qed.

(** ** int(str) against the literal grammar *)

Definition dfold (acc : N) (l : list ascii) : N :=
  fold_left (fun a c => a * 10 + digit_val c)%N l acc.

Lemma int_body_app g : forall r acc p, g <> [] -> forallb is_digit g = true ->
  int_body (g ++ r) acc p = int_body r (dfold acc g) true.
Proof.
  induction g as [|c g IH]; intros r acc p Hn H; [congruence|].
  simpl in H. apply andb_true_iff in H as [Hc Hg]. simpl. rewrite Hc.
  destruct g as [|c' g]; [reflexivity|]. rewrite IH; auto. discriminate.
Qed.

Lemma int_body_groups gs : forall acc p, int_groups gs ->
  int_body (join_us gs) acc p = Some (dfold acc (concat gs)).
Proof.
  induction gs as [|g t IH]; intros acc p [Hn Hf]; [congruence|].
  inversion Hf as [|? ? [Hg1 Hg2] Ht]; subst.
  destruct t as [|g2 t].
  - simpl. rewrite app_nil_r. apply int_body_digits; auto.
  - change (join_us (g :: g2 :: t)) with (g ++ "_"%char :: join_us (g2 :: t)).
    rewrite int_body_app by assumption.
    change (int_body ("_"%char :: join_us (g2 :: t)) (dfold acc g) true)
      with (int_body (join_us (g2 :: t)) (dfold acc g) false).
    rewrite IH by (split; [discriminate | assumption]).
    change (concat (g :: g2 :: t)) with (g ++ concat (g2 :: t)).
    unfold dfold. now rewrite fold_left_app.
Qed.

Lemma join_us_cons g gs : join_us (g :: gs) = g ++ concat (map (cons "_"%char) gs).
Proof.
  revert g. induction gs as [|g2 gs IH]; intros g.
  - simpl. now rewrite app_nil_r.
  - change (join_us (g :: g2 :: gs)) with (g ++ "_"%char :: join_us (g2 :: gs)).
    rewrite IH. reflexivity.
Qed.

Lemma int_body_inv l : forall acc p n, int_body l acc p = Some n ->
  exists d gs, (p = false -> d <> []) /\ forallb is_digit d = true /\
    Forall (fun g => g <> [] /\ forallb is_digit g = true) gs /\
    l = d ++ concat (map (cons "_"%char) gs) /\ n = dfold acc (d ++ concat gs).
Proof.
  induction l as [|c l IH]; intros acc p n; simpl.
  - destruct p; [|discriminate]. intros [= <-]. exists [], [].
    split; [discriminate|]. split; [reflexivity|]. split; [constructor|]. split; reflexivity.
  - destruct (is_digit c) eqn:Ec.
    + intros H. apply IH in H as (d & gs & _ & Hd & Hf & -> & ->).
      exists (c :: d), gs. split; [discriminate|]. simpl. rewrite Ec. auto.
    + destruct (Ascii.eqb_spec c "_") as [->|N]; [|discriminate].
      destruct p; [|discriminate]. simpl. intros H.
      apply IH in H as (d & gs & Hp & Hd & Hf & -> & ->).
      exists [], (d :: gs). split; [discriminate|]. split; [reflexivity|].
      split; [constructor; auto|]. split; reflexivity.
Qed.

Lemma int_body_iff l n : int_body l 0 false = Some n <->
  exists gs, int_groups gs /\ l = join_us gs /\ n = digits_value (concat gs).
Proof.
  split.
  - intros H. apply int_body_inv in H as (d & gs & Hp & Hd & Hf & -> & ->).
    exists (d :: gs). split; [split; [discriminate | constructor; auto]|].
    split; [symmetry; apply join_us_cons | reflexivity].
  - intros (gs & Hg & -> & ->). now apply int_body_groups.
Qed.

Lemma lstrip_split p l : exists w, l = w ++ lstrip_l p l /\ forallb p w = true.
Proof.
  induction l as [|c l (w & E & Hw)]; simpl.
  - now exists [].
  - destruct (p c) eqn:Ec.
    + exists (c :: w). simpl. rewrite Ec, Hw. split; [now f_equal | reflexivity].
    + now exists [].
Qed.
Lemma strip_split p l : exists w1 w2, l = w1 ++ strip_l p l ++ w2 /\
  forallb p w1 = true /\ forallb p w2 = true.
Proof.
  destruct (lstrip_split p l) as (w1 & E1 & H1).
  destruct (lstrip_split p (rev (lstrip_l p l))) as (w2 & E2 & H2).
  exists w1, (rev w2). split; [|split; [assumption | now rewrite forallb_rev]].
  rewrite E1 at 1. f_equal. unfold strip_l.
  rewrite <- (rev_involutive (lstrip_l p l)) at 1. rewrite E2 at 1. apply rev_app_distr.
Qed.
Lemma lstrip_app p w l : forallb p w = true -> lstrip_l p (w ++ l) = lstrip_l p l.
Proof.
  induction w as [|c w IH]; simpl; [reflexivity|]. intros H.
  apply andb_true_iff in H as [-> H]. auto.
Qed.
Lemma strip_app p w1 m w2 : forallb p w1 = true -> forallb p w2 = true -> m <> [] ->
  match m with c :: _ => p c = false | [] => True end ->
  match rev m with c :: _ => p c = false | [] => True end ->
  strip_l p (w1 ++ m ++ w2) = m.
Proof.
  intros H1 H2 Hn Hh Hl. unfold strip_l. rewrite lstrip_app by assumption.
  rewrite (lstrip_id p (m ++ w2)) by (destruct m; [congruence | exact Hh]).
  rewrite rev_app_distr, lstrip_app by (now rewrite forallb_rev).
  rewrite lstrip_id by assumption. apply rev_involutive.
Qed.

Lemma int_groups_head gs : int_groups gs ->
  exists c t, join_us gs = c :: t /\ is_digit c = true.
Proof.
  intros [Hn Hf]. destruct gs as [|g gs]; [congruence|]. rewrite join_us_cons.
  inversion Hf as [|? ? [Hg Hd] _]; subst. destruct g as [|c g]; [congruence|].
  simpl in Hd. apply andb_true_iff in Hd as [Hc _]. exists c. eexists. split; [reflexivity|auto].
Qed.
Lemma int_groups_last gs : int_groups gs ->
  exists t c, join_us gs = t ++ [c] /\ is_digit c = true.
Proof.
  intros [Hn Hf]. induction gs as [|g gs IH]; [congruence|].
  inversion Hf as [|? ? [Hg Hd] Hf']; subst.
  destruct gs as [|g2 gs].
  - simpl. destruct (exists_last Hg) as (t & c & ->). exists t, c. split; [reflexivity|].
    rewrite forallb_app in Hd. apply andb_true_iff in Hd as [_ Hd]. simpl in Hd.
    now rewrite andb_true_r in Hd.
  - destruct (IH ltac:(discriminate) Hf') as (t & c & E & Hc).
    exists (g ++ "_"%char :: t), c. split; [|assumption].
    change (join_us (g :: g2 :: gs)) with (g ++ "_"%char :: join_us (g2 :: gs)).
    rewrite E, <- app_assoc. reflexivity.
Qed.

Lemma sign_match {A} c (t : list ascii) (x y z : A) : c <> "-"%char -> c <> "+"%char ->
  match c :: t with "-"%char :: _ => x | "+"%char :: _ => y | _ => z end = z.
Proof. intros. destruct c as [[] [] [] [] [] [] [] []]; auto; congruence. Qed.

Lemma int_of_str_iff s z : int_of_str s = Ok z <-> int_text s z.
Proof.
  split.
  - unfold int_of_str. destruct (strip_split is_int_space (to_l s)) as (w1 & w2 & E & H1 & H2).
    set (l := strip_l is_int_space (to_l s)) in *. cbv zeta. intros H.
    assert (G : exists sg rest n, l = sg ++ rest /\ int_body rest 0 false = Some n /\
        ((sg = [] /\ z = Z.of_N n) \/ (sg = ["+"%char] /\ z = Z.of_N n)
         \/ (sg = ["-"%char] /\ z = - Z.of_N n))).
    { destruct l as [|c t]; [discriminate|].
      destruct (Ascii.eqb_spec c "-") as [->|N1].
      { destruct (int_body t 0 false) as [n|] eqn:B; [|discriminate].
        injection H as <-. exists ["-"%char], t, n. auto 10. }
      destruct (Ascii.eqb_spec c "+") as [->|N2].
      { destruct (int_body t 0 false) as [n|] eqn:B; [|discriminate].
        injection H as <-. exists ["+"%char], t, n. auto 10. }
      rewrite (sign_match c t (option_map (fun n => (- Z.of_N n)%Z) (int_body t 0 false))
             (option_map Z.of_N (int_body t 0 false))) in H by assumption.
      destruct (int_body (c :: t) 0 false) as [n|] eqn:B; [|discriminate].
      injection H as <-. exists [], (c :: t), n. auto 10. }
    destruct G as (sg & rest & n & El & B & Hz).
    apply int_body_iff in B as (gs & Hg & -> & ->).
    exists w1, sg, gs, w2. rewrite E, El, <- !app_assoc. auto.
  - intros (w1 & sg & gs & w2 & E & H1 & H2 & Hg & Hz).
    pose proof (proj2 (int_body_iff (join_us gs) _) (ex_intro _ gs (conj Hg (conj eq_refl eq_refl)))) as B.
    destruct (int_groups_head gs Hg) as (c & t & Eh & Hc).
    destruct (int_groups_last gs Hg) as (t' & c' & El & Hc').
    assert (S : strip_l is_int_space (to_l s) = sg ++ join_us gs).
    { rewrite E. replace (w1 ++ sg ++ join_us gs ++ w2) with (w1 ++ (sg ++ join_us gs) ++ w2)
        by (now rewrite <- !app_assoc).
      apply strip_app; auto.
      - rewrite Eh. destruct sg; discriminate.
      - destruct Hz as [[-> _]|[[-> _]|[-> _]]]; simpl; auto.
        rewrite Eh. now apply digit_not_space.
      - rewrite rev_app_distr, El, rev_app_distr. simpl. now apply digit_not_space. }
    unfold int_of_str. rewrite S. cbv zeta.
    destruct Hz as [[-> ->]|[[-> ->]|[-> ->]]].
    + cbn [app]. rewrite Eh in *.
      rewrite (sign_match c t (option_map (fun n => (- Z.of_N n)%Z) (int_body t 0 false))
             (option_map Z.of_N (int_body t 0 false))).
      * rewrite B. reflexivity.
      * intros ->. discriminate.
      * intros ->. discriminate.
    + cbn [app]. rewrite B. reflexivity.
    + cbn [app]. rewrite B. reflexivity.
Qed.

Lemma int_of_str_cases s : (exists z, int_of_str s = Ok z) \/ int_of_str s = Err ValueError.
Proof.
  destruct (int_of_str s) as [z|e] eqn:E; [left; eauto|]. right.
  now rewrite (int_of_str_err s e E).
Qed.

(** ** Integers: texts *)

Lemma integer_text O c s : s <> "nil"%string ->
  st_pythonvalue O (SInteger c no_dfacets) (VStr s)
  = match int_of_str s with
    | Ok z => if in_int_rangeb c z then Ok (VInt z) else Err ValueError
    | Err e => Err ValueError
    end.
Proof.
  intros H. cbn [st_pythonvalue]. rewrite decimal_pythonvalue_nonnil by assumption.
  cbn [integer_accept]. destruct (int_of_str s) as [z|e] eqn:E; cbn [res_map bind].
  - rewrite integer_check. destruct (in_int_rangeb c z); reflexivity.
  - now rewrite (int_of_str_err s e E).
Qed.

Lemma int_text_nil z : ~ int_text "nil" z.
Proof. rewrite <- int_of_str_iff. vm_compute. discriminate. Qed.

Lemma integer_roundtrip O c z : in_int_range c z ->
  exists text, st_xmlvalue O (SInteger c no_dfacets) (VInt z) = Ok (VStr text) /\
    st_pythonvalue O (SInteger c no_dfacets) (VStr text) = Ok (VInt z).
Proof.
  intros H. exists (dec_Z z). split; [reflexivity|].
  rewrite integer_text.
  - rewrite int_of_dec_Z. apply in_int_rangeb_spec in H. now rewrite H.
  - apply dec_Z_neq. split; [reflexivity | discriminate].
Qed.

Lemma integer_text_ok O c s v :
  st_pythonvalue O (SInteger c no_dfacets) (VStr s) = Ok v <->
  (s = "nil"%string /\ v = VNone) \/ (exists z, int_text s z /\ in_int_range c z /\ v = VInt z).
Proof.
  destruct (String.eqb_spec s "nil") as [->|N].
  - split.
    + intros H. left. cbn in H. split; congruence.
    + intros [[_ ->]|(z & H & _)]; [reflexivity|]. now apply int_text_nil in H.
  - rewrite integer_text by assumption. split.
    + destruct (int_of_str s) as [z|e] eqn:E; [|discriminate].
      destruct (in_int_rangeb c z) eqn:R; [|discriminate]. intros [= <-].
      right. exists z. split; [now apply int_of_str_iff|]. split; [now apply in_int_rangeb_spec | reflexivity].
    + intros [[C _]|(z & H & R & ->)]; [congruence|].
      apply int_of_str_iff in H. rewrite H. apply in_int_rangeb_spec in R. now rewrite R.
Qed.
Lemma integer_text_err O c s e :
  st_pythonvalue O (SInteger c no_dfacets) (VStr s) = Err e -> e = ValueError.
Proof.
  destruct (String.eqb_spec s "nil") as [->|N]; [discriminate|].
  rewrite integer_text by assumption.
  destruct (int_of_str s) as [z|e']; [destruct (in_int_rangeb c z)|]; congruence.
Qed.

(** ** Numeric facets *)

Lemma num_leb_spec a b : num_leb a b = true <-> num_le a b.
Proof.
  destruct a as [p| | |], b as [q| | |]; simpl; try tauto; try (split; [discriminate|tauto]).
  apply Qle_bool_iff.
Qed.
Lemma num_ltb_spec a b : num_ltb a b = true <-> num_lt a b.
Proof.
  destruct a as [p| | |], b as [q| | |]; cbn; try tauto; try (split; [discriminate|tauto]).
  rewrite andb_true_iff, negb_true_iff, Qle_bool_iff. split.
  - intros [H1 H2]. apply Qle_lteq in H1 as [H1|H1]; auto.
    apply Qeq_bool_iff in H1. congruence.
  - intros H. split; [now apply Qlt_le_weak|].
    destruct (Qeq_bool p q) eqn:E; [|reflexivity]. apply Qeq_bool_iff in E.
    exfalso. apply Qlt_not_eq in H. contradiction.
Qed.
Lemma num_le_not_lt a b : a <> NNaN -> b <> NNaN -> (num_leb a b = false <-> num_lt b a).
Proof.
  intros Ha Hb. rewrite <- not_true_iff_false, num_leb_spec.
  destruct a as [p| | |], b as [q| | |]; simpl; try tauto; try congruence.
  split; [apply Qnot_le_lt | apply Qlt_not_le].
Qed.
Lemma num_lt_not_le a b : a <> NNaN -> b <> NNaN -> (num_ltb a b = false <-> num_le b a).
Proof.
  intros Ha Hb. rewrite <- not_true_iff_false, num_ltb_spec.
  destruct a as [p| | |], b as [q| | |]; simpl; try tauto; try congruence.
  split; [apply Qnot_lt_le | apply Qle_not_lt].
Qed.
Lemma num_eqb_spec a b : num_eqb a b = true <-> num_le a b /\ num_le b a.
Proof.
  destruct a as [p| | |], b as [q| | |]; simpl; try tauto; try (split; [discriminate|tauto]).
  rewrite Qeq_bool_iff. split.
  - intros E. split; rewrite E; apply Qle_refl.
  - intros [H1 H2]. now apply Qle_antisym.
Qed.

(** Each check is a boolean test that raises ValueError. *)
Definition vtest (b : bool) : res unit := if b then Ok tt else Err ValueError.
Lemma vtest_seq {A} b (r : res A) : (vtest b ;;; r) = if b then r else Err ValueError.
Proof. destruct b; reflexivity. Qed.

Lemma split_nonnil c l : split_l c l <> [].
Proof.
  induction l as [|x l IH]; simpl; [discriminate|].
  destruct (Ascii.eqb x c); [discriminate|]. destruct (split_l c l); [congruence|discriminate].
Qed.
(** The first piece ends at the first separator. *)
Lemma split_spec c l :
  (~ In c l /\ split_l c l = [l]) \/
  (exists a b, l = a ++ c :: b /\ ~ In c a /\ split_l c l = a :: split_l c b).
Proof.
  induction l as [|x l IH]; simpl.
  - left. auto.
  - destruct (Ascii.eqb_spec x c) as [->|N].
    + right. exists [], l. auto.
    + destruct IH as [[H E]|(a & b & -> & H & E)].
      * left. rewrite E. split; [intros [C|C]; auto | reflexivity].
      * right. exists (x :: a), b. rewrite E. split; [reflexivity|].
        split; [intros [C|C]; auto | reflexivity].
Qed.
Lemma nodot_app_unique (a b a' b' : list ascii) :
  a ++ "."%char :: b = a' ++ "."%char :: b' -> ~ In "."%char a -> ~ In "."%char a' ->
  a = a' /\ b = b'.
Proof.
  revert a'. induction a as [|x a IH]; intros [|y a'] E Ha Ha'; simpl in *.
  - injection E as ->. auto.
  - injection E as <- E. exfalso; auto.
  - injection E as -> E. exfalso; auto.
  - injection E as <- E. destruct (IH a' E) as [-> ->]; auto.
Qed.

Lemma bad_fraction_spec sv n : bad_fraction sv n = false <-> fraction_ok sv n.
Proof.
  unfold bad_fraction, fraction_ok. destruct (Z.eqb_spec n 0) as [->|N].
  - rewrite <- not_true_iff_false, char_in_spec. split; [auto|].
    intros [[_ H]|[C _]]; [assumption | congruence].
  - destruct (char_in "." sv) eqn:C; simpl.
    + apply char_in_spec in C. rewrite negb_false_iff, Z.eqb_eq.
      unfold str_split. destruct (split_spec "." (to_l sv)) as [[H _]|(a & b & E & Ha & Es)]; [contradiction|].
      rewrite Es. cbn [map nth].
      destruct (split_spec "." b) as [[Hb Eb]|(a2 & b2 & Eb & Ha2 & Es2)].
      * rewrite Eb. cbn [map nth]. rewrite slen_l, to_of. split.
        -- intros L. right. split; [assumption|]. exists a, b, [].
           rewrite app_nil_r. auto 10.
        -- intros [[C0 _]|(_ & ip & fp & rest & E' & Hi & Hf & Hr & L)]; [congruence|].
           rewrite E in E'. apply nodot_app_unique in E' as [-> ->]; auto.
           destruct Hr as [->|(r & ->)]; [now rewrite app_nil_r|].
           exfalso. apply Hb. apply in_or_app. right. now left.
      * rewrite Es2. cbn [map nth]. rewrite slen_l, to_of. split.
        -- intros L. right. split; [assumption|]. exists a, a2, ("."%char :: b2).
           rewrite E, Eb. eauto 10.
        -- intros [[C0 _]|(_ & ip & fp & rest & E' & Hi & Hf & Hr & L)]; [congruence|].
           rewrite E in E'. apply nodot_app_unique in E' as [-> E']; auto.
           destruct Hr as [->|(r & ->)].
           ++ rewrite app_nil_r in E'. exfalso. apply Hf. rewrite <- E', Eb. apply in_or_app. right; now left.
           ++ rewrite Eb in E'. apply nodot_app_unique in E' as [-> _]; auto.
    + split; [discriminate|]. intros [[C0 _]|(_ & ip & fp & rest & E' & _)]; [congruence|].
      rewrite <- not_true_iff_false, char_in_spec in C. exfalso. apply C. rewrite E'.
      apply in_or_app. right. now left.
Qed.

Lemma bad_total_spec sv n : bad_total sv n = false <-> total_ok sv n.
Proof.
  unfold bad_total, total_ok. destruct (char_in "." sv) eqn:C; cbv zeta; rewrite Z.ltb_ge.
  - apply char_in_spec in C. split; [auto|]. intros [[H _]|[_ H]]; [contradiction|assumption].
  - rewrite <- not_true_iff_false, char_in_spec in C. split; [auto|].
    intros [[_ H]|[H _]]; [assumption|contradiction].
Qed.

Lemma check_opt_v {A} (f : option A) (bad : A -> res bool) (P : Prop) :
  (f = None -> P) ->
  (forall a, f = Some a -> exists b, bad a = Ok b /\ (b = false <-> P)) ->
  exists t, check_opt f bad = vtest t /\ (t = true <-> P).
Proof.
  intros H0 H1. destruct f as [a|].
  - destruct (H1 a eq_refl) as (b & E & I). exists (negb b). unfold check_opt. rewrite E.
    cbn [bind]. split; [destruct b; reflexivity|]. rewrite <- I. destruct b; simpl; split; intros; congruence.
  - exists true. split; [reflexivity|]. split; auto.
Qed.

Lemma check_restrictions_num O f v x : num_of v = Some x -> x <> NNaN -> bounds_numeric f ->
  pattern_proper f ->
  exists b : bool, check_restrictions O f v = (if b then Ok tt else Err ValueError) /\
    (b = true <-> dfacets_sat f x (py_str O v)).
Proof.
  intros Hx Hnan (B1 & B2 & B3 & B4) Hp. unfold check_restrictions.
  destruct (check_opt_v (df_enum f) (fun l => Ok (negb (py_in v l))) (enum_sat f x)) as (t1 & -> & I1).
  { unfold enum_sat. congruence. }
  { intros l Hl. eexists. split; [reflexivity|]. rewrite negb_false_iff. unfold py_in.
    rewrite existsb_exists. unfold enum_sat. split.
    - intros (e & He & Ee) l' Hl'. assert (l' = l) by congruence. subst l'.
      unfold py_eqb in Ee. rewrite Hx in Ee. destruct (num_of e) as [y|] eqn:Ey; [|discriminate].
      exists e, y. split; [assumption|]. split; [assumption|]. now apply num_eqb_spec.
    - intros H. destruct (H l Hl) as (e & y & He & Ey & Hn). exists e. split; [assumption|].
      unfold py_eqb. rewrite Hx, Ey. now apply num_eqb_spec. }
  destruct (check_opt_v (df_fraction f) (fun n => Ok (bad_fraction (py_str O v) n))
     (forall n, df_fraction f = Some n -> fraction_ok (py_str O v) n)) as (t2 & -> & I2).
  { congruence. }
  { intros n Hn. eexists. split; [reflexivity|]. rewrite bad_fraction_spec.
    split; [intros H n' Hn'; congruence | auto]. }
  destruct (check_opt_v (df_maxEx f) (fun b => py_leb b v)
     (forall b y, df_maxEx f = Some b -> num_of b = Some y -> num_lt x y)) as (t3 & -> & I3).
  { congruence. }
  { intros b Hb. destruct (B1 b Hb) as (y & Ey & Hy). unfold py_leb. rewrite Ey, Hx.
    eexists. split; [reflexivity|]. rewrite num_le_not_lt by assumption.
    split; [intros H b' y' Hb' Ey'; congruence | eauto]. }
  destruct (check_opt_v (df_maxIn f) (fun b => py_ltb b v)
     (forall b y, df_maxIn f = Some b -> num_of b = Some y -> num_le x y)) as (t4 & -> & I4).
  { congruence. }
  { intros b Hb. destruct (B2 b Hb) as (y & Ey & Hy). unfold py_ltb. rewrite Ey, Hx.
    eexists. split; [reflexivity|]. rewrite num_lt_not_le by assumption.
    split; [intros H b' y' Hb' Ey'; congruence | eauto]. }
  destruct (check_opt_v (df_minEx f) (fun b => py_leb v b)
     (forall b y, df_minEx f = Some b -> num_of b = Some y -> num_lt y x)) as (t5 & -> & I5).
  { congruence. }
  { intros b Hb. destruct (B3 b Hb) as (y & Ey & Hy). unfold py_leb. rewrite Ey, Hx.
    eexists. split; [reflexivity|]. rewrite num_le_not_lt by assumption.
    split; [intros H b' y' Hb' Ey'; congruence | eauto]. }
  destruct (check_opt_v (df_minIn f) (fun b => py_ltb v b)
     (forall b y, df_minIn f = Some b -> num_of b = Some y -> num_le y x)) as (t6 & -> & I6).
  { congruence. }
  { intros b Hb. destruct (B4 b Hb) as (y & Ey & Hy). unfold py_ltb. rewrite Ey, Hx.
    eexists. split; [reflexivity|]. rewrite num_lt_not_le by assumption.
    split; [intros H b' y' Hb' Ey'; congruence | eauto]. }
  destruct (check_opt_v (df_pattern f) (fun r => Ok (negb (re_match (append_dollar r) (py_str O v))))
     (forall r, df_pattern f = Some r -> pattern_sat r (py_str O v))) as (t7 & -> & I7).
  { congruence. }
  { intros r Hr. eexists. split; [reflexivity|]. rewrite negb_false_iff.
    rewrite match_dollar_no_alt by (now apply Hp). unfold pattern_sat.
    split; [intros H r' Hr'; congruence | auto]. }
  destruct (check_opt_v (df_total f) (fun n => Ok (bad_total (py_str O v) n))
     (forall n, df_total f = Some n -> total_ok (py_str O v) n)) as (t8 & -> & I8).
  { congruence. }
  { intros n Hn. eexists. split; [reflexivity|]. rewrite bad_total_spec.
    split; [intros H n' Hn'; congruence | auto]. }
  unfold dfacets_sat, bounds_sat, text_sat.
  rewrite !vtest_seq.
  exists (t1 && t2 && t3 && t4 && t5 && t6 && t7 && t8). split.
  - destruct t1, t2, t3, t4, t5, t6, t7, t8; reflexivity.
  - rewrite !andb_true_iff. tauto.
Qed.

(** ** Decimal *)

Lemma decimal_num O f v x : num_of v = Some x -> x <> NNaN ->
  match v with VDec _ => False | _ => True end ->
  bounds_numeric f -> pattern_proper f ->
  exists b : bool, decimal_accept O f v = (if b then Ok v else Err ValueError) /\
    (b = true <-> dfacets_sat f x (py_str O v)).
Proof.
  intros Hx Hn Hd Hb Hp. destruct (check_restrictions_num O f v x Hx Hn Hb Hp) as (t & A & B).
  assert (E : decimal_accept O f v = (check_restrictions O f v ;;; Ok v)).
  { destruct v; simpl in Hx; try discriminate; try reflexivity. destruct Hd. }
  rewrite E, A. exists t. split; [destruct t; reflexivity | assumption].
Qed.

Lemma nan_not_ltb_l x : num_ltb NNaN x = false. Proof. destruct x; reflexivity. Qed.
Lemma nan_not_ltb_r x : num_ltb x NNaN = false. Proof. destruct x; reflexivity. Qed.
Lemma nan_not_leb_l x : num_leb NNaN x = false. Proof. destruct x; reflexivity. Qed.
Lemma nan_not_leb_r x : num_leb x NNaN = false. Proof. destruct x; reflexivity. Qed.

Lemma decimal_nan O f fl : fl_val fl = NNaN -> bounds_numeric f ->
  df_enum f = None -> df_fraction f = None -> df_pattern f = None -> df_total f = None ->
  decimal_accept O f (VFloat fl) = Ok (VFloat fl).
Proof.
  intros Hf (B1 & B2 & B3 & B4) E1 E2 E3 E4. cbn [decimal_accept bind].
  unfold check_restrictions. rewrite E1, E2, E3, E4. cbn [check_opt bind].
  assert (G : forall (o : option pyval) g, (forall b, o = Some b -> g b = Ok false) -> check_opt o g = Ok tt).
  { intros o g H. destruct o as [b|]; [|reflexivity]. unfold check_opt.
    rewrite (H b eq_refl). reflexivity. }
  assert (Hv : num_of (VFloat fl) = Some NNaN) by (simpl; now rewrite Hf).
  rewrite (G (df_maxEx f)).
  2: { intros b Hb. destruct (B1 b Hb) as (y & Ey & _). unfold py_leb. rewrite Ey, Hv.
       now rewrite nan_not_leb_r. }
  rewrite (G (df_maxIn f)).
  2: { intros b Hb. destruct (B2 b Hb) as (y & Ey & _). unfold py_ltb. rewrite Ey, Hv.
       now rewrite nan_not_ltb_r. }
  rewrite (G (df_minEx f)).
  2: { intros b Hb. destruct (B3 b Hb) as (y & Ey & _). unfold py_leb. rewrite Ey, Hv.
       now rewrite nan_not_leb_l. }
  rewrite (G (df_minIn f)).
  2: { intros b Hb. destruct (B4 b Hb) as (y & Ey & _). unfold py_ltb. rewrite Ey, Hv.
       now rewrite nan_not_ltb_l. }
  reflexivity.
Qed.

Lemma check_opt_Some_err {A} (a : A) bad e : bad a = Err e -> check_opt (Some a) bad = Err e.
Proof. intros H. unfold check_opt. now rewrite H. Qed.

Lemma str_num_cmp s b : is_number b ->
  py_leb b (VStr s) = Err TypeError /\ py_ltb b (VStr s) = Err TypeError /\
  py_leb (VStr s) b = Err TypeError /\ py_ltb (VStr s) b = Err TypeError.
Proof.
  intros (y & Ey & _). unfold py_leb, py_ltb. rewrite Ey. cbn [num_of].
  destruct b; try discriminate; auto.
Qed.

Lemma seq_not_ok {B} (r : res unit) (k : res B) : (forall b, k <> Ok b) -> forall b, (r ;;; k) <> Ok b.
Proof. intros H b. destruct r; simpl; [apply H | discriminate]. Qed.
Lemma seq_not_ok_l {B} (r : res unit) (k : res B) : r <> Ok tt -> forall b, (r ;;; k) <> Ok b.
Proof. intros H b. destruct r as [[]|]; simpl; congruence. Qed.

Lemma check_str_bound O f s : has_numeric_bound f -> forall u, check_restrictions O f (VStr s) <> Ok u.
Proof.
  intros (b & Hb & H) u. destruct (str_num_cmp s b Hb) as (A1 & A2 & A3 & A4).
  unfold check_restrictions.
  revert u. apply seq_not_ok. apply seq_not_ok.
  destruct H as [E|H].
  { rewrite E. apply seq_not_ok_l. unfold check_opt; rewrite A1. discriminate. }
  apply seq_not_ok. destruct H as [E|H].
  { rewrite E. apply seq_not_ok_l. unfold check_opt; rewrite A2. discriminate. }
  apply seq_not_ok. destruct H as [E|E].
  { rewrite E. apply seq_not_ok_l. unfold check_opt; rewrite A3. discriminate. }
  apply seq_not_ok.
  rewrite E. apply seq_not_ok_l. unfold check_opt; rewrite A4. discriminate.
Qed.

Lemma decimal_dec_bounded O f d : has_numeric_bound f ->
  forall v, decimal_accept O f (VDec d) <> Ok v.
Proof.
  intros H v. cbn [decimal_accept bind]. pose proof (check_str_bound O f (dec_str d) H) as C.
  destruct (check_restrictions O f (VStr (dec_str d))) as [u|e] eqn:E; [|discriminate].
  now destruct (C u).
Qed.

Lemma decimal_dec_bounded_exn O f d : has_numeric_bound f -> bounds_numeric f ->
  df_enum f = None -> df_fraction f = None ->
  decimal_accept O f (VDec d) = Err TypeError.
Proof.
  intros (b & Hb & H) (B1 & B2 & B3 & B4) E1 E2. cbn [decimal_accept bind].
  unfold check_restrictions. rewrite E1, E2. cbn [check_opt bind].
  destruct (df_maxEx f) as [b1|] eqn:F1.
  { destruct (str_num_cmp (dec_str d) b1 (B1 _ eq_refl)) as (A1 & A2 & A3 & A4).
    unfold check_opt at 1; rewrite A1. reflexivity. }
  cbn [check_opt bind]. destruct (df_maxIn f) as [b2|] eqn:F2.
  { destruct (str_num_cmp (dec_str d) b2 (B2 _ eq_refl)) as (A1 & A2 & A3 & A4).
    unfold check_opt at 1; rewrite A2. reflexivity. }
  cbn [check_opt bind]. destruct (df_minEx f) as [b3|] eqn:F3.
  { destruct (str_num_cmp (dec_str d) b3 (B3 _ eq_refl)) as (A1 & A2 & A3 & A4).
    unfold check_opt at 1; rewrite A3. reflexivity. }
  cbn [check_opt bind]. destruct (df_minIn f) as [b4|] eqn:F4.
  { destruct (str_num_cmp (dec_str d) b4 (B4 _ eq_refl)) as (A1 & A2 & A3 & A4).
    unfold check_opt at 1; rewrite A4. reflexivity. }
  exfalso. destruct H as [H|[H|[H|H]]]; discriminate.
Qed.

Lemma repeat0_digits k : forallb is_digit (repeat "0"%char k) = true.
Proof. induction k; simpl; auto. Qed.
Lemma repeat0_value k : digits_value (repeat "0"%char k) = 0%N.
Proof.
  induction k; cbn [repeat]; [reflexivity|]. rewrite digits_value_cons, IHk.
  change (digit_val "0") with 0%N. lia.
Qed.

Lemma firstn_skipn_digits k l : forallb is_digit l = true ->
  forallb is_digit (firstn k l) = true /\ forallb is_digit (skipn k l) = true.
Proof.
  intros H. rewrite <- (firstn_skipn k l), forallb_app in H. now apply andb_true_iff in H.
Qed.

Lemma dec_str_text neg c e :
  decimal_text (dec_str (DecFin neg c e))
    ((if neg then -1 else 1) * inject_Z (Z.of_N c) * pow10 e)%Q.
Proof.
  unfold dec_str. set (digits := dec_l c). set (n := Z.of_nat (length digits)).
  set (leftd := e + n).
  set (dp := if ((e <=? 0) && (-6 <? leftd))%bool then leftd else 1).
  cbv zeta.
  set (zeros := fun k => repeat "0"%char (Z.to_nat k)).
  set (ex := leftd - dp).
  set (exps := if ex =? 0 then [] else _).
  assert (Hdig : forallb is_digit digits = true) by apply dec_l_digits.
  assert (Hval : digits_value digits = c) by apply dec_l_value.
  assert (Hne : digits <> []) by apply dec_l_nonnil.
  assert (Hn : 1 <= n).
  { unfold n. destruct digits; [congruence|]. simpl length. lia. }
  assert (Hexps : exps = [] /\ ex = 0 \/
     exists sg ds, exps = "E"%char :: sg :: ds /\ ds <> [] /\ forallb is_digit ds = true /\
       (sg = "+"%char /\ ex = Z.of_N (digits_value ds) \/
        sg = "-"%char /\ ex = - Z.of_N (digits_value ds))).
  { unfold exps. destruct (Z.eqb_spec ex 0) as [E|E]; [left; auto|]. right.
    destruct (Z.ltb_spec 0 ex).
    - exists "+"%char, (dec_l (Z.abs_N ex)). split; [reflexivity|].
      split; [apply dec_l_nonnil|]. split; [apply dec_l_digits|]. left. split; [reflexivity|].
      rewrite dec_l_value. lia.
    - exists "-"%char, (dec_l (Z.abs_N ex)). split; [reflexivity|].
      split; [apply dec_l_nonnil|]. split; [apply dec_l_digits|]. right. split; [reflexivity|].
      rewrite dec_l_value. lia. }
  clearbody exps.
  destruct (Z.leb_spec dp 0) as [L|L].
  - assert (Hdp : dp = leftd) by (unfold dp in *; destruct ((e <=? 0) && (-6 <? leftd))%bool; lia).
    exists neg, ["0"%char], (zeros (- dp) ++ digits), ex, exps.
    assert (Hl : Z.of_nat (length (zeros (- dp) ++ digits)) = - e).
    { rewrite app_length. unfold zeros. rewrite repeat_length. unfold leftd, n in *. lia. }
    split.
    { rewrite to_of. f_equal. unfold zeros.
      destruct (repeat "0"%char (Z.to_nat (- dp)) ++ digits) eqn:Z0; [|reflexivity].
      apply app_eq_nil in Z0 as [_ Z0]. congruence. }
    split; [discriminate|]. split; [reflexivity|].
    split; [unfold zeros; rewrite forallb_app, repeat0_digits, Hdig; reflexivity|].
    split; [assumption|].
    rewrite Hl. replace (ex - - e) with e by (unfold ex; lia).
    change (["0"%char] ++ zeros (- dp) ++ digits) with ("0"%char :: zeros (- dp) ++ digits).
    rewrite digits_value_cons, digits_value_app. unfold zeros. rewrite repeat0_value, Hval.
    change (digit_val "0") with 0%N. rewrite !N.mul_0_l, !N.add_0_l. reflexivity.
  - destruct (Z.leb_spec n dp) as [L2|L2].
    + assert (Hz : dp = n).
      { unfold dp in *. destruct ((e <=? 0) && (-6 <? leftd))%bool eqn:B; [|lia].
        apply andb_true_iff in B as [B _]. apply Z.leb_le in B. unfold leftd in *. lia. }
      exists neg, digits, [], ex, exps.
      unfold zeros. rewrite Hz, Z.sub_diag. cbn [Z.to_nat repeat].
      split; [rewrite to_of, app_nil_r; reflexivity|].
      split; [assumption|]. split; [assumption|]. split; [reflexivity|]. split; [assumption|].
      rewrite app_nil_r, Hval. cbn [length Z.of_nat].
      replace (ex - 0) with e by (unfold ex, leftd; lia). reflexivity.
    + exists neg, (firstn (Z.to_nat dp) digits), (skipn (Z.to_nat dp) digits), ex, exps.
      destruct (firstn_skipn_digits (Z.to_nat dp) digits Hdig) as [D1 D2].
      assert (Ls : length (skipn (Z.to_nat dp) digits) = (length digits - Z.to_nat dp)%nat)
        by apply skipn_length.
      split.
      { rewrite to_of. f_equal. destruct (skipn (Z.to_nat dp) digits) eqn:S0; [|reflexivity].
        simpl in Ls. unfold n in *. lia. }
      split.
      { intros C. apply (f_equal (@length _)) in C. rewrite firstn_length in C. simpl in C.
        unfold n in *. lia. }
      split; [assumption|]. split; [assumption|]. split; [assumption|].
      rewrite firstn_skipn, Hval.
      replace (ex - Z.of_nat (length (skipn (Z.to_nat dp) digits))) with e; [reflexivity|].
      rewrite Ls. unfold ex, leftd, n in *. lia.
Qed.

Lemma decimal_dec_plain O d :
  decimal_accept O no_dfacets (VDec d) = Ok (VStr (dec_str d)).
Proof. reflexivity. Qed.

(** ** User facets of integer types *)

Lemma mk_integer_maxIn c u b : int_hi c <> None -> mk_integer c (with_maxIn b u) = mk_integer c u.
Proof. intros H. destruct c; try reflexivity; exfalso; apply H; reflexivity. Qed.
Lemma mk_integer_minIn c u b : int_lo c <> None -> mk_integer c (with_minIn b u) = mk_integer c u.
Proof. intros H. destruct c; try reflexivity; exfalso; apply H; reflexivity. Qed.
Lemma mk_integer_pattern c u r : mk_integer c (with_pattern r u) = mk_integer c u.
Proof. destruct c; reflexivity. Qed.

Lemma num_le_Z a b : num_le (NFin (inject_Z a)) (NFin (inject_Z b)) <-> a <= b.
Proof. simpl. rewrite <- Zle_Qle. reflexivity. Qed.

Lemma integer_user O c u z :
  (int_hi c <> None -> df_maxIn u = None) -> (int_lo c <> None -> df_minIn u = None) ->
  bounds_numeric u ->
  let ok := in_int_range c z /\ enum_sat u (NFin (inject_Z z)) /\ bounds_sat u (NFin (inject_Z z))
            /\ (forall n, df_total u = Some n -> total_ok (dec_Z z) n) in
  exists b : bool, st_accept O (SInteger c u) (VInt z) = (if b then Ok (VInt z) else Err ValueError)
    /\ (b = true <-> ok).
Proof.
  intros Hhi Hlo (B1 & B2 & B3 & B4) ok.
  destruct (mk_integer_fields c u) as (E1 & E2 & E3 & E4 & E5 & E6 & E7 & E8).
  assert (Hb : bounds_numeric (mk_integer c u)).
  { unfold bounds_numeric. rewrite E3, E4, E7, E8. repeat split; auto.
    - intros b. destruct (int_hi c); [intros [= <-]; eexists; split; [reflexivity|discriminate]|]. auto.
    - intros b. destruct (int_lo c); [intros [= <-]; eexists; split; [reflexivity|discriminate]|]. auto. }
  assert (Hp : pattern_proper (mk_integer c u)).
  { intros r. rewrite E6. intros [= <-]. reflexivity. }
  destruct (check_restrictions_num O (mk_integer c u) (VInt z) (NFin (inject_Z z)) eq_refl
    ltac:(discriminate) Hb Hp) as (t & A & B).
  assert (I : dfacets_sat (mk_integer c u) (NFin (inject_Z z)) (dec_Z z) <-> ok).
  { unfold ok, dfacets_sat, enum_sat, bounds_sat, text_sat, in_int_range.
    rewrite E1, E2, E3, E4, E5, E6, E7, E8. split.
    - intros (H1 & (H2 & H3 & H4 & H5) & (_ & _ & H8)).
      split; [split|].
      + intros b Hb'. rewrite Hb' in H5. apply (num_le_Z b z). now apply (H5 (VInt b) (NFin (inject_Z b))).
      + intros b Hb'. rewrite Hb' in H3. apply (num_le_Z z b). now apply (H3 (VInt b) (NFin (inject_Z b))).
      + split; [assumption|]. split; [|assumption]. split; [assumption|].
        split; [|split; [assumption|]].
        * destruct (int_hi c); [rewrite Hhi by discriminate; discriminate | assumption].
        * destruct (int_lo c); [rewrite Hlo by discriminate; discriminate | assumption].
    - intros ((Hl & Hh) & H1 & (H2 & H3 & H4 & H5) & H8).
      split; [assumption|]. split; [split; [assumption|split; [|split; [assumption|]]]|].
      + intros b y. destruct (int_hi c) as [h|]; [|apply H3]. intros [= <-] [= <-].
        apply num_le_Z. auto.
      + intros b y. destruct (int_lo c) as [h|]; [|apply H5]. intros [= <-] [= <-].
        apply num_le_Z. auto.
      + split; [|split; [|assumption]].
        * intros n [= <-]. left. split; [reflexivity|]. intros C. apply char_in_spec in C.
          now rewrite dec_Z_no_dot in C.
        * intros r [= <-]. left. apply int_pattern_dec. }
  cbn [st_accept integer_accept bind]. cbn [py_str] in A, B. exists t. rewrite A. rewrite <- I.
  split; [destruct t; reflexivity | assumption].
Qed.

(** ** Integers: values of other types *)
Lemma integer_accept_other O c v :
  match v with VNone | VInt _ | VStr _ => False | _ => True end ->
  st_accept O (SInteger c no_dfacets) v = Err ValueError.
Proof.
  intros H. destruct v; try destruct H; try reflexivity.
  cbn [st_accept integer_accept bind].
  destruct (mk_integer_fields c no_dfacets) as (E1 & E2 & E3 & E4 & E5 & E6 & E7 & E8).
  destruct (check_restrictions_num O (mk_integer c no_dfacets) (VBool b) (NFin (if b then 1 else 0)%Q))
    as (t & A & B).
  - reflexivity.
  - discriminate.
  - unfold bounds_numeric. rewrite E3, E4, E7, E8. cbn [no_dfacets df_maxEx df_minEx df_maxIn df_minIn].
    repeat split; try discriminate.
    + destruct (int_hi c); [intros ? [= <-]; eexists; split; [reflexivity|discriminate] | discriminate].
    + destruct (int_lo c); [intros ? [= <-]; eexists; split; [reflexivity|discriminate] | discriminate].
  - intros r. rewrite E6. intros [= <-]. reflexivity.
  - rewrite A. destruct t; [|reflexivity]. exfalso.
    destruct (proj1 B eq_refl) as (_ & _ & _ & P & _). specialize (P _ E6).
    apply (match_dollar_no_alt int_pattern) in P; [|reflexivity].
    change (py_str O (VBool b)) with (if b then "True" else "False")%string in P.
    rewrite int_pattern_bool in P. discriminate.
Qed.

(** ** Boolean *)
Lemma bool_text s : bool_pythonvalue (VStr s)
  = if String.eqb s "false" then Ok (VBool false)
    else if String.eqb s "true" then Ok (VBool true)
    else if String.eqb s "nil" then Ok VNone else Err ValueError.
Proof. reflexivity. Qed.

Lemma bool_accept_iff v : bool_accept v = Ok v <->
  v = VNone \/ exists x, num_of v = Some x /\ (num_eqb x (NFin 0) = true \/ num_eqb x (NFin 1) = true).
Proof.
  unfold bool_accept, py_in. cbn [existsb]. unfold py_eqb. cbn [num_of].
  destruct (num_of v) as [x|] eqn:E.
  - assert (Hv : v <> VNone) by (intros ->; discriminate).
    destruct (num_eqb x (NFin 1)) eqn:E1; simpl.
    { split; [|reflexivity]. intros _. right. eauto. }
    destruct (num_eqb x (NFin 0)) eqn:E0; simpl.
    { split; [|reflexivity]. intros _. right. eauto. }
    split; [discriminate|]. intros [C|(y & [= <-] & [C|C])]; congruence.
  - destruct v; try discriminate; simpl;
      [split; [intros _; left; reflexivity | reflexivity] | ..];
      (split; [discriminate | intros [C|(y0 & C & _)]; discriminate]).
Qed.
Lemma bool_accept_err v e : bool_accept v = Err e -> e = ValueError.
Proof. unfold bool_accept. destruct (py_in v _); congruence. Qed.
Lemma bool_accept_val v w : bool_accept v = Ok w -> w = v.
Proof. unfold bool_accept. destruct (py_in v _); congruence. Qed.

(** ** MaxOccurs *)
Lemma maxoccurs_text z : maxoccurs_accept (VStr (dec_Z z)) = Ok (VInt z).
Proof.
  unfold maxoccurs_accept, py_in. cbn [existsb]. unfold py_eqb at 1 2. cbn [num_of UNBOUNDED].
  destruct (String.eqb_spec (dec_Z z) "unbounded") as [E|_].
  - exfalso. revert E. apply dec_Z_neq. split; [reflexivity|discriminate].
  - cbn [orb]. cbn [py_int]. now rewrite int_of_dec_Z.
Qed.
Lemma maxoccurs_int O z : st_xmlvalue O SMaxOccurs (VInt z) = Ok (VStr (dec_Z z)).
Proof. reflexivity. Qed.

(** ** Statements in the form the property files use *)

Lemma string_accept_iff O cls f s s' : facets_proper f ->
  st_accept O (SString cls f) (VStr s) = Ok (VStr s') <->
  ws_normal (sf_ws f) s s' /\ facets_sat f s'.
Proof.
  intros Hf. cbn [st_accept]. destruct (str_accept_str f s Hf) as (b & -> & B). split.
  - destruct b; [|discriminate]. intros [= <-]. split; [apply clean_ws_spec | now apply B].
  - intros [Hw Hs]. apply clean_ws_unique in Hw. subst s'. apply B in Hs. now subst b.
Qed.
Lemma string_accept_total O cls f v : facets_proper f ->
  (v = VNone /\ st_accept O (SString cls f) v = Ok VNone) \/
  (exists s s', v = VStr s /\ st_accept O (SString cls f) v = Ok (VStr s')) \/
  (v <> VNone /\ st_accept O (SString cls f) v = Err ValueError).
Proof.
  intros Hf. cbn [st_accept]. destruct v; auto; try (right; right; split; [discriminate|reflexivity]).
  destruct (str_accept_str f s Hf) as (b & -> & B). destruct b.
  - right; left. eauto.
  - right; right. split; [discriminate|reflexivity].
Qed.
Lemma string_accept_full O cls f v r : facets_proper f ->
  st_accept O (SString cls f) v = r <->
  match r with
  | Ok w => (v = VNone /\ w = VNone) \/
            (exists s s', v = VStr s /\ w = VStr s' /\ ws_normal (sf_ws f) s s' /\ facets_sat f s')
  | Err e => e = ValueError /\ v <> VNone /\
             ~ (exists s s', v = VStr s /\ ws_normal (sf_ws f) s s' /\ facets_sat f s')
  end.
Proof.
  intros Hf. destruct (string_accept_total O cls f v Hf) as [(-> & E)|[(s & s' & -> & E)|(N & E)]];
    rewrite E.
  - destruct r as [w|e]; split.
    + intros [= <-]. auto.
    + intros [[_ ->]|(s & s' & C & _)]; [reflexivity|discriminate].
    + discriminate.
    + intros (_ & C & _). congruence.
  - pose proof (proj1 (string_accept_iff O cls f s s' Hf) E) as [Hw Hs].
    destruct r as [w|e]; split.
    + intros [= <-]. right. eauto 8.
    + intros [[C _]|(s1 & s1' & [= <-] & -> & Hw1 & Hs1)]; [discriminate|].
      apply clean_ws_unique in Hw, Hw1. congruence.
    + discriminate.
    + intros (_ & _ & C). exfalso. apply C. eauto.
  - destruct r as [w|e]; split.
    + discriminate.
    + intros [[C _]|(s1 & s1' & -> & -> & Hw1 & Hs1)]; [congruence|].
      rewrite (proj2 (string_accept_iff O cls f s1 s1' Hf) (conj Hw1 Hs1)) in E. discriminate.
    + intros [= <-]. split; [reflexivity|]. split; [assumption|].
      intros (s1 & s1' & -> & Hw1 & Hs1).
      rewrite (proj2 (string_accept_iff O cls f s1 s1' Hf) (conj Hw1 Hs1)) in E. discriminate.
    + intros (-> & _). reflexivity.
Qed.

Lemma zero_facets O cls s :
  st_accept O (SString cls {| sf_enum := None; sf_pattern := None; sf_length := Some 0;
     sf_minLength := None; sf_maxLength := None; sf_ws := None |}) (VStr s) = Ok (VStr s) /\
  st_accept O (SString cls {| sf_enum := None; sf_pattern := None; sf_length := None;
     sf_minLength := None; sf_maxLength := Some 0; sf_ws := None |}) (VStr s) = Ok (VStr s) /\
  st_accept O (SString cls {| sf_enum := Some []; sf_pattern := None; sf_length := None;
     sf_minLength := None; sf_maxLength := None; sf_ws := None |}) (VStr s) = Ok (VStr s).
Proof. auto. Qed.

Lemma whitespace_all ws s s' : clean_ws ws s = s' ->
  ws_normal ws s s' /\ ws_normal ws s' s' /\ nonws (to_l s') = nonws (to_l s) /\
  (ws = Some "replace"%string -> slen s' = slen s) /\
  (ws = Some "replace"%string \/ ws = Some "collapse"%string ->
     forall c, In c (to_l s') -> is_space c = true -> c = space) /\
  (ws = Some "collapse"%string -> no_double (to_l s')) /\
  (ws <> Some "replace"%string -> ws <> Some "collapse"%string -> s' = s).
Proof.
  intros <-. split; [apply clean_ws_spec|]. split.
  { pose proof (clean_ws_spec ws (clean_ws ws s)) as H. now rewrite clean_ws_idem in H. }
  unfold clean_ws. destruct ws as [w|]; [|repeat split; try discriminate; intros [C|C]; discriminate].
  destruct (String.eqb_spec w "preserve") as [->|Np].
  { repeat split; try discriminate; intros [C|C]; discriminate. }
  destruct (String.eqb_spec w "replace") as [->|Nr].
  { rewrite to_of. split; [apply replace_nonws|]. split; [|split; [|split; [discriminate|congruence]]].
    - intros _. rewrite !slen_l, to_of. now rewrite replace_length.
    - intros _ c. apply replace_only_space. }
  destruct (String.eqb_spec w "collapse") as [->|Nc].
  { rewrite to_of. split; [apply collapse_nonws|]. split; [discriminate|]. split.
    - intros _ c. apply collapse_only_space.
    - split; [intros _; apply collapse_no_double | congruence]. }
  repeat split; try congruence; intros [C|C]; congruence.
Qed.

Lemma pattern_whole O cls f r s s' : sf_pattern f = Some r -> no_top_alt r = true ->
  st_accept O (SString cls f) (VStr s) = Ok (VStr s') -> full_match r (to_l s') \/ full_match_nl r (to_l s').
Proof.
  intros Hp Hr. cbn [st_accept str_accept]. rewrite Hp.
  destruct (re_match (append_dollar r) (clean_ws (sf_ws f) s)) eqn:M; [|discriminate].
  cbn [bind]. intros H.
  apply bind_ok in H as (? & _ & H). apply bind_ok in H as (? & _ & H).
  apply bind_ok in H as (? & _ & H). apply bind_ok in H as (? & _ & H).
  injection H as <-. now apply match_dollar_no_alt.
Qed.
Lemma pattern_whole_num O cls f r v w : df_pattern f = Some r -> no_top_alt r = true ->
  v <> VNone ->
  st_accept O (SDecimal cls f) v = Ok w ->
  full_match r (to_l (py_str O w)) \/ full_match_nl r (to_l (py_str O w)).
Proof.
  intros Hp Hr Hv. cbn [st_accept]. unfold decimal_accept.
  assert (G : forall v', (check_restrictions O f v' ;;; Ok v') = Ok w ->
    full_match r (to_l (py_str O w)) \/ full_match_nl r (to_l (py_str O w))).
  { intros v' H. apply bind_ok in H as (u & H & [= <-]).
    unfold check_restrictions in H. rewrite Hp in H.
    apply bind_ok in H as (? & _ & H). apply bind_ok in H as (? & _ & H).
    apply bind_ok in H as (? & _ & H). apply bind_ok in H as (? & _ & H).
    apply bind_ok in H as (? & _ & H). apply bind_ok in H as (? & _ & H).
    apply bind_ok in H as (? & H & _). unfold check_opt in H. cbn [bind] in H.
    apply (match_dollar_no_alt r); [assumption|].
    destruct (re_match (append_dollar r) (py_str O v')); [reflexivity|discriminate]. }
  destruct v; try congruence; intros H; apply bind_ok in H as (v' & H1 & H);
    apply (G v'); exact H.
Qed.
Lemma pattern_alts O cls f r s : sf_pattern f = Some r -> sf_ws f = None ->
  sf_enum f = None -> sf_length f = None -> sf_minLength f = None -> sf_maxLength f = None ->
  st_accept O (SString cls f) (VStr s) = Ok (VStr s) <->
  (exists a s', In a (removelast (alts r)) /\ rm a (true, to_l s) s')
  \/ full_match (last (alts r) REps) (to_l s) \/ full_match_nl (last (alts r) REps) (to_l s).
Proof.
  intros H1 H2 H3 H4 H5 H6. rewrite <- match_dollar_alts. cbn [st_accept str_accept].
  rewrite H1, H2, H3, H4, H5, H6. cbn [clean_ws check_int bind].
  destruct (re_match (append_dollar r) s); split; cbn [bind]; congruence.
Qed.
Lemma integer_ranges O c z :
  (in_int_range c z -> st_accept O (SInteger c no_dfacets) (VInt z) = Ok (VInt z)) /\
  (~ in_int_range c z -> st_accept O (SInteger c no_dfacets) (VInt z) = Err ValueError).
Proof.
  rewrite integer_accept_int, <- in_int_rangeb_spec.
  destruct (in_int_rangeb c z); split; intros H; congruence.
Qed.
Lemma integer_maxIn_ignored O c u b v : int_hi c <> None ->
  st_accept O (SInteger c (with_maxIn b u)) v = st_accept O (SInteger c u) v.
Proof. intros H. cbn [st_accept]. now rewrite mk_integer_maxIn. Qed.
Lemma integer_minIn_ignored O c u b v : int_lo c <> None ->
  st_accept O (SInteger c (with_minIn b u)) v = st_accept O (SInteger c u) v.
Proof. intros H. cbn [st_accept]. now rewrite mk_integer_minIn. Qed.
Lemma integer_pattern_ignored O c u r v :
  st_accept O (SInteger c (with_pattern r u)) v = st_accept O (SInteger c u) v.
Proof. cbn [st_accept]. now rewrite mk_integer_pattern. Qed.
Lemma decimal_dec_text O cls neg c e : exists s,
  st_accept O (SDecimal cls no_dfacets) (VDec (DecFin neg c e)) = Ok (VStr s) /\
  py_eqb (VStr s) (VDec (DecFin neg c e)) = false /\
  exists q, dec_val (DecFin neg c e) = NFin q /\ decimal_text s q.
Proof.
  exists (dec_str (DecFin neg c e)). split; [reflexivity|]. split; [reflexivity|].
  eexists. split; [reflexivity|]. apply dec_str_text.
Qed.
Lemma bool_not_renderable O v : st_accept O SBoolean v = Ok v ->
  ~ (v = VNone \/ exists b, v = VBool b) -> st_xmlvalue O SBoolean v = Err ValueError.
Proof.
  intros _ H. destruct v; try reflexivity; exfalso; apply H; eauto.
Qed.
Lemma bool_roundtrip O v : (v = VNone \/ exists b, v = VBool b) ->
  st_accept O SBoolean v = Ok v /\
  exists text, st_xmlvalue O SBoolean v = Ok (VStr text) /\ st_pythonvalue O SBoolean (VStr text) = Ok v.
Proof.
  intros [->|([] & ->)]; (split; [reflexivity|]); eexists; split; reflexivity.
Qed.
Lemma bool_texts O s :
  (s = "true"%string -> st_pythonvalue O SBoolean (VStr s) = Ok (VBool true)) /\
  (s = "false"%string -> st_pythonvalue O SBoolean (VStr s) = Ok (VBool false)) /\
  (s = "nil"%string -> st_pythonvalue O SBoolean (VStr s) = Ok VNone) /\
  (~ In s ["true"; "false"; "nil"]%string -> st_pythonvalue O SBoolean (VStr s) = Err ValueError).
Proof.
  split; [intros ->; reflexivity|]. split; [intros ->; reflexivity|]. split; [intros ->; reflexivity|].
  intros H. cbn [st_pythonvalue]. rewrite bool_text.
  destruct (String.eqb_spec s "false") as [->|_]; [exfalso; apply H; simpl; auto|].
  destruct (String.eqb_spec s "true") as [->|_]; [exfalso; apply H; simpl; auto|].
  destruct (String.eqb_spec s "nil") as [->|_]; [exfalso; apply H; simpl; auto|]. reflexivity.
Qed.
Lemma maxoccurs_roundtrip O v : v = UNBOUNDED \/ (exists z, v = VInt z) ->
  st_accept O SMaxOccurs v = Ok v /\
  exists text, st_xmlvalue O SMaxOccurs v = Ok (VStr text) /\
    st_pythonvalue O SMaxOccurs (VStr text) = Ok v.
Proof.
  intros [->|(z & ->)].
  - split; [reflexivity|]. eexists. split; reflexivity.
  - split.
    + cbn. rewrite Z.quot_1_r. reflexivity.
    + exists (dec_Z z). split; [reflexivity | apply maxoccurs_text].
Qed.

(** [ab|c] accepts "abX". *)
Lemma pattern_whole_refuted : exists r s,
  (forall O, st_accept O (SString "String" {| sf_enum := None; sf_pattern := Some r;
     sf_length := None; sf_minLength := None; sf_maxLength := None; sf_ws := None |}) (VStr s) = Ok (VStr s)) /\
  ~ full_match r (to_l s) /\ ~ full_match_nl r (to_l s).
Proof.
  exists (RAlt (RSeq (r_char "a") (r_char "b")) (r_char "c")), "abX"%string.
  split; [reflexivity|].
  assert (G : forall x, rm (RAlt (RSeq (r_char "a") (r_char "b")) (r_char "c"))
     (true, to_l "abX") x -> x = (false, ["X"%char])).
  { intros x H. apply ends_complete in H. vm_compute in H. destruct H as [<-|[]]. reflexivity. }
  split; intros (b & H); apply G in H; discriminate.
Qed.
