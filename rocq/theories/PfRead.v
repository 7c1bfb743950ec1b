(** Texts that are valid for a type are read. *)
From Coq Require Import String Ascii List ZArith NArith Bool Lia QArith.
From Verif Require Import PyBase PyRe Xml PyVal XsdDate XsdSimple XsdComplex LibClasses Py2Xsd SpecXsd SpecSimple SpecDate SpecRound SpecTotal SpecValid SpecGiven SpecRead PfBase PfSimple PfDate PfValid.
Import ListNotations.
Open Scope string_scope.
Open Scope list_scope.
Open Scope Z_scope.

(** ** Dates and times *)
Lemma digits2 a b : digits [a; b] -> is_digit a = true /\ is_digit b = true.
Proof. unfold digits. cbn. rewrite !andb_true_iff. tauto. Qed.
Lemma take2_digits a b r : is_digit a = true -> is_digit b = true -> take2 (a :: b :: r) = Some (digits_value [a; b], r).
Proof. intros Ha Hb. unfold take2. now rewrite Ha, Hb. Qed.
Lemma suffix_range l m : tz_suffix l m -> -1440 < m < 1440.
Proof.
  intros (sg & h1 & h2 & m1 & m2 & _ & _ & Hh & Hm & [(_ & ->) | (_ & ->)]); lia.
Qed.
Lemma zone_reads l : zone_text l -> exists tz, zone_is l tz /\ tz_in_range tz /\ date_tz_text l tz /\ iso_frac l = (0%N, l) /\ exists off, or_utc tz = Some off /\ iso_tz l = Some off /\ offset_ok off.
Proof.
  intros [-> | [-> | (m & Hs & Hr)]].
  - exists None. split; [left; auto|]. split; [discriminate|]. split; [left; auto|]. split; [reflexivity|]. exists 0. split; [reflexivity|]. split; [reflexivity|]. unfold offset_ok, day_us. lia.
  - exists (Some 0). split; [right; left; auto|]. split; [intros off [= <-]; unfold offset_ok, day_us; lia|]. split; [right; left; auto|]. split; [reflexivity|]. exists 0. split; [reflexivity|]. split; [reflexivity|]. unfold offset_ok, day_us. lia.
  - exists (Some (m * minute_us)). split; [right; right; eauto|].
    assert (Ho : offset_ok (m * minute_us)) by (unfold offset_ok, day_us, minute_us; lia).
    split; [intros off [= <-]; exact Ho|].
    destruct Hs as (sg & h1 & h2 & m1 & m2 & -> & D & Hv). cbv zeta in Hv. destruct Hv as (Hh & Hm & Hv).
    split.
    { right; right. exists sg, h1, h2, [":"%char], m1, m2. split; [reflexivity|]. split; [auto|]. split; [exact D|]. cbv zeta. unfold minute_us in *.
      destruct Hv as [(-> & ->) | (-> & ->)]; [left | right]; (split; [reflexivity|]); f_equal; lia. }
    cbn in D. rewrite !andb_true_iff in D. destruct D as (D1 & D2 & D3 & D4 & _).
    split; [destruct Hv as [(-> & _) | (-> & _)]; reflexivity|].
    exists (m * minute_us). split; [reflexivity|]. split; [|exact Ho].
    unfold iso_tz. assert (Hsg : sg = "+"%char \/ sg = "-"%char) by tauto.
    replace (Ascii.eqb sg "+" || Ascii.eqb sg "-") with true by (destruct Hsg as [-> | ->]; reflexivity).
    rewrite (take2_digits h1 h2 _ D1 D2). rewrite (take2_digits m1 m2 [] D3 D4).
    change minute_us with us_per_min. destruct Hv as [(-> & ->) | (-> & ->)]; cbn [Ascii.eqb Bool.eqb]; f_equal; lia.
Qed.
Lemma zone_first l : zone_text l -> match l with c :: _ => is_digit c = false | [] => True end.
Proof.
  intros [-> | [-> | (m & (sg & h1 & h2 & m1 & m2 & -> & _ & Hv) & _)]]; [exact I | reflexivity|].
  cbv zeta in Hv. destruct Hv as (_ & _ & [(-> & _) | (-> & _)]); reflexivity.
Qed.
Lemma firstn_digits n l : digits l -> digits (firstn n l).
Proof. unfold digits. rewrite !forallb_forall. intros H x Hx. apply H. rewrite <- (firstn_skipn n l). apply in_or_app. now left. Qed.
Lemma micros_bound ds : digits ds -> 0 <= micros ds < 1000000.
Proof.
  intros H. unfold micros. pose proof (digits_bound (firstn 6 (ds ++ repeat "0"%char 6))) as B.
  assert (L : length (firstn 6 (ds ++ repeat "0"%char 6)) = 6%nat) by (apply firstn_length_le; rewrite app_length, repeat_length; lia).
  rewrite L in B. apply B. apply firstn_digits, digits_app; [exact H | reflexivity].
Qed.
Lemma day_reads day : day_text day -> exists y m d, day_is day y m d /\ calendar_date y m d /\ (forall zone, date_shape (day ++ zone) zone y m d).
Proof.
  intros (ys & m1 & m2 & d1 & d2 & -> & L & Dy & D & C). exists (digits_Z ys), (digits_Z [m1; m2]), (digits_Z [d1; d2]).
  split; [exists ys, m1, m2, d1, d2; auto 10|]. split; [exact C|].
  intros zone. exists [], ys, m1, m2, d1, d2, []. rewrite <- app_assoc. cbn [app]. rewrite app_nil_r. repeat split; auto; lia.
Qed.
Lemma digits_dec a b : digits [a; b] -> 0 <= digits_Z [a; b].
Proof. intros H. apply digits_bound in H. lia. Qed.
Lemma iso_reads day clock zone : day_text day -> clock_text clock -> zone_text zone ->
  exists y mo d h m sec us tz, day_is day y mo d /\ clock_is clock h m sec us /\ zone_is zone tz /\
    let t := {| dt_year := y; dt_month := mo; dt_day := d; dt_hour := h; dt_min := m; dt_sec := sec; dt_us := us; dt_tz := or_utc tz |} in
    iso_canonical (day ++ "T"%char :: clock ++ zone) = Some t /\ datetime_ok t = true.
Proof.
  intros (ys & m1 & m2 & d1 & d2 & -> & L & Dy & D & C) (h1 & h2 & n1 & n2 & s1 & s2 & fr & -> & Dc & Bh & Bm & Bs & Hf) Hz.
  destruct (zone_reads zone Hz) as (tz & Iz & Rz & _ & Fz & off & Eo & Ho & Okz).
  assert (Hus : exists us, (fr = [] /\ us = 0 \/ exists ds, fr = "."%char :: ds /\ digits ds /\ ds <> [] /\ us = micros ds) /\ iso_frac (fr ++ zone) = (Z.to_N us, zone) /\ 0 <= us < 1000000).
  { destruct Hf as [-> | (ds & -> & Hd & Hn)].
    - exists 0. split; [auto|]. split; [exact Fz | lia].
    - exists (micros ds). split; [right; eauto|]. pose proof (micros_bound ds Hd) as B. split; [|exact B].
      cbn [app]. unfold iso_frac. cbn [Ascii.eqb Bool.eqb orb]. rewrite (span_digits_app ds zone Hd (zone_first zone Hz)).
      destruct ds as [|c ds]; [contradiction|]. f_equal. unfold micros, digits_Z, frac_us. now rewrite N2Z.id. }
  destruct Hus as (us & Ius & Fus & Bus).
  exists (digits_Z ys), (digits_Z [m1; m2]), (digits_Z [d1; d2]), (digits_Z [h1; h2]), (digits_Z [n1; n2]), (digits_Z [s1; s2]), us, tz.
  split; [exists ys, m1, m2, d1, d2; auto 10|]. split; [exists h1, h2, n1, n2, s1, s2, fr; auto 10|]. split; [exact Iz|]. cbv zeta.
  destruct ys as [|y1 [|y2 [|y3 [|y4 [|]]]]]; try discriminate L.
  unfold digits in Dy, D, Dc. cbn [forallb] in Dy, D, Dc. rewrite !andb_true_iff in Dy, D, Dc.
  destruct Dy as (Y1 & Y2 & Y3 & Y4 & _), D as (M1 & M2 & D1 & D2 & _). repeat rewrite andb_true_iff in Dc. destruct Dc as (H1 & H2 & N1 & N2 & S1 & S2 & _).
  split.
  - cbn [app]. unfold iso_canonical. rewrite Y1, Y2, Y3, Y4. cbn [andb].
    rewrite expect_same, (take2_digits m1 m2 _ M1 M2), expect_same, (take2_digits d1 d2 _ D1 D2), expect_same.
    rewrite (take2_digits h1 h2 _ H1 H2), expect_same, (take2_digits n1 n2 _ N1 N2), expect_same, (take2_digits s1 s2 _ S1 S2).
    rewrite Fus, Ho, Eo. rewrite Z2N.id by lia. reflexivity.
  - unfold datetime_ok. cbn [dt_year dt_month dt_day dt_hour dt_min dt_sec dt_us dt_tz]. rewrite Eo.
    rewrite (proj2 (date_ok_spec _ _ _) C).
    replace (time_ok _ _ _ _) with true.
    + cbn [andb]. unfold offset_ok, day_us in Okz. unfold us_per_day. destruct Okz. now rewrite !(proj2 (Z.ltb_lt _ _)).
    + symmetry. apply time_ok_spec. unfold clock_time. assert (forall a b, is_digit a = true -> is_digit b = true -> 0 <= digits_Z [a; b]) as P.
      { intros a b Ha Hb. apply digits_dec. unfold digits. cbn. now rewrite Ha, Hb. }
      pose proof (P _ _ H1 H2). pose proof (P _ _ N1 N2). pose proof (P _ _ S1 S2). lia.
Qed.
Lemma not_nil_digit s c l : to_l s = c :: l -> is_digit c = true -> String.eqb s "nil" = false.
Proof. intros E H. destruct (String.eqb_spec s "nil") as [-> |]; [|reflexivity]. cbn in E. injection E as <- _. discriminate H. Qed.
Lemma date_reads O w : lexical "date" w -> exists v, st_pythonvalue O SDate (VStr w) = Ok v /\ stands_for O SDate w v /\ st_accept O SDate v = Ok v /\ v <> VNil.
Proof.
  inversion 1 as [| | |n ? q Hin|n lo hi ? z Hin|? day zone Es Hd Hz| |]; subst; [cbn in Hin; intuition discriminate | cbn in Hin; intuition discriminate|].
  destruct (day_reads day Hd) as (y & m & d & Hi & Hc & Hs). destruct (zone_reads zone Hz) as (tz & Iz & Rz & Tz & _).
  exists (VXSDDate y m d tz). split; [|split; [econstructor; eauto | split; [reflexivity | discriminate]]].
  apply date_python_ok. right. exists y, m, d, tz. split; [|auto]. exists zone. rewrite Es. auto.
Qed.
Lemma clock_nil clock r : clock_text clock -> exists c l, clock ++ r = c :: l /\ is_digit c = true.
Proof.
  intros (h1 & h2 & n1 & n2 & s1 & s2 & fr & -> & Dc & _). cbn [app]. do 2 eexists. split; [reflexivity|]. unfold digits in Dc. cbn in Dc. now apply andb_true_iff in Dc as [H _].
Qed.
Lemma time_reads O w : lexical "time" w -> exists v, st_pythonvalue O STime (VStr w) = Ok v /\ stands_for O STime w v /\ st_accept O STime v = Ok v /\ v <> VNil.
Proof.
  inversion 1 as [| | |n ? q Hin|n lo hi ? z Hin| |? clock zone Es Hc Hz|]; subst; [cbn in Hin; intuition discriminate | cbn in Hin; intuition discriminate|].
  assert (Hd : day_text (to_l "1900-01-01")).
  { exists (to_l "1900"), "0"%char, "1"%char, "0"%char, "1"%char. split; [reflexivity|]. split; [reflexivity|]. split; [reflexivity|]. split; [reflexivity|]. apply date_ok_spec. reflexivity. }
  destruct (iso_reads _ clock zone Hd Hc Hz) as (y & mo & d & h & m & sec & us & tz & _ & Ic & Iz & Et & Ok).
  exists (VTime {| tm_hour := h; tm_min := m; tm_sec := sec; tm_us := us; tm_tz := or_utc tz |}).
  split; [|split; [econstructor; eauto | split; [reflexivity | discriminate]]].
  cbn [st_pythonvalue time_pythonvalue]. destruct (clock_nil clock zone Hc) as (c & l & Ecl & Dg). rewrite <- Es in Ecl.
  rewrite (not_nil_digit w c l Ecl Dg). unfold time_parse, iso_parse.
  replace (to_l ("1900-01-01T" ++ w)) with (to_l "1900-01-01" ++ "T"%char :: clock ++ zone) by (rewrite <- Es; reflexivity).
  rewrite Et, Ok. reflexivity.
Qed.
Lemma datetime_reads O w : lexical "dateTime" w -> exists v, st_pythonvalue O SDateTime (VStr w) = Ok v /\ stands_for O SDateTime w v /\ st_accept O SDateTime v = Ok v /\ v <> VNil.
Proof.
  inversion 1 as [| | |n ? q Hin|n lo hi ? z Hin| | |? day clock zone Es Hd Hc Hz]; subst; [cbn in Hin; intuition discriminate | cbn in Hin; intuition discriminate|].
  destruct (iso_reads _ clock zone Hd Hc Hz) as (y & mo & d & h & m & sec & us & tz & Id & Ic & Iz & Et & Ok).
  exists (VDateTime {| dt_year := y; dt_month := mo; dt_day := d; dt_hour := h; dt_min := m; dt_sec := sec; dt_us := us; dt_tz := or_utc tz |}).
  split; [|split; [econstructor; eauto | split; [reflexivity | discriminate]]].
  cbn [st_pythonvalue datetime_pythonvalue].
  assert (Hn : String.eqb w "nil" = false).
  { destruct Hd as (ys & m1 & m2 & d1 & d2 & -> & L & Dy & _). destruct ys as [|y1 ys]; [discriminate L|]. cbn [app] in Es. eapply not_nil_digit; [exact Es|].
    unfold digits in Dy. cbn in Dy. now apply andb_true_iff in Dy as [A _]. }
  rewrite Hn. unfold iso_parse. rewrite Es, Et, Ok. reflexivity.
Qed.

(** ** Numbers *)
Lemma whole_chars s z c : whole s z -> In c (to_l s) -> c <> "."%char.
Proof.
  intros (sl & sg & ds & E & Hs & Hd & _) H ->. rewrite E in H. apply in_app_or in H as [H | H]; [exact (sign_no_dot sl sg Hs H) | exact (digits_no_dot ds Hd H)].
Qed.
Lemma whole_number s z q : whole s z -> SpecValid.number s q -> (q == inject_Z z)%Q.
Proof.
  intros Hw (m & k & Hd & Hq). rewrite Hq. destruct Hd as (sl & sg & ip & dot & fp & E & Hs & Hi & Hf & Hdot & Hn & -> & ->).
  destruct Hdot as [(-> & ->) | ->].
  2:{ exfalso. eapply (whole_chars s z "."%char Hw); [|reflexivity]. rewrite E, !in_app_iff. right; right; left; now left. }
  rewrite !app_nil_r in *. cbn [length]. rewrite tenths_0.
  assert (Hw' : whole s (sg * digits_Z ip)) by (exists sl, sg, ip; auto).
  destruct Hw as (sl' & sg' & ds & E' & Hs' & Hd' & Hn' & ->). rewrite E in E'.
  enough (sl = sl' /\ ip = ds) as [-> ->].
  { destruct Hs as [(? & ->) | [(? & ->) | (? & ->)]], Hs' as [(? & ->) | [(? & ->) | (? & ->)]]; subst; try discriminate; reflexivity. }
  unfold digits in *.
  destruct Hs as [(-> & ->) | [(-> & ->) | (-> & ->)]], Hs' as [(-> & ->) | [(-> & ->) | (-> & ->)]]; cbn [app] in E'; subst; try discriminate; try (injection E' as ->); auto.
Qed.
Lemma int_reads s z : whole s z -> int_of_str s = Ok z.
Proof.
  intros (sl & sg & ds & E & Hs & Hd & Hn & ->). apply int_of_str_iff. exists [], sl, [ds], [].
  rewrite E. cbn [join_us concat app]. rewrite !app_nil_r. split; [reflexivity|]. split; [reflexivity|]. split; [reflexivity|].
  split; [split; [discriminate|]; constructor; [auto | constructor]|].
  unfold digits_Z. destruct Hs as [(-> & ->) | [(-> & ->) | (-> & ->)]]; [left | right; left | right; right]; (split; [reflexivity | lia]).
Qed.
Lemma bounds_described O G t n b z : b = VInt z -> z <> 0 ->
  In (n, Some b) [("minInclusive", df_minIn (tf_decimal t)); ("minExclusive", df_minEx (tf_decimal t)); ("maxExclusive", df_maxEx (tf_decimal t)); ("maxInclusive", df_maxIn (tf_decimal t))] ->
  In (facet n (dec_Z z)) (describe_facets O G t).
Proof.
  intros -> Hz H. assert (X : forall n, value_facet O n (Some (VInt z)) = [facet n (dec_Z z)]).
  { intros m. unfold value_facet. replace (py_truthy (VInt z)) with true; [reflexivity|]. cbn. symmetry. apply negb_true_iff. destruct (Qeq_bool (inject_Z z) 0) eqn:Q; [|reflexivity]. apply Qeq_bool_eq in Q. unfold Qeq in Q. cbn in Q. lia. }
  unfold describe_facets. rewrite !in_app_iff. cbn [In] in H.
  destruct H as [H | [H | [H | [H | []]]]]; injection H as <- ->; rewrite X; cbn [In]; tauto.
Qed.
Lemma bound_whole P w z b : whole w z -> bound P w (dec_Z b) -> (forall x y x' y', x == x' -> y == y' -> P x y -> P x' y')%Q -> P (inject_Z z) (inject_Z b).
Proof.
  intros Hw (x & y & Hx & Hy & H) HP. apply (HP x y); [exact (whole_number w z x Hw Hx) | exact (whole_number _ b y (dec_Z_whole b) Hy) | exact H].
Qed.
Lemma integer_fits O mean G c u w z : plain_bounds u -> in_int_range c z -> whole w z ->
  (u = no_dfacets \/ meets mean (describe_facets O G (TSimple (SInteger c u))) w) -> check_restrictions O (mk_integer c u) (VInt z) = Ok tt.
Proof.
  intros (He & Hf & Hp & Ht & Hb) (Hlo & Hhi) Hw Hm.
  destruct (mk_integer_fields c u) as (E1 & E2 & E3 & E4 & E5 & E6 & E7 & E8).
  assert (Hu : forall b, In (Some b) [df_minIn u; df_minEx u; df_maxIn u; df_maxEx u] -> exists k, b = VInt k /\ k <> 0 /\ meets mean (describe_facets O G (TSimple (SInteger c u))) w).
  { intros b Hin. destruct Hm as [-> | Hm]; [cbn in Hin; intuition discriminate|]. destruct (Hb b Hin) as (k & -> & Hk). eauto. }
  assert (N : forall k, is_number (VInt k)) by (intros k; eexists; split; [reflexivity | discriminate]).
  destruct (check_restrictions_num O (mk_integer c u) (VInt z) (NFin (inject_Z z)) eq_refl) as (b & -> & Hiff).
  - discriminate.
  - split; [|split; [|split]]; intros b Hbb.
    + rewrite E3 in Hbb. destruct (Hu b) as (k & -> & _); [rewrite <- Hbb; cbn; tauto | apply N].
    + rewrite E7 in Hbb. destruct (int_hi c); [injection Hbb as <-; apply N|]. destruct (Hu b) as (k & -> & _); [rewrite <- Hbb; cbn; tauto | apply N].
    + rewrite E4 in Hbb. destruct (Hu b) as (k & -> & _); [rewrite <- Hbb; cbn; tauto | apply N].
    + rewrite E8 in Hbb. destruct (int_lo c); [injection Hbb as <-; apply N|]. destruct (Hu b) as (k & -> & _); [rewrite <- Hbb; cbn; tauto | apply N].
  - intros r. rewrite E6. intros [= <-]. reflexivity.
  - replace b with true; [reflexivity|]. symmetry. apply Hiff. split; [|split].
    + intros l. rewrite E1, He. discriminate.
    + assert (D : forall n b k, b = VInt k -> k <> 0 ->
          In (n, Some b) [("minInclusive", df_minIn (mk_integer c u)); ("minExclusive", df_minEx (mk_integer c u)); ("maxExclusive", df_maxEx (mk_integer c u)); ("maxInclusive", df_maxIn (mk_integer c u))] ->
          In (facet n (dec_Z k)) (describe_facets O G (TSimple (SInteger c u)))).
      { intros n b' k Hk Hk0 H. exact (bounds_described O G (TSimple (SInteger c u)) n b' k Hk Hk0 H). }
      split; [|split; [|split]]; intros b' y Hbb Hy.
      * rewrite E3 in Hbb. destruct (Hu b') as (k & Hk & Hk0 & (_ & _ & _ & _ & _ & _ & M & _)); [rewrite <- Hbb; cbn; tauto|]. subst b'. injection Hy as <-.
        cbn [num_lt]. apply (bound_whole (fun v y => v < y)%Q w z k Hw); [|intros x1 y1 x2 y2 -> ->; auto].
        eapply (M (dec_Z k)); [apply (D "maxExclusive" (VInt k) k eq_refl Hk0); rewrite E3, Hbb; cbn; tauto | now apply facet_is_facet].
      * rewrite E7 in Hbb. destruct (int_hi c) as [h|] eqn:Eh.
        { injection Hbb as <-. injection Hy as <-. cbn [num_le]. rewrite <- Zle_Qle. now apply Hhi. }
        destruct (Hu b') as (k & Hk & Hk0 & (_ & _ & _ & _ & _ & M & _)); [rewrite <- Hbb; cbn; tauto|]. subst b'. injection Hy as <-.
        cbn [num_le]. apply (bound_whole (fun v y => v <= y)%Q w z k Hw); [|intros x1 y1 x2 y2 -> ->; auto].
        eapply (M (dec_Z k)); [apply (D "maxInclusive" (VInt k) k eq_refl Hk0); rewrite E7, Hbb; cbn; tauto | now apply facet_is_facet].
      * rewrite E4 in Hbb. destruct (Hu b') as (k & Hk & Hk0 & (_ & _ & _ & _ & M & _)); [rewrite <- Hbb; cbn; tauto|]. subst b'. injection Hy as <-.
        cbn [num_lt]. apply (bound_whole (fun v y => y < v)%Q w z k Hw); [|intros x1 y1 x2 y2 -> ->; auto].
        eapply (M (dec_Z k)); [apply (D "minExclusive" (VInt k) k eq_refl Hk0); rewrite E4, Hbb; cbn; tauto | now apply facet_is_facet].
      * rewrite E8 in Hbb. destruct (int_lo c) as [h|] eqn:Eh.
        { injection Hbb as <-. injection Hy as <-. cbn [num_le]. rewrite <- Zle_Qle. now apply Hlo. }
        destruct (Hu b') as (k & Hk & Hk0 & (_ & _ & _ & M & _)); [rewrite <- Hbb; cbn; tauto|]. subst b'. injection Hy as <-.
        cbn [num_le]. apply (bound_whole (fun v y => y <= v)%Q w z k Hw); [|intros x1 y1 x2 y2 -> ->; auto].
        eapply (M (dec_Z k)); [apply (D "minInclusive" (VInt k) k eq_refl Hk0); rewrite E8, Hbb; cbn; tauto | now apply facet_is_facet].
    + unfold text_sat. rewrite E2, E5, E6, Ht. split; [|split].
      * intros n [= <-]. left. split; [reflexivity|]. intros C. exact (whole_chars _ z _ (dec_Z_whole z) C eq_refl).
      * intros r [= <-]. left. apply int_pattern_dec.
      * discriminate.
Qed.

(** ** Types *)
Definition text_read (O : oracle) (u : stype) (w : string) : Prop :=
  exists v, st_pythonvalue O u (VStr w) = Ok v /\ stands_for O u w v /\ st_accept O u v = Ok v /\ v <> VNil.
Lemma string_reads O c f w : facets_proper f -> plain_string f ->
  (forall r, sf_pattern f = Some r -> full_match r (to_l w)) -> (forall l, sf_enum f = Some l -> In w l) -> text_read O (SString c f) w.
Proof.
  intros Hf (L1 & L2 & L3 & L4) Hp He. exists (VStr w). split; [reflexivity|]. split; [constructor|]. split; [|discriminate].
  apply (string_accept_iff O c f w w Hf). split; [unfold ws_normal; rewrite L4; reflexivity|].
  split; [intros r Hr; left; auto|]. split; [exact He|]. rewrite L1, L2, L3. repeat split; discriminate.
Qed.
Lemma number_not_nil w q : SpecValid.number w q -> w <> "nil".
Proof. intros H ->. destruct (number_chars "nil" q "n"%char H) as [D | D]; [now left | discriminate D | cbn in D; intuition discriminate]. Qed.
Lemma pythonvalue_number accept w : w <> "nil" -> decimal_pythonvalue accept (VStr w) = accept (VStr w).
Proof.
  intros H. destruct (String.eqb_spec w "nil") as [|_]; [contradiction|]. unfold decimal_pythonvalue.
  repeat match goal with |- context [match ?s with String _ _ => _ | EmptyString => _ end] => destruct s | |- context [match ?a with Ascii _ _ _ _ _ _ _ _ => _ end] => destruct a as [[] [] [] [] [] [] [] []] end; try reflexivity.
  now destruct H.
Qed.
Lemma xsd_ref u n : library_text u -> type_ref (TSimple u) = ("xsd:" ++ n)%string -> builtin u = Some n.
Proof.
  intros Hu Hr. assert (X : exists m, builtin u = Some m /\ type_ref (TSimple u) = ("xsd:" ++ m)%string).
  { destruct u; try contradiction; cbn [library_text] in Hu; try (eexists; split; reflexivity).
    - destruct Hu as [<- | [<- | []]]; eexists; split; reflexivity.
    - destruct Hu as [<- | [<- | [<- | []]]]; eexists; split; reflexivity.
    - eexists. split; [reflexivity|]. unfold type_ref. rewrite Hu. reflexivity. }
  destruct X as (m & Hm & Hm'). rewrite Hr in Hm'. cbn in Hm'. injection Hm' as <-. exact Hm.
Qed.
Lemma integer_range c u n w : builtin (SInteger c u) = Some n -> lexical n w -> exists z, whole w z /\ in_int_range c z.
Proof.
  intros Hn Hl. assert (X : exists lo hi z, In (n, (lo, hi)) integer_types /\ whole w z /\ within lo hi z).
  { cbn in Hn. inversion Hl as [| | |m ? q Hin|m lo hi ? z Hin| | |]; subst; try (destruct c; discriminate Hn).
    - exfalso. cbn in Hin. injection Hn as <-. destruct c; intuition discriminate.
    - eauto 10. }
  destruct X as (lo & hi & z & Hin & Hw & Hr). exists z. split; [exact Hw|]. injection Hn as <-.
  cbn [integer_types In] in Hin. destruct c; cbn in Hin;
    repeat (destruct Hin as [Hin | Hin]; [first [discriminate Hin | injection Hin as <- <-; exact Hr]|]); destruct Hin.
Qed.
Lemma library_reads O mean G u n w : reads_numbers O -> library_text u -> type_ref (TSimple u) = ("xsd:" ++ n)%string -> lexical n w -> type_plain u ->
  (bare u \/ restricted mean G u /\ facets_shown G u /\ meets mean (describe_facets O G (TSimple u)) w) ->
  (u = SBoolean -> w <> "0" /\ w <> "1") -> text_read O u w.
Proof.
  intros HO Hu Hr Hl Hp Hf Hb. apply (xsd_ref u n Hu) in Hr. destruct u; try contradiction; cbn [library_text type_plain] in Hu, Hp.
  - apply string_reads; auto.
    + destruct Hf as [(_ & ->) | ((_ & Hf & _) & _)]; [|exact Hf]. repeat split; discriminate.
    + intros r Er. destruct Hf as [(_ & ->) | ((_ & _ & Hm) & (_ & Hs) & (_ & _ & M & _))]; [discriminate Er|].
      destruct M as [M | (p & x & Hx & Fx & M)].
      * exfalso. eapply M; [|apply facet_is_facet; split; reflexivity]. apply facets_pattern; [exact Er | exact (Hs r Er)].
      * apply facets_in in Hx. destruct Hx; apply facet_is_facet in Fx as [F ->]; try discriminate F. cbn in H. rewrite Er in H. injection H as <-. now rewrite (Hm r Er) in M.
    + intros l El. destruct Hf as [(_ & ->) | ((_ & (Hne & _) & _) & (Hs & _) & (_ & M & _))]; [discriminate El|].
      assert (Hd : st_is_direct (TSimple (SString cls f)) = true) by (apply Hs; congruence).
      assert (Ee : strings (tf_enum (TSimple (SString cls f))) = l) by (cbn [tf_enum]; rewrite El; apply strings_map).
      destruct M as [M | (x & Hx & Fx)].
      * destruct l as [|a l]; [contradiction|]. exfalso. eapply (M a); [|apply facet_is_facet; split; reflexivity]. apply facets_enum; [exact Hd | rewrite Ee; now left].
      * apply facets_in in Hx. destruct Hx; apply facet_is_facet in Fx as [F ->]; try discriminate F. now rewrite Ee in H0.
  - injection Hr as <-. inversion Hl as [| |? Hin|m ? q Hin|m lo hi ? z Hin| | |]; subst; [|cbn in Hin; intuition discriminate | cbn in Hin; intuition discriminate].
    destruct (Hb eq_refl) as [B0 B1]. cbn in Hin. destruct Hin as [<- | [<- | [<- | [<- | []]]]]; try contradiction.
    + exists (VBool true). repeat split; try constructor. discriminate.
    + exists (VBool false). repeat split; try constructor. discriminate.
  - injection Hr as <-. exact (date_reads O w Hl).
  - injection Hr as <-. exact (datetime_reads O w Hl).
  - injection Hr as <-. exact (time_reads O w Hl).
  - subst f. assert (Hq : exists q, SpecValid.number w q).
    { inversion Hl as [| | |m ? q Hin Hq|m lo hi ? z Hin| | |]; subst; try (destruct Hu as [<- | [<- | [<- | []]]]; discriminate Hr); eauto.
      exfalso. destruct Hu as [<- | [<- | [<- | []]]]; injection Hr as <-; cbn in Hin; intuition discriminate. }
    destruct Hq as (q & Hq). destruct (HO w q Hq) as (x & Hx). exists (VFloat x).
    cbn [st_pythonvalue]. rewrite (pythonvalue_number _ w (number_not_nil w q Hq)). cbn [decimal_accept]. rewrite Hx.
    split; [reflexivity|]. split; [now constructor|]. split; [reflexivity | discriminate].
  - destruct (integer_range c user n w Hr Hl) as (z & Hw & Hz). exists (VInt z).
    assert (Hq : SpecValid.number w (inject_Z z)) by (exists z, 0%nat; split; [now apply whole_decimal | now rewrite tenths_0]).
    cbn [st_pythonvalue]. rewrite (pythonvalue_number _ w (number_not_nil w _ Hq)). cbn [integer_accept]. rewrite (int_reads w z Hw). cbn [res_map bind].
    assert (Hc : check_restrictions O (mk_integer c user) (VInt z) = Ok tt).
    { apply (integer_fits O mean G c user w z Hp Hz Hw). destruct Hf as [(_ & ->) | (_ & _ & M)]; auto. }
    rewrite Hc. split; [reflexivity|]. split; [now constructor|]. split; [|discriminate]. cbn [st_accept integer_accept bind]. rewrite Hc. reflexivity.
Qed.
