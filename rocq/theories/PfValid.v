(** What simple values write fits the types of XML Schema. *)
From Coq Require Import String Ascii List ZArith NArith Bool QArith Lia.
From Verif Require Import PyBase PyRe Xml PyVal XsdSimple XsdDate XsdComplex LibClasses Py2Xsd SpecXsd SpecSimple SpecDate SpecRound SpecValid SpecGiven PfBase PfRe PfSimple PfDate.
Import ListNotations.
Open Scope string_scope.
Open Scope list_scope.
Open Scope Z_scope.

(** ** Numbers *)
Lemma dec_Z_whole z : whole (dec_Z z) z.
Proof.
  destruct z as [|p|p]; unfold dec_Z.
  - exists [], 1, ["0"%char]. repeat split; try discriminate. now left.
  - exists [], 1, (dec_l (N.pos p)). unfold dec_N. rewrite to_of. split; [reflexivity|].
    split; [now left|]. split; [apply dec_l_digits|]. split; [apply dec_l_nonnil|]. unfold digits_Z. rewrite dec_l_value. lia.
  - exists ["-"%char], (-1), (dec_l (N.pos p)). unfold dec_N.
    change (to_l (String "-" (of_l (dec_l (N.pos p))))) with ("-"%char :: to_l (of_l (dec_l (N.pos p)))). rewrite to_of.
    split; [reflexivity|]. split; [right; right; auto|]. split; [apply dec_l_digits|]. split; [apply dec_l_nonnil|].
    unfold digits_Z. rewrite dec_l_value. lia.
Qed.
Lemma whole_decimal s z : whole s z -> decimal s z 0.
Proof.
  intros (sl & sg & ds & E & Hs & Hd & Hn & ->). exists sl, sg, ds, [], []. rewrite !app_nil_r.
  repeat split; auto.
Qed.
Lemma tenths_0 z : (tenths z 0 == inject_Z z)%Q.
Proof. unfold tenths. simpl. unfold inject_Z. reflexivity. Qed.
Lemma dec_Z_number z : number (dec_Z z) (inject_Z z).
Proof. exists z, 0%nat. split; [apply whole_decimal, dec_Z_whole|]. now rewrite tenths_0. Qed.

Lemma digits_bound l : digits l -> 0 <= digits_Z l < 10 ^ Z.of_nat (length l).
Proof.
  unfold digits, digits_Z. induction l as [|c l IH]; intros H; [cbv; split; [discriminate|reflexivity]|].
  simpl in H. apply andb_true_iff in H as [Hc Hl]. specialize (IH Hl). rewrite digits_value_cons.
  pose proof (digit_val_lt c Hc) as Hv. cbn [length]. rewrite Nat2Z.inj_succ, Z.pow_succ_r by lia.
  rewrite N2Z.inj_add, N2Z.inj_mul, N2Z.inj_pow. change (Z.of_N 10) with 10. rewrite nat_N_Z. nia.
Qed.
Lemma sign_abs l sg : sign_text l sg -> sg = 1 \/ sg = -1.
Proof. intros [(_ & ->) | [(_ & ->) | (_ & ->)]]; auto. Qed.

(** A plain number is written as such. *)
Lemma plain_written O v : plain_number v -> exists q, num_of v = Some (NFin q) /\ number (py_str O v) q.
Proof.
  destruct v; try contradiction; cbn [plain_number].
  - intros _. exists (inject_Z z). split; [reflexivity | apply dec_Z_number].
  - intros (q & Hq & Hn). exists q. cbn [num_of py_str]. now rewrite Hq.
Qed.

(** ** Facets *)
Lemma clark_inj ns a b : clark ns a = clark ns b -> a = b.
Proof.
  unfold clark. intros [= H]. induction ns as [|c ns IH]; cbn in H; [now injection H | injection H; auto].
Qed.
Lemma facet_is_facet n v n' v' : facet_is n v (facet n' v') <-> n = n' /\ v = v'.
Proof.
  unfold facet_is, facet, xel. cbn [el_tag el_attrs assoc]. rewrite String.eqb_refl. split.
  - intros [H1 H2]. apply clark_inj in H1. injection H2 as <-. auto.
  - intros [-> ->]. auto.
Qed.

(** The facets of a type, one by one. *)
Inductive facet_of (O : oracle) (G : decls) (t : ftype) : node -> Prop :=
| fo_enum v : st_is_direct t = true -> In v (strings (tf_enum t)) -> facet_of O G t (facet "enumeration" v)
| fo_pattern p : tf_pattern t = Some p -> dc_re G p <> "" -> facet_of O G t (facet "pattern" (dc_re G p))
| fo_minIn b : df_minIn (tf_decimal t) = Some b -> facet_of O G t (facet "minInclusive" (py_str O b))
| fo_minEx b : df_minEx (tf_decimal t) = Some b -> facet_of O G t (facet "minExclusive" (py_str O b))
| fo_maxEx b : df_maxEx (tf_decimal t) = Some b -> facet_of O G t (facet "maxExclusive" (py_str O b))
| fo_maxIn b : df_maxIn (tf_decimal t) = Some b -> facet_of O G t (facet "maxInclusive" (py_str O b))
| fo_fraction z : df_fraction (tf_decimal t) = Some z -> z <> 0 -> facet_of O G t (facet "fractionDigits" (dec_Z z))
| fo_total z : df_total (tf_decimal t) = Some z -> z <> 0 -> facet_of O G t (facet "totalDigits" (dec_Z z)).
Lemma value_facet_in O n v x : In x (value_facet O n v) -> exists b, v = Some b /\ x = facet n (py_str O b).
Proof. unfold value_facet. destruct v as [b|]; [|intros []]. destruct (py_truthy b); [|intros []]. intros [<- | []]. eauto. Qed.
Lemma int_facet_in n v x : In x (int_facet n v) -> exists z, v = Some z /\ z <> 0 /\ x = facet n (dec_Z z).
Proof. unfold int_facet. destruct v as [b|]; [|intros []]. destruct (Z.eqb_spec b 0); [intros []|]. intros [<- | []]. eauto. Qed.
Lemma facets_in O G t x : In x (describe_facets O G t) -> facet_of O G t x.
Proof.
  unfold describe_facets. rewrite !in_app_iff. intros [H | [H | [H | [H | [H | [H | [H | H]]]]]]].
  - destruct (st_is_direct t) eqn:E; [|destruct H]. apply in_map_iff in H as (v & <- & H). now constructor.
  - destruct (tf_pattern t) as [p|] eqn:E; [|destruct H]. destruct (String.eqb_spec (dc_re G p) "") as [_|N]; [destruct H|].
    destruct H as [<- | []]. now constructor.
  - apply value_facet_in in H as (b & E & ->). now constructor.
  - apply value_facet_in in H as (b & E & ->). now constructor.
  - apply value_facet_in in H as (b & E & ->). now constructor.
  - apply value_facet_in in H as (b & E & ->). now constructor.
  - apply int_facet_in in H as (b & E & Nz & ->). now constructor.
  - apply int_facet_in in H as (b & E & Nz & ->). now constructor.
Qed.
Lemma facets_enum O G t v : st_is_direct t = true -> In v (strings (tf_enum t)) -> In (facet "enumeration" v) (describe_facets O G t).
Proof. intros E H. unfold describe_facets. rewrite E. apply in_or_app. left. now apply in_map. Qed.
Lemma facets_pattern O G t p : tf_pattern t = Some p -> dc_re G p <> "" -> In (facet "pattern" (dc_re G p)) (describe_facets O G t).
Proof.
  intros E H. unfold describe_facets. rewrite E. apply in_or_app. right. apply in_or_app. left.
  destruct (String.eqb_spec (dc_re G p) ""); [contradiction | now left].
Qed.

(** What a text has to satisfy to meet the facets written for its type. *)
Definition facets_met (O : oracle) (mean : string -> re) (G : decls) (t : ftype) (s : string) : Prop :=
  (st_is_direct t = true -> strings (tf_enum t) = [] \/ In s (strings (tf_enum t))) /\
  (forall p, tf_pattern t = Some p -> full_match (mean (dc_re G p)) (to_l s)) /\
  (forall b, df_minIn (tf_decimal t) = Some b -> bound (fun v y => y <= v)%Q s (py_str O b)) /\
  (forall b, df_minEx (tf_decimal t) = Some b -> bound (fun v y => y < v)%Q s (py_str O b)) /\
  (forall b, df_maxIn (tf_decimal t) = Some b -> bound (fun v y => v <= y)%Q s (py_str O b)) /\
  (forall b, df_maxEx (tf_decimal t) = Some b -> bound (fun v y => v < y)%Q s (py_str O b)) /\
  (forall n, df_fraction (tf_decimal t) = Some n -> n <> 0 -> exists m k, number s (tenths m k) /\ Z.of_nat k <= n) /\
  (forall n, df_total (tf_decimal t) = Some n -> n <> 0 -> exists m k, number s (tenths m k) /\ Z.of_nat k <= n /\ Z.abs m < 10 ^ n).
Lemma facets_meet O mean G t s : facets_met O mean G t s -> meets mean (describe_facets O G t) s.
Proof.
  intros (He & Hp & H1 & H2 & H3 & H4 & H5 & H6).
  split.
  { intros x Hx. apply facets_in in Hx. destruct Hx;
      (eexists; eexists; split; [|apply facet_is_facet; split; reflexivity]; cbn; tauto). }
  split.
  { destruct (st_is_direct t) eqn:Ed.
    - destruct (He eq_refl) as [E | Hin].
      + left. intros v x Hx F. apply facets_in in Hx. destruct Hx; apply facet_is_facet in F as [F ->]; try discriminate F.
        rewrite E in H0. destruct H0.
      + right. exists (facet "enumeration" s). split; [now apply facets_enum | now apply facet_is_facet].
    - left. intros v x Hx F. apply facets_in in Hx. destruct Hx; apply facet_is_facet in F as [F ->]; try discriminate F. congruence. }
  split.
  { destruct (tf_pattern t) as [p|] eqn:Ep.
    - destruct (string_dec (dc_re G p) "") as [E|N].
      + left. intros v x Hx F. apply facets_in in Hx. destruct Hx; apply facet_is_facet in F as [F ->]; try discriminate F. congruence.
      + right. exists (dc_re G p), (facet "pattern" (dc_re G p)). split; [now apply facets_pattern|]. split; [now apply facet_is_facet|]. auto.
    - left. intros v x Hx F. apply facets_in in Hx. destruct Hx; apply facet_is_facet in F as [F ->]; try discriminate F. congruence. }
  repeat split; intros b x Hx F; apply facets_in in Hx; destruct Hx; apply facet_is_facet in F as [F ->]; try discriminate F; auto.
  - destruct (H5 _ H H0) as (m & k & Hm & Hk). exists z, m, k. split; [apply dec_Z_whole | auto].
  - destruct (H6 _ H H0) as (m & k & Hm & Hk & Ha). exists z, m, k. split; [apply dec_Z_whole | auto].
Qed.

(** ** Numbers with facets *)
Lemma digits_no_dot l : digits l -> ~ In "."%char l.
Proof. intros H C. unfold digits in H. rewrite forallb_forall in H. apply H in C. discriminate. Qed.
Lemma sign_no_dot l sg : sign_text l sg -> ~ In "."%char l.
Proof. intros [(-> & _) | [(-> & _) | (-> & _)]] H; cbn in H; intuition discriminate. Qed.
Lemma decimal_no_dot s m k : decimal s m k -> (In "."%char (to_l s) -> exists sl sg ip fp, to_l s = sl ++ ip ++ "."%char :: fp /\
    sign_text sl sg /\ digits ip /\ digits fp /\ k = length fp /\ m = sg * digits_Z (ip ++ fp)) /\
  (~ In "."%char (to_l s) -> exists sl sg ip, to_l s = sl ++ ip /\ sign_text sl sg /\ digits ip /\ k = 0%nat /\ m = sg * digits_Z ip).
Proof.
  intros (sl & sg & ip & dot & fp & E & Hs & Hi & Hf & Hd & Hn & Hk & Hm). split.
  - intros H. destruct Hd as [(-> & ->) | ->].
    + exfalso. rewrite E, !app_nil_r, in_app_iff in H.
      destruct H as [H | H]; [exact (sign_no_dot _ _ Hs H) | exact (digits_no_dot _ Hi H)].
    + exists sl, sg, ip, fp. repeat (split; [assumption|]). assumption.
  - intros H. destruct Hd as [(-> & ->) | ->].
    + rewrite !app_nil_r in *. exists sl, sg, ip. auto.
    + exfalso. apply H. rewrite E. apply in_or_app. right. apply in_or_app. right. now left.
Qed.
Lemma split_dot (a b c d : list ascii) : ~ In "."%char a -> ~ In "."%char c -> a ++ "."%char :: b = c ++ "."%char :: d -> a = c /\ b = d.
Proof.
  revert c. induction a as [|x a IH]; intros [|y c] Ha Hc E; cbn in *.
  - injection E as E. auto.
  - injection E as <- E. exfalso. apply Hc. now left.
  - injection E as -> E. exfalso. apply Ha. now left.
  - injection E as -> E. destruct (IH c) as [-> ->]; auto.
Qed.
Lemma fraction_met s q n : number s q -> fraction_ok s n -> n <> 0 -> exists m k, number s (tenths m k) /\ Z.of_nat k <= n.
Proof.
  intros (m & k & Hd & Hq) Hf Hn. exists m, k. split; [exists m, k; split; [exact Hd|reflexivity]|].
  destruct Hf as [(C & _) | (_ & ip & fp & rest & E & Hi & Hp & Hr & Hl)]; [contradiction|].
  destruct (decimal_no_dot s m k Hd) as [H _].
  destruct H as (sl & sg & ip' & fp' & E' & Hs & Hi' & Hf' & Hk & _).
  { rewrite E. apply in_or_app. right. now left. }
  rewrite E, app_assoc in E'. apply split_dot in E' as [E1 E2]; [|assumption|].
  2:{ intros C. apply in_app_or in C as [C | C]; [exact (sign_no_dot _ _ Hs C) | exact (digits_no_dot _ Hi' C)]. }
  assert (rest = []) as ->.
  { destruct Hr as [-> | (r & ->)]; [reflexivity|]. exfalso. apply (digits_no_dot fp' Hf'). rewrite <- E2. apply in_or_app. right. now left. }
  rewrite app_nil_r in E2. subst fp' k. lia.
Qed.
Lemma digits_app a b : digits a -> digits b -> digits (a ++ b).
Proof. unfold digits. intros Ha Hb. now rewrite forallb_app, Ha, Hb. Qed.
Lemma total_met s q n : number s q -> total_ok s n -> exists m k, number s (tenths m k) /\ Z.of_nat k <= n /\ Z.abs m < 10 ^ n.
Proof.
  intros (m & k & Hd & Hq) Ht. exists m, k. split; [exists m, k; split; [exact Hd|reflexivity]|].
  destruct (decimal_no_dot s m k Hd) as [H1 H2]. destruct Ht as [(Hn & Hl) | (Hi & Hl)]; rewrite slen_l in Hl.
  - destruct (H2 Hn) as (sl & sg & ip & E & Hs & Hi & -> & ->). rewrite E, app_length in Hl.
    pose proof (digits_bound ip Hi) as B.
    assert (10 ^ Z.of_nat (length ip) <= 10 ^ n) by (apply Z.pow_le_mono_r; lia).
    destruct (sign_abs _ _ Hs) as [-> | ->]; lia.
  - destruct (H1 Hi) as (sl & sg & ip & fp & E & Hs & Hip & Hfp & -> & ->). rewrite E, !app_length in Hl. cbn [length] in Hl.
    pose proof (digits_bound (ip ++ fp) (digits_app _ _ Hip Hfp)) as B. rewrite app_length in B.
    assert (10 ^ Z.of_nat (length ip + length fp) <= 10 ^ n) by (apply Z.pow_le_mono_r; lia).
    destruct (sign_abs _ _ Hs) as [-> | ->]; lia.
Qed.

Lemma plain_is_number b : plain_number b -> is_number b.
Proof. destruct b; try contradiction; cbn [plain_number is_number num_of]; [eexists; split; [reflexivity|discriminate]|..]; intros (q & E & _); exists (NFin q); cbn; rewrite E; (split; [reflexivity | discriminate]). Qed.

Lemma number_chars s q c : number s q -> In c (to_l s) -> is_digit c = true \/ In c ["+"; "-"; "."]%char.
Proof.
  intros (m & k & (sl & sg & ip & dot & fp & E & Hs & Hi & Hf & Hd & _) & _) H. rewrite E, !in_app_iff in H.
  unfold digits in Hi, Hf. rewrite forallb_forall in Hi, Hf.
  destruct H as [H | [H | [H | H]]]; auto.
  - right. destruct Hs as [(-> & _) | [(-> & _) | (-> & _)]]; cbn in *; intuition.
  - right. destruct Hd as [(-> & _) | ->]; cbn in *; intuition.
Qed.
Lemma number_not_nl s q : number s q -> ~ In nl (to_l s).
Proof. intros H C. destruct (number_chars s q _ H C) as [D | D]; [discriminate D|]. cbn in D. intuition discriminate. Qed.
Lemma rm_suffix r s s' : rm r s s' -> exists p, snd s = p ++ snd s'.
Proof.
  induction 1; cbn [snd] in *; try (exists []; reflexivity); try assumption.
  - exists [c]. reflexivity.
  - destruct IHrm1 as (p & ->), IHrm2 as (p' & ->). exists (p ++ p'). now rewrite app_assoc.
  - destruct IHrm1 as (p & ->), IHrm2 as (p' & ->). exists (p ++ p'). now rewrite app_assoc.
Qed.
Lemma pattern_full r s : pattern_sat r s -> (forall p, to_l s <> p ++ [nl]) -> full_match r (to_l s).
Proof. intros [H | (b & H)] N; [exact H|]. apply rm_suffix in H as (p & E). cbn in E. exfalso. exact (N p E). Qed.

Lemma numeric_met O mean G t f v : plain_number v -> plain_facets mean G f -> tf_decimal t = f -> tf_pattern t = df_pattern f ->
  tf_enum t = match df_enum f with Some l => l | None => [] end -> (st_is_direct t = true -> texts (tf_enum t)) ->
  check_restrictions O f v = Ok tt -> facets_met O mean G t (py_str O v).
Proof.
  intros Hv (Hpp & Hpm & Hb) Hd Hp He Hx Hc. destruct (plain_written O v Hv) as (q & Eq & Hn).
  assert (Hbn : bounds_numeric f).
  { split; [|split; [|split]]; intros b E; apply plain_is_number, Hb; rewrite <- E; cbn; tauto. }
  destruct (check_restrictions_num O f v (NFin q) Eq ltac:(discriminate) Hbn Hpp) as (b & E & Hs).
  rewrite E in Hc. destruct b; [|discriminate Hc].
  destruct (proj1 Hs eq_refl) as (H1 & (B1 & B2 & B3 & B4) & T1 & T2 & T3).
  unfold facets_met. rewrite Hd, Hp. split.
  { intros D. left. specialize (Hx D). rewrite He in *. destruct (df_enum f) as [l|] eqn:El; [|reflexivity].
    destruct (H1 l El) as (e & y & Hin & Ey & _). unfold texts in Hx. rewrite Forall_forall in Hx.
    destruct (Hx e Hin) as (s & -> & _). discriminate Ey. }
  split.
  { intros r Er. rewrite (Hpm r Er). apply pattern_full; [auto|]. intros p C. apply (number_not_nl _ _ Hn). rewrite C.
    apply in_or_app. right. now left. }
  assert (Y : forall b, In (Some b) [df_minIn f; df_minEx f; df_maxIn f; df_maxEx f] -> exists y, num_of b = Some (NFin y) /\ number (py_str O b) y).
  { intros b Hin. exact (plain_written O b (Hb b Hin)). }
  split; [|split; [|split; [|split]]].
  - intros b Eb. destruct (Y b) as (y & Ey & Hy); [rewrite <- Eb; cbn; tauto|]. exists q, y. split; [exact Hn|]. split; [exact Hy|]. exact (B4 b _ Eb Ey).
  - intros b Eb. destruct (Y b) as (y & Ey & Hy); [rewrite <- Eb; cbn; tauto|]. exists q, y. split; [exact Hn|]. split; [exact Hy|]. exact (B3 b _ Eb Ey).
  - intros b Eb. destruct (Y b) as (y & Ey & Hy); [rewrite <- Eb; cbn; tauto|]. exists q, y. split; [exact Hn|]. split; [exact Hy|]. exact (B2 b _ Eb Ey).
  - intros b Eb. destruct (Y b) as (y & Ey & Hy); [rewrite <- Eb; cbn; tauto|]. exists q, y. split; [exact Hn|]. split; [exact Hy|]. exact (B1 b _ Eb Ey).
  - split.
    + intros n En Nz. exact (fraction_met _ q n Hn (T1 n En) Nz).
    + intros n En _. exact (total_met _ q n Hn (T3 n En)).
Qed.

(** ** Dates and times *)
Lemma day_written O y m d : calendar_date y m d -> (1000 <= y \/ o_year_pad O = true) -> day_text (fmt_date O y m d).
Proof.
  intros Hc Hy. destruct (calendar_bounds y m d Hc) as (By & Bm & Bd). unfold fmt_date. rewrite fmt_year_ok by assumption.
  destruct (fmt2_ex m ltac:(lia)) as (m1 & m2 & Em & D1 & D2 & Vm).
  destruct (fmt2_ex d ltac:(lia)) as (d1 & d2 & Ed & D3 & D4 & Vd).
  rewrite Em, Ed. exists (fixed_l 4 (Z.to_N y)), m1, m2, d1, d2. split; [reflexivity|]. split; [apply fixed_length|].
  split; [apply fixed_digits|]. split; [unfold digits; simpl; now rewrite D1, D2, D3, D4|].
  unfold digits_Z. rewrite Vm, Vd, fixed_value by (change (10 ^ N.of_nat 4)%N with 10000%N; lia). rewrite Z2N.id by lia. exact Hc.
Qed.
Lemma clock_written h mi s us : clock_time h mi s us -> clock_text (fmt_time h mi s).
Proof.
  intros (Bh & Bm & Bs & _). unfold fmt_time.
  destruct (fmt2_ex h ltac:(lia)) as (h1 & h2 & Eh & D1 & D2 & Vh).
  destruct (fmt2_ex mi ltac:(lia)) as (m1 & m2 & Em & D3 & D4 & Vm).
  destruct (fmt2_ex s ltac:(lia)) as (s1 & s2 & Es & D5 & D6 & Vs).
  rewrite Eh, Em, Es. exists h1, h2, m1, m2, s1, s2, []. split; [reflexivity|].
  split; [unfold digits; simpl; now rewrite D1, D2, D3, D4, D5, D6|]. unfold digits_Z. rewrite Vh, Vm, Vs. repeat split; try lia. now left.
Qed.
Lemma zone_written tz : zone_ok tz -> zone_text (fmt_tz tz).
Proof.
  intros H. destruct tz as [off|]; [|now left]. cbn [fmt_tz]. specialize (H off eq_refl). unfold minute_us in H.
  right; right. destruct (tz_string_suffix off) as (m & Hs & _ & Hd).
  - unfold offset_ok, day_us. lia.
  - lia.
  - exists m. split; [exact Hs|]. destruct (tz_string_form off) as (h1 & h2 & m1 & m2 & E & D & Hh & Hm & B); [unfold offset_ok, day_us; lia|].
    destruct Hs as (sg & a1 & a2 & b1 & b2 & E' & D' & Hv). rewrite E in E'. injection E' as <- <- <- <- <-.
    cbv zeta in Hv. rewrite Hh, Hm in Hv. destruct Hv as (_ & _ & Hv).
    assert (S : tz_seconds off <= 50400) by (unfold tz_seconds; lia).
    destruct Hv as [(_ & ->) | (_ & ->)]; lia.
Qed.

(** ** Simple types *)
Lemma integer_known c f n : builtin (SInteger c f) = Some n ->
  exists lo hi, In (n, (lo, hi)) integer_types /\ (forall z, in_int_range c z -> within lo hi z).
Proof.
  intros [= <-]. exists (int_lo c), (int_hi c). split; [destruct c; cbn; tauto|]. intros z H. exact H.
Qed.
Lemma integer_in_range c u z : bounds_sat (mk_integer c u) (NFin (inject_Z z)) -> in_int_range c z.
Proof.
  intros (_ & B2 & _ & B4).
  assert (L : forall b, int_lo c = Some b -> df_minIn (mk_integer c u) = Some (VInt b)) by (destruct c; intros b [= <-]; reflexivity).
  assert (U : forall b, int_hi c = Some b -> df_maxIn (mk_integer c u) = Some (VInt b)) by (destruct c; intros b [= <-]; reflexivity).
  split; intros b Hb.
  - specialize (B4 (VInt b) _ (L b Hb) eq_refl). cbn [num_le] in B4. now rewrite <- Zle_Qle in B4.
  - specialize (B2 (VInt b) _ (U b Hb) eq_refl). cbn [num_le] in B2. now rewrite <- Zle_Qle in B2.
Qed.

Lemma integer_checked O c u z : st_accept O (SInteger c u) (VInt z) = Ok (VInt z) -> check_restrictions O (mk_integer c u) (VInt z) = Ok tt.
Proof. cbn [st_accept integer_accept bind]. destruct (check_restrictions O (mk_integer c u) (VInt z)) as [[]|]; [reflexivity | discriminate]. Qed.
Lemma decimal_checked O c f v : plain_number v -> st_accept O (SDecimal c f) v = Ok v -> check_restrictions O f v = Ok tt.
Proof.
  destruct v; try contradiction; intros _; cbn [st_accept decimal_accept bind]; (match goal with |- context [check_restrictions O f ?v] => destruct (check_restrictions O f v) as [[]|] end; [reflexivity | discriminate]).
Qed.

(** A type that is called by its name in XML Schema. *)
Definition library_text (u : stype) : Prop :=
  match u with
  | SString c _ => text_class c
  | SBoolean | SDate | SDateTime | STime => True
  | SDecimal c _ => number_class c
  | SInteger _ _ => unlisted u = false
  | _ => False
  end.
Lemma bare_library u : bare u -> library_text u.
Proof. destruct u; cbn; tauto. Qed.
Lemma restricted_library mean G u : restricted mean G u -> library_text u.
Proof. destruct u; cbn; tauto. Qed.
Lemma written_lexical O u v t : library_text u -> ordinary O u v -> (forall c f z, u = SInteger c f -> v = VInt z -> in_int_range c z) ->
  st_xmlvalue O u v = Ok (VStr t) -> exists n, type_ref (TSimple u) = ("xsd:" ++ n)%string /\ lexical n t.
Proof.
  intros Hu Ho Hi Hx. destruct u; try contradiction; cbn [library_text] in Hu.
  - destruct v; try contradiction. injection Hx as ->. cbn in Hu. destruct Hu as [<- | [<- | []]]; (eexists; split; [reflexivity | constructor]).
  - destruct v as [| |b|z|fl|d|st|y m d|y m d tz|dt|tm|c e fs|l b|w]; try contradiction. exists "boolean". split; [reflexivity|]. constructor.
    destruct b; injection Hx as <-; cbn; tauto.
  - destruct v as [| |b|z|fl|d|st|y m d|y m d tz|dt|tm|c e fs|l b|w]; try contradiction. destruct Ho as (Hc & Hy & Hz). injection Hx as <-.
    exists "date". split; [reflexivity|]. apply (lx_date _ (fmt_date O y m d) (fmt_tz tz)); [apply to_of | now apply day_written | exact (zone_written tz Hz)].
  - destruct v as [| |b|z|fl|d|st|y m d|y m d tz|dt|tm|c e fs|l b|w]; try contradiction. destruct Ho as (Hc & Hy & Ht & Hz). injection Hx as <-.
    exists "dateTime". split; [reflexivity|]. apply (lx_dateTime _ (fmt_date O (dt_year dt) (dt_month dt) (dt_day dt)) (fmt_time (dt_hour dt) (dt_min dt) (dt_sec dt)) (fmt_tz (dt_tz dt))); [apply to_of | now apply day_written | exact (clock_written _ _ _ _ Ht) | exact (zone_written _ Hz)].
  - destruct v as [| |b|z|fl|d|st|y m d|y m d tz|dt|tm|c e fs|l b|w]; try contradiction. destruct Ho as (Ht & Hz). injection Hx as <-.
    exists "time". split; [reflexivity|]. apply (lx_time _ (fmt_time (tm_hour tm) (tm_min tm) (tm_sec tm)) (fmt_tz (tm_tz tm))); [exact (to_of (fmt_time (tm_hour tm) (tm_min tm) (tm_sec tm) ++ fmt_tz (tm_tz tm))) | exact (clock_written _ _ _ _ Ht) | exact (zone_written _ Hz)].
  - cbn [ordinary] in Ho. cbn in Hx. injection Hx as <-. destruct (plain_written O v Ho) as (q & _ & Hn).
    cbn in Hu. destruct Hu as [<- | [<- | [<- | []]]]; (eexists; split; [reflexivity|]); (eapply lx_decimal; [|exact Hn]); cbn; tauto.
  - destruct v as [| |b|z|fl|d|st|y m d|y m d tz|dt|tm|c' e fs|l b|w]; try contradiction. cbn in Hx. injection Hx as <-.
    destruct (integer_known c user _ eq_refl) as (lo & hi & Hin & Hw). eexists. split.
    { unfold type_ref. cbn [builtin]. rewrite Hu. reflexivity. }
    eapply lx_integer; [exact Hin | apply dec_Z_whole | apply Hw; eauto].
Qed.

Lemma bare_written O u v t : bare u -> st_accept O u v = Ok v -> ordinary O u v -> st_xmlvalue O u v = Ok (VStr t) ->
  exists n, type_ref (TSimple u) = ("xsd:" ++ n)%string /\ lexical n t.
Proof.
  intros Hb Ha Ho Hx. apply (written_lexical O u v t (bare_library u Hb) Ho); [|exact Hx].
  intros c f z -> ->. cbn in Hb. destruct Hb as [_ ->]. cbn [st_accept integer_accept bind] in Ha. rewrite integer_check in Ha.
  apply in_int_rangeb_spec. destruct (in_int_rangeb c z); [reflexivity | discriminate Ha].
Qed.
Lemma strings_map l : strings (map VStr l) = l.
Proof. induction l as [|a l IH]; [reflexivity|]. cbn. unfold strings in IH. now rewrite IH. Qed.
Lemma not_nl s : (forall t, s <> (t ++ String nl "")%string) -> forall p, to_l s <> p ++ [nl].
Proof. intros H p E. apply (H (of_l p)). apply to_l_inj. rewrite to_l_app, to_of, E. reflexivity. Qed.
Lemma string_met O c f s mean G : facets_proper f -> (forall r, sf_pattern f = Some r -> mean (dc_re G r) = r) ->
  st_accept O (SString c f) (VStr s) = Ok (VStr s) -> ordinary O (SString c f) (VStr s) -> facets_met O mean G (TSimple (SString c f)) s.
Proof.
  intros Hf Hm Ha Ho. apply (string_accept_iff O c f s s Hf) in Ha as (_ & Hp & He & _).
  unfold facets_met. cbn [tf_enum tf_pattern tf_decimal]. split.
  { intros _. destruct (sf_enum f) as [l|] eqn:El; [right; rewrite strings_map; auto | now left]. }
  split.
  { intros r Er. rewrite (Hm r Er). apply pattern_full; [auto|]. apply not_nl, Ho. congruence. }
  repeat split; intros ? H; discriminate H.
Qed.
Lemma restricted_written O mean G u v t : restricted mean G u -> (st_is_direct (TSimple u) = true -> texts (tf_enum (TSimple u))) ->
  st_accept O u v = Ok v -> ordinary O u v -> st_xmlvalue O u v = Ok (VStr t) ->
  (exists n, type_ref (TSimple u) = ("xsd:" ++ n)%string /\ lexical n t) /\ meets mean (describe_facets O G (TSimple u)) t.
Proof.
  intros Hr Hd Ha Ho Hx. split.
  - apply (written_lexical O u v t (restricted_library mean G u Hr) Ho); [|exact Hx].
    intros c f z -> ->. destruct Hr as (_ & Hp & Hm & Hb). apply integer_checked in Ha.
    assert (Hbn : bounds_numeric (mk_integer c f)).
    { split; [|split; [|split]]; intros b E; apply plain_is_number, Hb; rewrite <- E; cbn [In]; tauto. }
    destruct (check_restrictions_num O (mk_integer c f) (VInt z) _ eq_refl ltac:(discriminate) Hbn Hp) as (b & E & Hs).
    rewrite E in Ha. destruct b; [|discriminate Ha]. destruct (proj1 Hs eq_refl) as (_ & B & _). exact (integer_in_range c f z B).
  - apply facets_meet. destruct u; try contradiction; cbn [restricted] in Hr.
    + destruct v; try contradiction. injection Hx as ->. destruct Hr as (_ & Hf & Hm). exact (string_met O _ _ _ _ _ Hf Hm Ha Ho).
    + unfold facets_met. cbn. repeat split; try (intros; discriminate). now left.
    + unfold facets_met. cbn. repeat split; try (intros; discriminate). now left.
    + unfold facets_met. cbn. repeat split; try (intros; discriminate). now left.
    + unfold facets_met. cbn. repeat split; try (intros; discriminate). now left.
    + cbn [ordinary] in Ho. cbn in Hx. injection Hx as <-. destruct Hr as (_ & Hf).
      exact (numeric_met O mean G (TSimple (SDecimal cls f)) f v Ho Hf eq_refl eq_refl eq_refl Hd (decimal_checked O _ _ v Ho Ha)).
    + destruct v as [| |b|z|fl|d|st|y m d|y m d tz|dt|tm|c' e fs|l b|w]; try contradiction. cbn in Hx. injection Hx as <-. destruct Hr as (_ & Hf).
      exact (numeric_met O mean G (TSimple (SInteger c user)) (mk_integer c user) (VInt z) I Hf eq_refl eq_refl eq_refl Hd (integer_checked O _ _ z Ha)).
Qed.
