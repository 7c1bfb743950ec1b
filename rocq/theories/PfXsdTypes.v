(** Proofs for C103. *)
From Coq Require Import String Ascii List ZArith Bool Lia.
From Verif Require Import PyBase Xml PyVal XsdDate XsdSimple XsdTypes SpecDate PfDate.
Import ListNotations.
Open Scope Z_scope.

Definition same_tz (a b : option Z) : bool :=
  match a, b with Some x, Some y => (x =? y)%Z | None, None => true | _, _ => false end.
Lemma same_tz_eq a b : same_tz a b = true <-> a = b.
Proof.
  destruct a as [x|], b as [y|]; cbn; try (split; congruence).
  rewrite Z.eqb_eq. split; congruence.
Qed.
Lemma eq_four y m d tz y' m' d' tz' :
  ((y =? y') && ((m =? m') && ((d =? d') && (same_tz tz tz' && true))))%Z = true <-> y' = y /\ m' = m /\ d' = d /\ tz' = tz.
Proof. rewrite !andb_true_iff, !Z.eqb_eq, same_tz_eq. intuition congruence. Qed.
Lemma eq_xsddates y m d tz y' m' d' tz' :
  xsddate_eq (VXSDDate y m d tz) (VXSDDate y' m' d' tz') = true <-> y' = y /\ m' = m /\ d' = d /\ tz' = tz.
Proof. rewrite <- eq_four. destruct tz, tz'; reflexivity. Qed.
Lemma eq_datetime y m d tz t :
  xsddate_eq (VXSDDate y m d tz) (VDateTime t) = true <-> dt_year t = y /\ dt_month t = m /\ dt_day t = d /\ dt_tz t = tz.
Proof. rewrite <- eq_four. destruct t as [? ? ? ? ? ? ? tz']. destruct tz, tz'; reflexivity. Qed.
Lemma eq_kinds y m d tz v : xsddate_eq (VXSDDate y m d tz) v = true ->
  (exists y' m' d' tz', v = VXSDDate y' m' d' tz') \/ (exists t, v = VDateTime t) \/ (exists c xe fs, v = VObj c xe fs).
Proof.
  destruct v; cbn; try discriminate; eauto 8.
  rewrite !andb_false_r. discriminate.
Qed.
Lemma eq_congr O a b y m d tz : a = VXSDDate y m d tz -> (exists y' m' d' tz', b = VXSDDate y' m' d' tz') -> xsddate_eq a b = true ->
  st_xmlvalue O SDate b = st_xmlvalue O SDate a.
Proof. intros -> (y' & m' & d' & tz' & ->) H. apply eq_xsddates in H as (-> & -> & -> & ->). reflexivity. Qed.
Lemma datetime_not_transitive y m d tz : exists t1 t2,
  xsddate_eq (VXSDDate y m d tz) (VDateTime t1) = true /\ xsddate_eq (VXSDDate y m d tz) (VDateTime t2) = true /\
  dt_hour t1 <> dt_hour t2 /\ clock_time (dt_hour t1) (dt_min t1) (dt_sec t1) (dt_us t1) /\ clock_time (dt_hour t2) (dt_min t2) (dt_sec t2) (dt_us t2).
Proof.
  exists {| dt_year := y; dt_month := m; dt_day := d; dt_hour := 5; dt_min := 0; dt_sec := 0; dt_us := 0; dt_tz := tz |},
         {| dt_year := y; dt_month := m; dt_day := d; dt_hour := 6; dt_min := 0; dt_sec := 0; dt_us := 0; dt_tz := tz |}.
  split; [now apply eq_datetime|]. split; [now apply eq_datetime|]. split; [discriminate|]. split; unfold clock_time; cbn; lia.
Qed.
Lemma date_there y m d : calendar_date y m d ->
  exists x, from_datetime_date (VDate y m d) = Ok x /\ x = VXSDDate y m d None /\ as_datetime_date x = Ok (VDate y m d).
Proof.
  intros H. exists (VXSDDate y m d None). unfold from_datetime_date, as_datetime_date. cbn [attribute String.eqb]. cbn.
  destruct (mk_xsddate_cases y m d None) as [[_ E]|[[C _]|[C _]]]; [|now destruct C|destruct H; lia].
  split; [exact E|]. split; [reflexivity|]. unfold mk_xsddate in E. destruct (py_date y m d); [reflexivity|discriminate].
Qed.
Lemma xsddate_there y m d tz : calendar_date y m d ->
  exists v x, as_datetime_date (VXSDDate y m d tz) = Ok v /\ from_datetime_date v = Ok x /\
    (xsddate_eq (VXSDDate y m d tz) x = true <-> tz = None).
Proof.
  intros H. destruct (date_there y m d H) as (x & F & -> & A). exists (VDate y m d), (VXSDDate y m d None).
  split; [exact A|]. split; [exact F|]. rewrite eq_xsddates. intuition congruence.
Qed.
Lemma date_assign O : st_accept O SDate VNone = Ok VNone /\
  (forall y m d tz, st_accept O SDate (VXSDDate y m d tz) = Ok (VXSDDate y m d tz)) /\
  (forall y m d, calendar_date y m d -> st_accept O SDate (VDate y m d) = Ok (VXSDDate y m d None)) /\
  (forall v, match v with VDateTime _ | VTime _ | VStr _ | VInt _ | VBool _ | VFloat _ | VDec _ | VNil | VList _ _ => True | _ => False end ->
     st_accept O SDate v = Err ValueError).
Proof.
  split; [reflexivity|]. split; [reflexivity|]. split.
  - intros y m d H. cbn. destruct (mk_xsddate_cases y m d None) as [[_ E]|[[C _]|[C _]]]; [exact E|now destruct C|destruct H; lia].
  - intros []; intros H; try destruct H; reflexivity.
Qed.
