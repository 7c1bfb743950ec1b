(** Lemmas about loading a generated module: executing its statements. *)
From Coq Require Import String Ascii List ZArith NArith Bool Lia Permutation Sorted.
From Verif Require Import PyBase PyVal XsdSimple XsdComplex PySort XsdMeta SpecMeta Xsd2Py PyLoad PfBase PfMeta PfMeta2 PfLoad.
Import ListNotations.
Open Scope nat_scope.
Open Scope string_scope.
Open Scope list_scope.

Record good (ms : mstate) : Prop := {
  gd_tidy : tidy (ms_world ms);
  gd_class : length (ms_class ms) = length (w_classes (ms_world ms));
  gd_base : 3 <= length (ms_class ms) /\ firstn 3 (ms_class ms) = ms_class start /\
            forall c, c < 3 -> class_fields (ms_world ms) c = [];
  gd_mro : forall c k, nth_error (w_classes (ms_world ms)) c = Some k -> exists t, k_mro k = c :: t;
  gd_nodup : NoDup (map fst (ms_names ms));
  gd_names : forall n c, assoc n (ms_names ms) = Some (MComplex c) -> 3 <= c < length (ms_class ms) /\ class_name ms c = n;
  gd_ident : forall n m, assoc n (ms_names ms) = Some m -> identifier n = true }.

Record ext (ms ms' : mstate) : Prop := {
  ex_names : exists l, ms_names ms' = ms_names ms ++ l;
  ex_class : exists l, ms_class ms' = ms_class ms ++ l;
  ex_classes : exists l, w_classes (ms_world ms') = w_classes (ms_world ms) ++ l;
  ex_store : exists l, w_store (ms_world ms') = w_store (ms_world ms) ++ l }.

Lemma ext_refl ms : ext ms ms.
Proof. split; exists []; now rewrite app_nil_r. Qed.
Lemma ext_trans a b c : ext a b -> ext b c -> ext a c.
Proof.
  intros [[l1 H1] [l2 H2] [l3 H3] [l4 H4]] [[m1 G1] [m2 G2] [m3 G3] [m4 G4]]. split.
  - exists (l1 ++ m1). now rewrite G1, H1, app_assoc.
  - exists (l2 ++ m2). now rewrite G2, H2, app_assoc.
  - exists (l3 ++ m3). now rewrite G3, H3, app_assoc.
  - exists (l4 ++ m4). now rewrite G4, H4, app_assoc.
Qed.

Lemma assoc_app_l {A} k (v : A) l l' : assoc k l = Some v -> assoc k (l ++ l') = Some v.
Proof. induction l as [|[k' v'] t IH]; cbn; [discriminate|]. destruct (String.eqb k k'); auto. Qed.
Lemma assoc_app_r {A} k (l l' : list (string * A)) : assoc k l = None -> assoc k (l ++ l') = assoc k l'.
Proof. induction l as [|[k' v'] t IH]; cbn; [reflexivity|]. destruct (String.eqb k k'); auto. discriminate. Qed.
Lemma ext_bound ms ms' n m : ext ms ms' -> assoc n (ms_names ms) = Some m -> assoc n (ms_names ms') = Some m.
Proof. intros E H. destruct (ex_names _ _ E) as [l ->]. now apply assoc_app_l. Qed.
Lemma ext_class_fields ms ms' c : good ms -> ext ms ms' -> c < length (ms_class ms) ->
  class_fields (ms_world ms') c = class_fields (ms_world ms) c.
Proof.
  intros G E H. rewrite (gd_class ms G) in H. destruct (ex_classes _ _ E) as [lc Hc], (ex_store _ _ E) as [ls Hs].
  destruct (nth_error (w_classes (ms_world ms)) c) as [k|] eqn:Hk; [|apply nth_error_None in Hk; lia].
  assert (Hk' : nth_error (w_classes (ms_world ms')) c = Some k) by (rewrite Hc; now rewrite nth_error_app1).
  rewrite (class_fields_of _ _ _ Hk), (class_fields_of _ _ _ Hk'). apply map_ext_in. intros d Hd. rewrite Hs. apply desc_app.
  now apply (all_known _ _ _ _ (proj1 (gd_tidy ms G)) Hk).
Qed.
Lemma ext_class_name ms ms' c : ext ms ms' -> c < length (ms_class ms) -> nth c (ms_class ms') ("", ISequence) = nth c (ms_class ms) ("", ISequence).
Proof. intros E H. destruct (ex_class _ _ E) as [l ->]. now apply app_nth1. Qed.
Lemma ext_mro ms ms' c : good ms -> ext ms ms' -> c < length (ms_class ms) -> mro_of ms' c = mro_of ms c.
Proof. intros G E H. rewrite (gd_class ms G) in H. unfold mro_of. destruct (ex_classes _ _ E) as [l ->]. now rewrite nth_error_app1. Qed.

Lemma lib_complex n c : lib_class n = Some (MComplex c) -> c < 3.
Proof.
  unfold lib_class. cbn [assoc map app fst snd].
  repeat match goal with |- context [String.eqb n ?x] => destruct (String.eqb n x); [intros [=]; subst; lia|] end. discriminate.
Qed.
Lemma eval_complex ms e c : good ms -> eval_type ms e = Ok (TvClass (MComplex c)) -> c < length (ms_class ms).
Proof.
  intros G. unfold eval_type. destruct (String.prefix "xsd." e).
  - destruct (lib_class _) as [m|] eqn:E; [|discriminate]. intros [= ->]. apply lib_complex in E. pose proof (proj1 (gd_base ms G)). lia.
  - destruct (String.prefix lazy_prefix e); [discriminate|]. destruct (identifier e); [|discriminate].
    destruct (assoc e (ms_names ms)) as [m|] eqn:E; [|discriminate]. intros [= ->]. now apply (gd_names ms G) in E.
Qed.

Lemma make_field_name rt ms g f : make_field rt ms g = Ok f -> f_name f = gf_attr g /\ identifier (gf_attr g) = true.
Proof.
  unfold make_field. destruct (identifier (gf_attr g)); cbn [negb]; [|discriminate].
  intros H. apply bind_ok in H as (t & _ & H). apply bind_ok in H as (kw & _ & H). split; [|reflexivity].
  destruct (_ || _)%bool.
  - cbn zeta in H. destruct (_ || _)%bool; [injection H as <-; reflexivity|discriminate].
  - destruct (String.eqb (gf_cls g) "ListElement"); injection H as <-; reflexivity.
Qed.
Lemma mapM_forall2 {A B} (f : A -> res B) l : forall l', mapM f l = Ok l' -> Forall2 (fun x y => f x = Ok y) l l'.
Proof.
  induction l as [|x t IH]; intros l' H; cbn in H.
  - injection H as <-. constructor.
  - apply bind_ok in H as (y & E & H). apply bind_ok in H as (ys & E' & H). injection H as <-. constructor; auto.
Qed.
Lemma make_fields_names rt ms gs fs : mapM (make_field rt ms) gs = Ok fs -> map f_name fs = map gf_attr gs.
Proof. intros H. apply mapM_forall2 in H. induction H as [|g f gs fs H F IH]; cbn; [reflexivity|]. apply make_field_name in H as [-> _]. now rewrite IH. Qed.

(** The names assigned in the body of a class. *)
Definition body_names (g : gclass) : list string := created g ++ map gf_attr (gc_fields g) ++ const_names g.
Lemma str_in_app s l l' : str_in s (l ++ l') = (str_in s l || str_in s l')%bool.
Proof. unfold str_in. apply existsb_app. Qed.

Lemma define_step rt ms g b ms' : good ms -> identifier (gc_name g) = true -> assoc (gc_name g) (ms_names ms) = None -> b < length (ms_class ms) ->
  define_complex rt ms g b = Ok ms' ->
  let c := length (ms_class ms) in
  good ms' /\ ext ms ms' /\ ms_names ms' = ms_names ms ++ [(gc_name g, MComplex c)] /\
  nth c (ms_class ms') ("", ISequence) =
    (gc_name g, match own_indicator g with Some i => i | None => snd (nth b (ms_class ms) ("", ISequence)) end) /\
  mro_of ms' c = c :: mro_of ms b /\
  (match gc_create g with Some ps => forallb identifier ps && distinct_names ps && negb (str_in "cls" ps) | None => true end = true) /\
  exists fs, mapM (make_field rt ms) (gc_fields g) = Ok fs /\
    class_fields (ms_world ms') c =
      filter (fun f => negb (str_in (f_name f) (body_names g))) (class_fields (ms_world ms) b) ++ surviving (created g) fs.
Proof.
  intros G Id As Hb H. cbn zeta. unfold define_complex in H. apply bind_ok in H as (fs & Fs & H).
  apply bind_ok in H as (u & Cr & H). rewrite exec_news in H. cbn [bind] in H.
  destruct (nth_error (w_classes (ms_world ms)) b) as [kb|] eqn:Hk; [|apply nth_error_None in Hk; rewrite (gd_class ms G) in Hb; lia].
  apply bind_ok in H as (w2 & X & H). injection H as <-. cbn [ms_names ms_class ms_world].
  destruct (def_tidy (ms_world ms) fs _ b kb w2 (gd_tidy ms G) Hk X) as (T2 & St & (k & Ec & Km & Kd) & Cf).
  { intros n d. apply class_dict_own. }
  rewrite survivors_eq in Cf. rewrite <- (gd_class ms G) in *.
  assert (Ex : ext ms (mkMs w2 (ms_names ms ++ [(gc_name g, MComplex (length (ms_class ms)))])
     (ms_class ms ++ [(gc_name g, match own_indicator g with Some i => i | None => snd (nth b (ms_class ms) ("", ISequence)) end)]) (ms_schema ms))).
  { split; cbn; eauto. }
  split; [|split; [exact Ex|split; [reflexivity|split; [|split; [|split]]]]].
  - split; cbn [ms_world ms_class ms_names].
    + exact T2.
    + rewrite app_length, Ec, app_length, <- (gd_class ms G). reflexivity.
    + destruct (gd_base ms G) as (L & F & C). split; [rewrite app_length; lia|]. split.
      * rewrite firstn_app. replace (3 - length (ms_class ms)) with 0 by lia. cbn [firstn]. now rewrite app_nil_r.
      * intros c Hc. change w2 with (ms_world (mkMs w2 (ms_names ms ++ [(gc_name g, MComplex (length (ms_class ms)))])
           (ms_class ms ++ [(gc_name g, match own_indicator g with Some i => i | None => snd (nth b (ms_class ms) ("", ISequence)) end)]) (ms_schema ms))).
        rewrite (ext_class_fields _ _ c G Ex) by lia. now apply C.
    + intros c k0 Hc. rewrite Ec in Hc. destruct (Nat.eq_dec c (length (w_classes (ms_world ms)))) as [->|N].
      * rewrite nth_error_app2, Nat.sub_diag in Hc by lia. injection Hc as <-. rewrite Km, (gd_class ms G). eauto.
      * apply (gd_mro ms G). rewrite nth_error_app1 in Hc; [exact Hc|]. assert (c < length (w_classes (ms_world ms) ++ [k])) by (apply nth_error_Some; congruence).
        rewrite app_length in H. cbn in H. lia.
    + rewrite map_app. cbn. apply NoDup_app_intro; [apply (gd_nodup ms G)|repeat constructor; intros []|].
      intros x Hx [<- | []]. apply assoc_some_in in Hx as (v & Hv). congruence.
    + intros n c Hn. rewrite app_length. cbn [length]. destruct (assoc n (ms_names ms)) as [m|] eqn:En.
      * assert (m = MComplex c) by (rewrite (assoc_app_l _ _ _ _ En) in Hn; congruence). subst m.
        destruct (gd_names ms G _ _ En) as [B Nm]. split; [lia|]. unfold class_name in *. rewrite (ext_class_name _ _ c Ex) by lia. exact Nm.
      * rewrite (assoc_app_r _ _ _ En) in Hn. cbn in Hn. destruct (String.eqb n (gc_name g)) eqn:E; [|discriminate]. injection Hn as <-.
        apply String.eqb_eq in E as ->. destruct (gd_base ms G) as (L & _). split; [lia|]. unfold class_name. cbn [ms_class]. rewrite app_nth2, Nat.sub_diag by lia. reflexivity.
    + intros n m Hn. destruct (assoc n (ms_names ms)) as [m'|] eqn:En; [now apply (gd_ident ms G) in En|].
      rewrite (assoc_app_r _ _ _ En) in Hn. cbn in Hn. destruct (String.eqb n (gc_name g)) eqn:E; [|discriminate]. apply String.eqb_eq in E as ->. exact Id.
  - rewrite app_nth2, Nat.sub_diag by lia. reflexivity.
  - unfold mro_of. cbn [ms_world]. rewrite Ec, nth_error_app2 by (rewrite <- (gd_class ms G); lia). rewrite <- (gd_class ms G), Nat.sub_diag. cbn. now rewrite Hk, Km.
  - destruct (gc_create g) as [ps|]; [|reflexivity]. destruct (_ && _)%bool; [reflexivity|discriminate].
  - exists fs. split; [exact Fs|]. rewrite Cf. f_equal. apply filter_in_ext. intros f _. unfold kept. rewrite class_dict_get.
    unfold body_names. rewrite !str_in_app. rewrite <- (make_fields_names _ _ _ _ Fs).
    destruct (str_in (f_name f) (created g)); [reflexivity|]. cbn [orb].
    destruct (last_field (length (w_store (ms_world ms))) fs (f_name f)) as [d|] eqn:El.
    + assert (I : In (f_name f) (map f_name fs)) by (apply last_field_some in El as (i & h & _ & Hi & <-); apply in_map; now apply nth_error_In in Hi).
      apply str_in_spec in I. now rewrite I.
    + apply last_field_none in El. destruct (str_in (f_name f) (map f_name fs)) eqn:Es; [apply str_in_spec in Es; contradiction|].
      cbn [orb]. now destruct (str_in (f_name f) (const_names g)).
Qed.

Lemma simple_step ms g t ms' : good ms -> identifier (gc_name g) = true -> assoc (gc_name g) (ms_names ms) = None ->
  ms' = mkMs (ms_world ms) (ms_names ms ++ [(gc_name g, MSimple t)]) (ms_class ms) (ms_schema ms) ->
  good ms' /\ ext ms ms'.
Proof.
  intros G Id As ->. split.
  - destruct G as [G1 G2 G3 Gmro G4 G5 G6]. split; cbn [ms_world ms_class ms_names]; auto.
    + rewrite map_app. cbn. apply NoDup_app_intro; [exact G4|repeat constructor; intros []|].
      intros x Hx [<- | []]. apply assoc_some_in in Hx as (v & Hv). congruence.
    + intros n c Hn. destruct (assoc n (ms_names ms)) as [m|] eqn:En.
      * assert (m = MComplex c) by (rewrite (assoc_app_l _ _ _ _ En) in Hn; congruence). subst m. now apply G5.
      * rewrite (assoc_app_r _ _ _ En) in Hn. cbn in Hn. destruct (String.eqb n (gc_name g)); discriminate.
    + intros n m Hn. destruct (assoc n (ms_names ms)) as [m'|] eqn:En; [now apply G6 in En|].
      rewrite (assoc_app_r _ _ _ En) in Hn. cbn in Hn. destruct (String.eqb n (gc_name g)) eqn:E; [|discriminate]. apply String.eqb_eq in E as ->. exact Id.
  - split; cbn; try (exists []; now rewrite app_nil_r); eauto.
Qed.

Lemma exec_class_step rt ms g ms' : good ms -> exec_class rt ms g = Ok ms' -> good ms' /\ ext ms ms'.
Proof.
  intros G. unfold exec_class. destruct (identifier (gc_name g)) eqn:Id; cbn [negb]; [|discriminate].
  destruct (assoc (gc_name g) (ms_names ms)) as [|] eqn:As; [discriminate|]. intros H. apply bind_ok in H as (b & Eb & H).
  destruct b as [[b|t]|]; [| |discriminate].
  - apply define_step in H; auto; [tauto|]. eapply eval_complex; eauto.
  - apply bind_ok in H as (kw & Ek & H). apply bind_ok in H as (t' & Et & H). injection H as <-. eapply simple_step; eauto.
Qed.
Lemma exec_classes_step rt l : forall ms ms', good ms -> foldM (exec_class rt) ms l = Ok ms' -> good ms' /\ ext ms ms'.
Proof.
  induction l as [|g t IH]; intros ms ms' G H; cbn in H.
  - injection H as <-. split; [exact G|apply ext_refl].
  - apply bind_ok in H as (m & Hm & H). destruct (exec_class_step _ _ _ _ G Hm) as [Gm Em]. destruct (IH _ _ Gm H) as [G' E'].
    split; [exact G'|eapply ext_trans; eauto].
Qed.
Lemma start_good : good start.
Proof.
  split; cbn.
  - split.
    + apply (reachable_inv [DefClass [] []; DefClass [] [0]; DefClass [] [1; 0]]). reflexivity.
    + intros c n d H. apply has_field_declared in H as (b & k & Hk & Hd). destruct b as [|[|[|b]]]; cbn in Hk; try (injection Hk as <-; discriminate). destruct b; discriminate.
  - reflexivity.
  - split; [lia|]. split; [reflexivity|]. intros c Hc. destruct c as [|[|[|c]]]; try reflexivity. lia.
  - intros c k Hc. destruct c as [|[|[|c]]]; cbn in Hc; try (injection Hc as <-; cbn; eauto). destruct c; discriminate.
  - constructor.
  - discriminate.
  - discriminate.
Qed.
