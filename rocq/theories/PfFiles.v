(** Modules from several documents: paths, addresses, and one document after others. *)
From Coq Require Import String Ascii List ZArith NArith Bool Lia Permutation.
From Verif Require Import PyBase PyPath PyVal XsdSimple XsdComplex XsdMeta LibClasses Py2Xsd GenOrder GenImports Xsd2Py PyLoad PyUrl XsdFiles SpecGenCode SpecPath SpecImports
  SpecUrl SpecService SpecLoadable SpecFiles PfBase PfMeta PfMeta2 PfLoad PfLoad2 PfGenCode PfGenCode2 PfGenCode3 PfGenCode4 PfGenCode5 PfLoadable PfLoadable2 PfLoadable3.
From Verif Require PfPath PfPath2 PfImports PfUrl PfService2.
Import ListNotations.
Open Scope nat_scope.
Open Scope string_scope.
Open Scope list_scope.

(** ** Paths *)

Section Paths.
  Variables (g : string) (u : string -> string -> string) (base : list string).
  Hypothesis PB : Forall proper base.

  Lemma file_piece f : file_name f -> PfPath2.piece f.
  Proof. intros ((N & _ & _ & S) & _). split; [exact N|exact S]. Qed.
  Lemma file_local f : file_name f -> is_url f = false.
  Proof.
    intros F. apply PfPath2.not_url. intros (a & b & ->). destruct F as ((_ & _ & _ & S) & _). apply S. change (list_ascii_of_string (a ++ "://" ++ b)) with (to_l (a ++ "://" ++ b)).
    rewrite to_l_app. apply in_or_app. right. cbn. auto.
  Qed.
  Lemma strip_same l r : strip_common l (l ++ r) = ([], r).
  Proof. induction l as [|x l IH]; [destruct r; reflexivity|]. cbn [app strip_common]. now rewrite String.eqb_refl. Qed.
  Lemma rel_same f : PfPath.rel_of base (base ++ [f]) = f.
  Proof. unfold PfPath.rel_of. rewrite strip_same. reflexivity. Qed.
  Lemma file_join f : file_name f -> path_join (path_of base) f = path_of (base ++ [f]).
  Proof.
    intros F. rewrite !PfPath2.path_tidy. change f with (join_with "/" [f]) at 1. apply PfPath2.join_tidy; [now apply PfPath2.proper_piece|discriminate|].
    constructor; [now apply file_piece|constructor].
  Qed.
  Lemma proper_all f : file_name f -> Forall proper (base ++ [f]).
  Proof. intros F. apply Forall_app. split; [exact PB|]. constructor; [apply F|constructor]. Qed.
  Lemma rewrite_file f : file_name f -> rewrite_path g u (path_of base) (path_of base) (Some f) = Ok (Some f).
  Proof.
    intros F. unfold rewrite_path. rewrite (file_local f F).
    assert (U : is_url (path_of base) = false) by (rewrite PfPath2.path_tidy; apply PfPath2.not_url, PfPath2.tidy_local, PfPath2.proper_piece, PB).
    rewrite U, (file_join f F), !PfPath2.path_tidy. destruct (PfImports.normpath_denotes (PfPath2.tidy (base ++ [f])) (PfPath2.tidy_abs _)) as [A D].
    rewrite PfPath.relpath_abs by (exact A || apply PfPath2.tidy_abs). rewrite D, !PfPath2.tidy_proper by (exact PB || now apply proper_all). cbn [bind]. now rewrite rel_same.
  Qed.
  Lemma resolve_file f : file_name f -> resolve_location g f (path_of base) = Ok (path_of (base ++ [f]), path_of base, f).
  Proof.
    intros F. unfold resolve_location. rewrite (file_local f F), (file_join f F), !PfPath2.path_tidy.
    rewrite PfPath.relpath_abs by apply PfPath2.tidy_abs. rewrite !PfPath2.tidy_proper by (exact PB || now apply proper_all). cbn [bind]. rewrite rel_same.
    rewrite PfPath2.dirname_tidy; [reflexivity|now apply PfPath2.proper_piece|now apply file_piece].
  Qed.
End Paths.
Lemma path_some base : String.eqb (path_of base) "" = false.
Proof. rewrite PfPath2.path_tidy. reflexivity. Qed.
Lemma file_given f : file_name f -> given (Some f) = Some f.
Proof. intros ((N & _) & _). unfold given. destruct (String.eqb_spec f ""); [contradiction|reflexivity]. Qed.

(** ** Addresses *)

Lemma file_template checked f : file_name f -> url_template checked f = Ok (served_at f).
Proof.
  intros ((N & _ & _ & S) & C). change (list_ascii_of_string f) with (to_l f) in S.
  assert (R : forall c, In c (to_l f) -> (48 <= code c <= 57 \/ 65 <= code c <= 90 \/ 97 <= code c <= 122 \/ code c = 95 \/ code c = 46 \/ code c = 45)%N).
  { intros c I. destruct (C c I) as [L | [D | D]]; [unfold letter in L; lia|unfold digit in D; lia|]. cbn in D. destruct D as [<- | [<- | []]]; vm_compute; intuition (discriminate || auto). }
  assert (A : forall d, In d [":"; "#"; "?"; ";"; "/"]%char -> ~ In d (to_l f)).
  { intros d I J. apply R in J. cbn in I. repeat (destruct I as [<- | I]; [vm_compute in J; intuition congruence|]). destruct I. }
  unfold url_template, urlparse.
  assert (E1 : lstrip_l c0_or_space (to_l f) = to_l f).
  { destruct (to_l f) as [|c t] eqn:E; [reflexivity|]. cbn [lstrip_l]. specialize (R c (or_introl eq_refl)). unfold c0_or_space.
    destruct (in_range 0 32 c) eqn:E2; [|reflexivity]. apply PfUrl.in_range_iff in E2. lia. }
  rewrite E1, PfUrl.filter_all.
  2:{ intros c I. apply R in I. unfold unsafe_byte. apply negb_true_iff, orb_false_iff. split; apply not_true_iff_false; intros X; apply PfUrl.in_range_iff in X; lia. }
  unfold split_scheme. rewrite (PfUrl.partition_none ":" (to_l f)) by (apply A; cbn; auto).
  replace (match to_l f with [] | _ => ([], to_l f) end) with (@nil ascii, to_l f) by (destruct (to_l f); reflexivity).
  assert (E3 : split_netloc (to_l f) = ([], to_l f)).
  { unfold split_netloc. destruct (to_l f) as [|a [|b t]] eqn:E; [reflexivity|reflexivity|]. destruct (Ascii.eqb_spec a "/"); [|reflexivity]. subst a. exfalso. apply S. now left. }
  rewrite E3. change (netloc_ok checked []) with true. cbn [negb]. rewrite (PfUrl.cut_absent "#" (to_l f)) by (apply A; cbn; auto).
  rewrite (PfUrl.cut_absent "?" (to_l f)) by (apply A; cbn; auto).
  assert (E4 : existsb (Ascii.eqb ";") (to_l f) = false).
  { apply not_true_iff_false. intros X. apply existsb_exists in X as (c & I & X). apply Ascii.eqb_eq in X. subst c. revert I. apply A. cbn. auto 6. }
  rewrite E4, andb_false_r. cbn [bind u_path u_params u_query u_fragment of_l]. unfold urlunparse. cbn [u_params u_path u_netloc u_scheme u_query u_fragment].
  rewrite of_to. change (String.eqb "" "") with true. change (String.eqb "${scheme}" "") with false. cbn iota. change (negb (String.eqb "${host}" "")) with true. cbn [orb].
  destruct (String.eqb_spec f "") as [->|_]; [contradiction|]. cbn [negb andb].
  assert (E5 : String.prefix "/" f = false).
  { destruct f as [|c t]; [reflexivity|]. cbn [String.prefix]. destruct (ascii_dec "/" c) as [<-|_]; [|reflexivity]. exfalso. apply S. now left. }
  rewrite E5. reflexivity.
Qed.
Lemma served_literal rt f : file_name f -> literal rt false (served_at f) = Ok (served_at f).
Proof.
  intros (_ & C). apply plain_literal. unfold plain_text, no_break. change list_ascii_of_string with to_l.
  assert (R : forall c, In c (to_l (served_at f)) -> In c (to_l "${scheme}://${host}/") \/ letter c \/ digit c \/ holds ".-" c).
  { unfold served_at. intros c I. rewrite to_l_app in I. apply in_app_or in I as [I | I]; [now left|right; now apply C]. }
  assert (X : forall c, In c ["'"%char; "\"%char; ascii_of_nat 10; ascii_of_nat 13] -> ~ In c (to_l (served_at f))).
  { intros c I J. apply R in J. cbn in I. unfold letter, digit in J. repeat (destruct I as [<- | I]; [vm_compute in J; intuition congruence|]). destruct I. }
  repeat split; apply X; cbn; auto.
Qed.

(** ** Names of classes *)

Lemma exec_class_names rt ms g ms' : exec_class rt ms g = Ok ms' ->
  map fst (ms_names ms') = map fst (ms_names ms) ++ [gc_name g] /\ ms_schema ms' = ms_schema ms.
Proof.
  unfold exec_class. destruct (negb _); [discriminate|]. destruct (assoc _ _); [discriminate|]. intros H. apply bind_ok in H as (b & _ & H).
  destruct b as [[c|t] | t]; [| |discriminate].
  - unfold define_complex in H. apply bind_ok in H as (fs & _ & H). apply bind_ok in H as (z & _ & H). apply bind_ok in H as (w1 & _ & H). apply bind_ok in H as (w2 & _ & H).
    injection H as <-. cbn [ms_names ms_schema]. now rewrite map_app.
  - apply bind_ok in H as (kw & _ & H). apply bind_ok in H as (t' & _ & H). injection H as <-. cbn [ms_names ms_schema]. now rewrite map_app.
Qed.
Lemma exec_classes_names rt gs : forall ms ms', foldM (exec_class rt) ms gs = Ok ms' ->
  map fst (ms_names ms') = map fst (ms_names ms) ++ map gc_name gs /\ ms_schema ms' = ms_schema ms.
Proof.
  induction gs as [|g gs IH]; intros ms ms' H; cbn [foldM map] in *; [injection H as <-; now rewrite app_nil_r|].
  apply bind_ok in H as (ms1 & H1 & H). apply exec_class_names in H1 as [N1 S1]. apply IH in H as [N S]. rewrite N, N1, S, S1, <- app_assoc. now split.
Qed.

(** The SCHEMA of a class of an earlier document stays. *)
Lemma nat_assoc_skip {A} n (l l' : list (nat * A)) : ~ In n (map fst l) -> nat_assoc n (l ++ l') = nat_assoc n l'.
Proof.
  induction l as [|[k v] l IH]; [reflexivity|]. cbn. intros H. destruct (Nat.eqb_spec n k) as [->|_]; [exfalso; now apply H; left|]. apply IH. tauto.
Qed.
Lemma schema_kept rt limit O ms0 cs st m : good ms0 -> load_from rt limit O ms0 (cs, st) = Ok m ->
  forall n c, assoc n (ms_names ms0) = Some (MComplex c) ->
  ~ In n (gz_attrgroups st ++ gz_groups st ++ gz_complex st) -> (forall g, In g (gz_elements st) -> fst (snd g) <> TopNew n) ->
  nat_assoc c (ms_schema (md_state m)) = nat_assoc c (ms_schema ms0).
Proof.
  intros G0 L n c A N T. destruct (load_from_spec _ _ _ _ _ _ G0 L) as (ms & Fm & G & _ & _ & _ & _ & _ & _). unfold load_from in L. cbn [fst snd] in L, Fm. rewrite Fm in L. cbn [bind] in L.
  destruct (exec_classes_step _ _ _ _ G0 Fm) as [_ E]. destruct (exec_classes_names _ _ _ _ Fm) as [_ Es].
  pose proof (ext_bound _ _ _ _ E A) as Am. destruct (gd_names ms G n c Am) as [_ Cn].
  unfold exec_schema in L. apply bind_ok in L as (z1 & _ & L). apply bind_ok in L as (ags & Ha & L). apply bind_ok in L as (gs & Hg & L). apply bind_ok in L as (cts & Hc & L).
  apply bind_ok in L as (tns & _ & L). apply bind_ok in L as (efd & _ & L). apply bind_ok in L as (tops & _ & L). cbn zeta in L.
  apply bind_ok in L as (z2 & _ & L). apply bind_ok in L as (els & _ & L). injection L as <-. cbn [md_state ms_schema]. rewrite <- Es.
  assert (B : forall l ids, mapM (bound_class ms) l = Ok ids -> ~ In n l -> ~ In c ids).
  { clear - Cn G. induction l as [|a l IH]; intros ids H Nn; cbn [mapM] in H; [injection H as <-; intros []|].
    apply bind_ok in H as (i & Hi & H). apply bind_ok in H as (is & His & H). injection H as <-. intros [E | I]; [|apply (IH _ His); [intros J; apply Nn; now right|exact I]].
    subst i. unfold bound_class, bound in Hi. destruct (identifier a); [|discriminate]. destruct (assoc a (ms_names ms)) as [[c'|]|] eqn:Ea; try discriminate. injection Hi as ->.
    destruct (gd_names ms G _ _ Ea) as [_ Ca]. apply Nn. left. congruence. }
  rewrite nat_assoc_skip, nat_assoc_skip; [reflexivity| |].
  - rewrite map_map. cbn [fst]. rewrite map_id. intros I. rewrite !in_app_iff in I. destruct I as [I | [I | I]].
    + apply (B _ _ Ha); [|exact I]. intros J. apply N. rewrite !in_app_iff. auto.
    + apply (B _ _ Hg); [|exact I]. intros J. apply N. rewrite !in_app_iff. auto.
    + apply (B _ _ Hc); [|exact I]. intros J. apply N. rewrite !in_app_iff. auto.
  - intros I. apply in_map_iff in I as ([c' si] & E1 & I). cbn in E1. subst c'. apply in_rev in I. apply in_flat_map in I as ([en [eg es]] & Ig & I). cbn [fst snd] in I.
    unfold top_schema in I. destruct eg as [e|n']; [destruct I|]. destruct (assoc n' (ms_names ms)) as [[c'|]|] eqn:Ea; try (now destruct I).
    destruct I as [[= -> _] | []]. destruct (gd_names ms G _ _ Ea) as [_ Ca]. apply (T _ Ig). cbn [fst snd]. congruence.
Qed.
