(** Generated classes: the type of a field. *)
From Coq Require Import String Ascii List ZArith NArith Bool Lia.
From Verif Require Import PyBase PyVal XsdSimple XsdComplex XsdMeta LibClasses Py2Xsd GenNames Xsd2Py PyLoad SpecNames SpecGenCode
  PfBase PfMeta PfLoad PfLoad2 PfSimple.
From Verif Require PfNames.
Import ListNotations.
Open Scope nat_scope.
Open Scope string_scope.
Open Scope list_scope.

(** ** Reading objects *)
Lemma has_jget o n v : has o n v -> jget o n = v.
Proof. intros (c & xe & fs & -> & H). cbn. now rewrite H. Qed.
Lemma lacks_jget o n : lacks o n -> jget o n = VNone.
Proof.
  intros H. destruct o; try reflexivity. cbn. destruct (assoc n fs) as [v|] eqn:E; [|reflexivity]. apply H. exists cls, xe, fs. auto.
Qed.

Lemma capital_ok n cls : capitalize n = Ok cls -> cls = capital n /\ n <> "".
Proof. destruct n; cbn; [discriminate|]. intros [= <-]. split; [reflexivity|discriminate]. Qed.
Lemma python_name_fix n : fix_keyword n = python_name n.
Proof. reflexivity. Qed.

(** ** Identifiers *)
Lemma id_chars s c : identifier s = true -> In c (to_l s) -> id_char c = true.
Proof.
  unfold identifier. destruct (to_l s) as [|x t]; [discriminate|]. intros H [<- | I].
  - apply andb_true_iff in H as [H _]. apply andb_true_iff in H as [H _]. unfold id_char. now rewrite H.
  - apply andb_true_iff in H as [H _]. apply andb_true_iff in H as [_ H]. rewrite forallb_forall in H. now apply H.
Qed.
Lemma prefix_app p s : String.prefix p s = true -> exists t, s = (p ++ t)%string.
Proof.
  revert s. induction p as [|a p IH]; intros s H; [exists s; reflexivity|]. destruct s as [|b s]; cbn in H; [discriminate|].
  destruct (ascii_dec a b) as [->|]; [|discriminate]. destruct (IH _ H) as (t & ->). now exists t.
Qed.
Lemma prefix_true p t : String.prefix p (p ++ t) = true.
Proof. induction p as [|a p IH]; cbn; [now destruct t|]. destruct (ascii_dec a a); [exact IH|congruence]. Qed.
Lemma ident_not_prefix p s c : identifier s = true -> In c (to_l p) -> id_char c = false -> String.prefix p s = false.
Proof.
  intros H I C. destruct (String.prefix p s) eqn:E; [|reflexivity]. apply prefix_app in E as (t & ->). exfalso.
  rewrite (id_chars _ c H) in C; [discriminate|]. rewrite to_l_app. apply in_or_app. now left.
Qed.
Lemma ident_not_xsd s : identifier s = true -> String.prefix "xsd." s = false.
Proof. intros H. apply (ident_not_prefix _ _ "."%char H); cbn; auto. Qed.
Lemma ident_not_lazy s : identifier s = true -> String.prefix lazy_prefix s = false.
Proof. intros H. apply (ident_not_prefix _ _ " "%char H); cbn; auto 10. Qed.

(** A name that is an identifier, or becomes one. *)
Lemma ident_literal rt raw n : identifier (fix_keyword n) = true -> literal rt raw n = Ok n.
Proof.
  intros H. unfold literal.
  assert (N : forall c, id_char c = false -> char_in c n = false).
  { intros c C. destruct (char_in c n) eqn:E; [|reflexivity]. apply char_in_spec in E. exfalso. unfold fix_keyword in H.
    rewrite (id_chars _ c H) in C; [discriminate|]. destruct (is_keyword n); [|exact E]. rewrite to_l_app. apply in_or_app. now right. }
  unfold breaks. rewrite (N quote), (N newline), (N carriage_return), (N backslash) by reflexivity. reflexivity.
Qed.

(** ** Qualified names *)
Lemma split_parts q l : str_split ":" q = l -> forall p local,
  match l with [n] => Some (None, n) | [ns; n] => Some (Some ns, n) | _ => None end = Some (p, local) -> qualified_name q p local.
Proof.
  intros <- p local. unfold str_split. destruct (split_spec ":" (to_l q)) as [[N E]|(a & b & Eq & Na & E)]; rewrite E; cbn [map].
  - intros [= <- <-]. split; [|now rewrite of_to]. unfold colon_free. fold (to_l (of_l (to_l q))). now rewrite to_of.
  - destruct (split_spec ":" b) as [[Nb Eb]|(a2 & b2 & _ & _ & Eb)]; rewrite Eb; cbn [map].
    + intros [= <- <-]. unfold qualified_name, colon_free. fold (to_l (of_l a)) (to_l (of_l b)). rewrite !to_of. repeat split; auto.
      apply to_l_inj. rewrite !to_l_app, !to_of. exact Eq.
    + destruct (split_l ":" b2) eqn:E2; cbn [map]; [|discriminate].
      exfalso. destruct (split_spec ":" b2) as [[_ X]|(x & y & _ & _ & X)]; rewrite X in E2; discriminate.
Qed.
Lemma prefix_in_in p l : prefix_in p l = true <-> In p l.
Proof.
  unfold prefix_in. rewrite existsb_exists. split.
  - intros (x & I & H). destruct p, x; try discriminate; [apply String.eqb_eq in H as ->|]; exact I.
  - intros I. exists p. split; [exact I|]. destruct p; [apply String.eqb_refl|reflexivity].
Qed.

Lemma get_type_ok nss k q e : get_type nss (Some k) q = Ok e ->
  exists p local, qualified_name q p local /\ local <> "" /\
    ((In p nss /\ e = ("xsd." ++ capital local)%string) \/
     (~ In p nss /\ ((In (capital local) k /\ e = capital local) \/ e = ("__name__ + '." ++ capital local ++ "'")%string))).
Proof.
  unfold get_type. destruct (String.eqb q ""); [discriminate|]. intros H. apply bind_ok in H as ([p local] & Hs & H).
  apply bind_ok in H as (cls & Hc & H). apply capital_ok in Hc as [-> Hl]. exists p, local. split; [|split; [exact Hl|]].
  - apply (split_parts q _ eq_refl). destruct (str_split ":" q) as [|a [|b [|c l]]]; try discriminate; injection Hs as <- <-; reflexivity.
  - destruct (prefix_in p nss) eqn:Ep.
    + left. split; [now apply prefix_in_in|congruence].
    + right. split; [intros I; apply prefix_in_in in I; congruence|]. destruct (str_in (capital local) k) eqn:Ek.
      * left. split; [now apply str_in_spec|congruence].
      * right. congruence.
Qed.

Lemma substring_app s t : substring (String.length s) (String.length (s ++ t) - String.length s) (s ++ t) = t.
Proof.
  induction s as [|a s IH]; cbn; [|exact IH]. rewrite Nat.sub_0_r. clear. induction t as [|a t IH]; cbn; [reflexivity|]. now rewrite IH.
Qed.
Lemma removelast_last {A} (l : list A) x : removelast (l ++ [x]) = l.
Proof. now rewrite removelast_app, app_nil_r by discriminate. Qed.
Lemma eval_lib ms n : eval_type ms ("xsd." ++ n) = match lib_class n with Some m => Ok (TvClass m) | None => Err AttributeError end.
Proof. unfold eval_type. rewrite prefix_true. change 4 with (String.length "xsd."). now rewrite (substring_app "xsd." n). Qed.
Lemma eval_lazy ms n : eval_type ms ("__name__ + '." ++ n ++ "'") = Ok (TvText n).
Proof.
  unfold eval_type. change (String.prefix "xsd." ("__name__ + '." ++ n ++ "'")) with false. cbv iota.
  unfold lazy_prefix. rewrite prefix_true. change 13 with (String.length "__name__ + '."). rewrite (substring_app "__name__ + '." (n ++ "'")).
  unfold strip_last. rewrite to_l_app. change (to_l "'") with ["'"%char]. rewrite removelast_last. now rewrite of_to.
Qed.
Lemma eval_name ms n : identifier n = true ->
  eval_type ms n = match assoc n (ms_names ms) with Some m => Ok (TvClass m) | None => Err NameError end.
Proof. intros H. unfold eval_type. now rewrite (ident_not_xsd n H), (ident_not_lazy n H), H. Qed.

Lemma lib_names n c : lib_class n = Some (MComplex c) -> fst (nth c (ms_class start) ("", ISequence)) = ("xsd." ++ n)%string /\ c < 3 /\
  str_in ("xsd." ++ n) ["xsd.ComplexType"; "xsd.Group"; "xsd.AttributeGroup"] = true.
Proof.
  unfold lib_class. cbn [assoc map app fst snd].
  repeat match goal with |- context [String.eqb n ?x] =>
    let E := fresh in destruct (String.eqb n x) eqn:E; [apply String.eqb_eq in E; intros [=]; subst; repeat split; try lia; reflexivity|clear E] end. discriminate.
Qed.
Lemma base_name ms c : good ms -> c < 3 -> class_name ms c = fst (nth c (ms_class start) ("", ISequence)).
Proof.
  intros G H. destruct (gd_base ms G) as (L & F & _). unfold class_name. rewrite <- F. f_equal.
  rewrite <- (firstn_skipn 3 (ms_class ms)) at 1. rewrite app_nth1; [reflexivity|]. rewrite firstn_length. lia.
Qed.

(** The type of a field when the module has been loaded. *)
Lemma type_denotes (m : module) nss k q e rt ms g t : good ms -> ext ms (md_state m) -> good (md_state m) ->
  (forall n, In n k -> identifier n = true) -> get_type nss (Some k) q = Ok e -> gf_type g = e -> gf_call g = None ->
  field_type rt ms g = Ok t -> (exists t', resolve (md_state m) t = Ok t') ->
  exists t', resolve (md_state m) t = Ok t' /\ denotes m nss q t'.
Proof.
  intros G Ex Gm Kid Gt <- Gc F (t' & R). exists t'. split; [exact R|].
  assert (Bd : forall n v, assoc n (ms_names ms) = Some v -> assoc n (ms_names (md_state m)) = Some v).
  { intros n v. now apply ext_bound. }
  apply get_type_ok in Gt as (p & local & Q & L & Cases). exists p, local. split; [exact Q|]. split; [exact L|].
  unfold field_type in F. rewrite Gc in F. destruct Cases as [[Ip E]|[Ip Cases]].
  - left. split; [exact Ip|]. rewrite E in F. rewrite eval_lib in F. unfold library_provides.
    destruct (lib_class (capital local)) as [[c|s]|] eqn:El; cbn [bind] in F; [| |discriminate].
    + apply lib_names in El as (N & Hc & S). rewrite (base_name ms c G Hc), N in F. assert (Et : t = TComplex ("xsd." ++ capital local)%string) by congruence. rewrite Et in R.
      unfold resolve in R. destruct (assoc ("xsd." ++ capital local) (ms_names (md_state m))) as [v|] eqn:Ea.
      * exfalso. apply (gd_ident _ Gm) in Ea. apply ident_not_xsd in Ea. now rewrite prefix_true in Ea.
      * rewrite S in R. congruence.
    + injection F as <-. cbn in R. congruence.
  - right. split; [exact Ip|]. unfold provides. destruct Cases as [[Ik E]|E]; rewrite E in F.
    + rewrite (eval_name ms _ (Kid _ Ik)) in F. destruct (assoc (capital local) (ms_names ms)) as [[c|s]|] eqn:Ea; cbn [bind] in F; [| |discriminate].
      * rewrite (proj2 (gd_names ms G _ _ Ea)) in F. injection F as <-. unfold resolve in R. rewrite (Bd _ _ Ea) in *. congruence.
      * injection F as <-. cbn in R. rewrite (Bd _ _ Ea). congruence.
    + rewrite eval_lazy in F. cbn [bind] in F. injection F as <-. unfold resolve in R.
      destruct (assoc (capital local) (ms_names (md_state m))) as [[c|s]|]; [congruence|congruence|].
      exfalso. destruct local as [|a local]; [now apply L|]. cbn [capital] in R.
      assert (X : upper_char a <> "x"%char) by (destruct a as [[] [] [] [] [] [] [] []]; vm_compute; intros X; discriminate X).
      destruct (str_in (String (upper_char a) local) _) eqn:S; [|discriminate]. apply str_in_spec in S. cbn in S.
      destruct S as [S | [S | [S | []]]]; injection S; intros; congruence.
Qed.
