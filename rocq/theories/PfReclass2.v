(** Classes regenerated from the XSD document generated from them: the module. *)
From Coq Require Import String Ascii List ZArith NArith Bool Lia Permutation.
From Verif Require Import PyBase PfBase Xml PyVal XsdSimple XsdComplex PyHttp Soap Client LibClasses Py2Xsd SpecXsd SpecParse SpecRound SpecNames GenOrder SpecOrder Xsd2Py PyLoad
  XsdPrefixes SpecGenCode SpecGenWsdl SpecUrl SpecService SpecLoadable SpecReclass PfNames PfXsd PfXsd2 PfGenWsdl6 PfGenCode PfGenCode4 PfGenCode9 PfLoadable PfLoadable2 PfLoadable3 PfLoadable4 PfRegen PfReclass.
Import ListNotations.
Open Scope nat_scope.
Open Scope string_scope.
Open Scope list_scope.

Definition nss_x : list (option string) := [Some "xsd"].
Lemma prefixes_are s root : ~ In (gs_tns s) [ns_xsd; ns_xsd2000] -> xsd_prefixes (mkDoc [("sns", gs_tns s); ("xsd", ns_xsd)] root) = nss_x.
Proof.
  intros N. unfold xsd_prefixes, find_xsd_namespaces, document_prefixes. cbn [xd_prefixes map fst snd fold_left nsmap_update nsmap_set prefix_eqb].
  assert (X : str_in (gs_tns s) [ns_xsd; ns_xsd2000] = false).
  { unfold str_in. apply not_true_iff_false. rewrite existsb_exists. intros (y & I & E). apply String.eqb_eq in E. subst y. contradiction. }
  cbv beta iota delta [nsmap_update fold_left nsmap_set prefix_eqb fst snd]. cbn [String.eqb Ascii.eqb Bool.eqb filter fst snd]. rewrite X. reflexivity.
Qed.

(** ** Names *)
Lemma lower_colon a : lower_char a = ":"%char -> a = ":"%char.
Proof. destruct a as [[] [] [] [] [] [] [] []]; vm_compute; intros; try discriminate; reflexivity. Qed.
Lemma name_back c : capital c = c -> capital (type_name c) = c.
Proof.
  unfold type_name. destruct (String.eqb c "QName") eqn:E; [auto|]. destruct c as [|a t]; [reflexivity|]. cbn [capital]. intros [= H]. now rewrite upper_lower.
Qed.
Lemma name_filled c : c <> "" -> type_name c <> "".
Proof. unfold type_name. destruct (String.eqb c "QName"); [auto|]. now destruct c. Qed.
Lemma usable_filled c : usable_name c -> c <> "".
Proof. intros ((a & t & -> & _) & _). discriminate. Qed.
Lemma usable_colon c : usable_name c -> colon_free c.
Proof. intros (_ & Uc & _) C. destruct (Uc _ C) as [L | L]; vm_compute in L; intuition congruence. Qed.
Lemma name_colon c : colon_free c -> colon_free (type_name c).
Proof.
  unfold type_name. destruct (String.eqb c "QName"); [auto|]. destruct c as [|a t]; [auto|]. intros H [E | I]; apply H; [left; now apply lower_colon|now right].
Qed.
Lemma own_ref c : usable_name c -> capital c = c -> own_type nss_x ("sns:" ++ type_name c) c.
Proof.
  intros U C. exists (Some "sns"), (type_name c). split; [split; [apply name_colon, usable_colon, U|split; [vm_compute; intuition discriminate|reflexivity]]|].
  split; [intros [E | []]; discriminate|]. split; [apply name_filled, usable_filled, U|]. symmetry. now apply name_back.
Qed.
Lemma qualified_ref c : usable_name c -> qualified_name ("sns:" ++ type_name c) (Some "sns") (type_name c).
Proof. intros U. split; [apply name_colon, usable_colon, U|split; [vm_compute; intuition discriminate|reflexivity]]. Qed.
Lemma library_named u : library_simple u -> exists local, type_ref (TSimple u) = ("xsd:" ++ local)%string /\ colon_free local /\ local <> "" /\
  capital local = st_class u /\ u <> SAbstract.
Proof.
  intros (L & B & Ul). destruct u as [c f|f| | | | |c f|c f| |]; cbn [builtin type_ref st_class] in *; try congruence.
  - cbn [assoc] in B |- *. unfold unlisted in *.
    repeat match goal with H : (match (if String.eqb c ?k then _ else _) with _ => _ end) |- _ => idtac end.
    destruct (String.eqb c "String") eqn:E1; [apply String.eqb_eq in E1 as ->; eexists; repeat split; [vm_compute; intuition discriminate|discriminate|discriminate]|].
    destruct (String.eqb c "AnyURI") eqn:E2; [apply String.eqb_eq in E2 as ->; eexists; repeat split; [vm_compute; intuition discriminate|discriminate|discriminate]|].
    destruct (String.eqb c "QName") eqn:E3; [apply String.eqb_eq in E3 as ->; eexists; repeat split; [vm_compute; intuition discriminate|discriminate|discriminate]|].
    destruct (String.eqb c "Base64Binary") eqn:E4; [apply String.eqb_eq in E4 as ->; eexists; repeat split; [vm_compute; intuition discriminate|discriminate|discriminate]|].
    destruct (String.eqb c "Duration") eqn:E5; [apply String.eqb_eq in E5 as ->; eexists; repeat split; [vm_compute; intuition discriminate|discriminate|discriminate]|].
    destruct (String.eqb c "NMTOKEN") eqn:E6; [discriminate|]. destruct (String.eqb c "NMTOKENS") eqn:E7; [discriminate|]. congruence.
  - eexists. repeat split; [vm_compute; intuition discriminate|discriminate|discriminate].
  - eexists. repeat split; [vm_compute; intuition discriminate|discriminate|discriminate].
  - eexists. repeat split; [vm_compute; intuition discriminate|discriminate|discriminate].
  - eexists. repeat split; [vm_compute; intuition discriminate|discriminate|discriminate].
  - cbn [assoc] in B |- *.
    destruct (String.eqb c "Decimal") eqn:E1; [apply String.eqb_eq in E1 as ->; eexists; repeat split; [vm_compute; intuition discriminate|discriminate|discriminate]|].
    destruct (String.eqb c "Double") eqn:E2; [apply String.eqb_eq in E2 as ->; eexists; repeat split; [vm_compute; intuition discriminate|discriminate|discriminate]|].
    destruct (String.eqb c "Float") eqn:E3; [apply String.eqb_eq in E3 as ->; eexists; repeat split; [vm_compute; intuition discriminate|discriminate|discriminate]|].
    congruence.
  - destruct c; try discriminate Ul; (eexists; repeat split; [vm_compute; intuition discriminate|discriminate|discriminate]).
Qed.
Lemma qualified_lib local : colon_free local -> qualified_name ("xsd:" ++ local) (Some "xsd") local.
Proof. intros C. split; [exact C|split; [vm_compute; intuition discriminate|reflexivity]]. Qed.
Lemma library_ref u : library_simple u -> library_type nss_x (type_ref (TSimple u)).
Proof.
  intros H. destruct (library_named u H) as (local & -> & C & _ & E & A). exists (Some "xsd"), local, u. split; [now apply qualified_lib|].
  split; [now left|]. rewrite E. split; [apply H|exact A].
Qed.
Lemma own_simple_ref s u : own_simple s u -> type_ref (TSimple u) = ("sns:" ++ type_name (st_class u))%string.
Proof.
  intros [_ N]. destruct u as [c f|f| | | | |c f|c f| |]; cbn [st_class] in *; try discriminate N; try reflexivity.
  - cbn [type_ref builtin st_class]. destruct (assoc c _) as [x|] eqn:A; [|reflexivity]. exfalso. revert A. cbn [assoc].
    repeat match goal with |- (if String.eqb c ?k then _ else _) = _ -> _ => let Q := fresh in destruct (String.eqb c k) eqn:Q; [apply String.eqb_eq in Q as ->; vm_compute in N; discriminate N|] end.
    discriminate.
  - cbn [type_ref builtin st_class]. destruct (assoc c _) as [x|] eqn:A; [|reflexivity]. exfalso. revert A. cbn [assoc].
    repeat match goal with |- (if String.eqb c ?k then _ else _) = _ -> _ => let Q := fresh in destruct (String.eqb c k) eqn:Q; [apply String.eqb_eq in Q as ->; vm_compute in N; discriminate N|] end.
    discriminate.
  - destruct c; vm_compute in N; discriminate N.
Qed.

(** ** The document is one that makes a module *)
Lemma written_plain v : plain_quoted v -> plain_quoted (written_group v).
Proof.
  intros H. unfold written_group. destruct (String.prefix "sns:" v); [exact H|]. destruct H as (Q & B & N1 & N2).
  split; [|split; [|split]]; cbn [append list_ascii_of_string]; intros X; repeat (destruct X as [X | X]; [discriminate X|]); auto.
Qed.
Section Works.
  Variables (E : env) (G : decls) (limit : nat) (rank : string -> nat) (s : gschema).
  Hypothesis R : schema_reproducible E G limit rank s.
  Let plan := plan_of E s.

  Lemma names_fine n : In n (class_names s) -> usable_name n /\ capital n = n.
  Proof. destruct R as (_ & _ & _ & _ & _ & _ & F & _). rewrite Forall_forall in F. apply F. Qed.
  Lemma in_simple n : In n (map sc_name (gs_simple s)) -> In n (class_names s).
  Proof. intros I. apply in_or_app. now left. Qed.
  Lemma in_complex n : In n (gs_complex s) -> In n (class_names s).
  Proof. intros I. apply in_or_app. right. apply in_or_app. now left. Qed.
  Lemma plan_simples : simple_names plan = map sc_name (gs_simple s).
  Proof.
    unfold simple_names, plan, plan_of. cbn [sc_simples]. rewrite map_map. apply map_ext_in. intros st I. cbn [simple_of sp_name]. apply name_back.
    apply names_fine, in_simple, (in_map sc_name _ _ I).
  Qed.
  Lemma plan_complexes : complex_names plan = gs_complex s.
  Proof.
    unfold complex_names, plan, plan_of. cbn [sc_complexes]. rewrite map_map. rewrite <- (map_id (gs_complex s)) at 2. apply map_ext_in. intros c I. cbn [cp_name].
    apply name_back. apply names_fine, in_complex, I.
  Qed.
  Hypothesis T : forall p, In p (gs_elements s) -> ge_class (snd p) = false -> exists c, ge_type (snd p) = TComplex c.
  Lemma plan_owns : own_tops plan = map (fun p => mkXp (fst p) None (content_of (class_of E match ge_type (snd p) with TComplex c => c | _ => "" end))) (own_elements s).
  Proof.
    unfold own_tops, own_elements, plan, plan_of. cbn [sc_tops]. clear R. induction (gs_elements s) as [|p l IH]; [reflexivity|]. cbn [map flat_map filter].
    rewrite IH by (intros q I; apply T; now right). unfold top_of at 1. cbn [tp_content tp_name].
    destruct (ge_class (snd p)) eqn:Ec; cbn [negb]; [reflexivity|]. destruct (T p (or_introl eq_refl) Ec) as (c & Et). rewrite Et. cbn [map fst snd]. rewrite Et. reflexivity.
  Qed.
  Lemma plan_own_names : own_names plan = map (fun p => capital (fst p)) (own_elements s).
  Proof. unfold own_names. rewrite plan_owns, map_map. apply map_ext. reflexivity. Qed.
  Lemma plan_names : simple_names plan ++ complex_names plan ++ own_names plan = class_names s.
  Proof. now rewrite plan_simples, plan_complexes, plan_own_names. Qed.

  Lemma known_ref t : type_known s t ->
    library_type nss_x (type_ref t) \/ exists n, own_type nss_x (type_ref t) n /\
      (In n (simple_names plan) \/ (In n (complex_names plan) /\ t = TComplex n)).
  Proof.
    destruct t as [u|c]; cbn [type_known].
    - intros [L | O]; [left; now apply library_ref|]. right. exists (st_class u). rewrite (own_simple_ref s u O). destruct O as [I _].
      destruct (names_fine _ (in_simple _ I)). split; [now apply own_ref|]. left. now rewrite plan_simples.
    - intros I. right. exists c. destruct (names_fine _ (in_complex _ I)). split; [now apply own_ref|]. right. now rewrite plan_complexes.
  Qed.
  Lemma content_fine c n : class_reproducible E G s limit rank c n ->
    content_works nss_x plan rank n (content_of (class_of E c)) /\ rank n < limit.
  Proof.
    intros (d & Hd & N & Hf & Rk). split; [|exact Rk]. rewrite (class_of_ok _ _ _ Hd). unfold content_works. cbn [content_of co_attrs co_elems app].
    rewrite Forall_forall in Hf. assert (X : forall p, In p (map particle_of (cd_fields d)) -> exists f, particle_of f = p /\ field_reproducible G s rank c n f).
    { intros p I. apply in_map_iff in I as (f & <- & I). eauto. }
    split; [split|split].
    - rewrite map_map. exact N.
    - intros p I. destruct (X p I) as (f & <- & _ & _ & Nn & _). cbn [particle_of pt_name]. intros J. apply Nn. cbn in J |- *. tauto.
    - intros p I. destruct (X p I) as (f & <- & _ & _ & Nn & _). cbn [particle_of pt_name]. intros J. apply Nn. cbn. rewrite <- J. tauto.
    - intros p I. destruct (X p I) as (f & <- & _ & Wn & _ & Tk & K). unfold particle_works. cbn [particle_of pt_name pt_attr pt_max pt_min pt_type].
      split; [exact Wn|]. split.
      + right. destruct K as [[K M] | [K [M _]]]; rewrite K; tauto.
      + destruct (known_ref _ Tk) as [L | (m & O & [I' | [I' Et]])]; [now left| |]; right; exists m; (split; [exact O|]); [now left|right]. split; [exact I'|].
        intros M. destruct K as [[K M'] | [K [_ Rk']]]; [rewrite K in M; congruence|]. now apply Rk'.
  Qed.
  Lemma plan_works n : 0 < n -> (gs_efd s = "qualified" \/ gs_efd s = "unqualified") -> schema_works nss_x n limit plan rank.
  Proof.
    intros Hn He. destruct R as (Pt & _ & _ & _ & _ & Nd & Fn & Fs & Fc & Fe). unfold schema_works, document_works. cbv zeta. rewrite plan_names. split; [exact Nd|].
    split; [eapply Forall_impl; [|exact Fn]; now intros a [U _]|]. split; [exact Pt|].
    split; [destruct He as [He | He]; cbn [plan plan_of sc_efd]; rewrite He; vm_compute; intuition discriminate|].
    rewrite Forall_forall in Fe, Fs, Fc.
    split; [apply Forall_forall; intros t I; apply in_map_iff in I as (p & <- & I); cbn [top_of tp_name tp_group]; destruct (Fe p I) as (Pn & Pg & _); split; [exact Pn|]; intros v Ev; destruct (ge_subst (snd p)) as [w|]; [|discriminate Ev]; injection Ev as <-; now apply written_plain, Pg|]. split; [|split; [|split]].
    - intros l1 p l2 Es. assert (I : In p (sc_simples plan)) by (rewrite Es; apply in_or_app; right; now left).
      apply in_map_iff in I as (st & <- & I). destruct (Fs st I) as (L & Pe & Pp). split; [left; cbn [simple_of sp_base]; now apply library_ref|].
      split; [exact Pe|]. cbn [simple_of sp_facets]. unfold pattern_facet. destruct (st_text (sc_fraction st)); [constructor|].
      destruct (st_text (sc_pattern st)) as [p|] eqn:Ep; [|constructor]. constructor; [|constructor]. cbn [snd]. apply Pp.
      unfold st_text in Ep. destruct (sc_pattern st); try discriminate Ep. match goal with |- VStr ?w = _ => destruct w; [discriminate Ep|] end. injection Ep as <-. reflexivity.
    - right. split; [exact Hn|]. intros l1 p l2 q Es Eb. exfalso. assert (I : In p (sc_complexes plan)) by (rewrite Es; apply in_or_app; right; now left).
      apply in_map_iff in I as (c & <- & _). discriminate Eb.
    - apply Forall_forall. intros p I. apply in_app_or in I as [I | I].
      + apply in_map_iff in I as (c & <- & I). unfold complex_works. cbn [cp_name cp_content cp_base]. rewrite name_back by apply names_fine, in_complex, I.
        destruct (content_fine c c (Fc c I)) as [Cw Rk]. split; [exact Cw|]. split; [exact Rk|]. discriminate.
      + rewrite plan_owns in I. apply in_map_iff in I as (p' & <- & I). unfold own_elements in I. apply filter_In in I as [I Ec]. apply negb_true_iff in Ec.
        destruct (T p' I Ec) as (c & Et). rewrite Et. destruct (Fe p' I) as (_ & _ & Fp). rewrite Ec in Fp.
        unfold complex_works. cbn [cp_name cp_content cp_base]. destruct (content_fine c _ (Fp c Et)) as [Cw Rk]. split; [exact Cw|]. split; [exact Rk|]. discriminate.
    - intros t q I Eq. apply in_map_iff in I as (p & <- & I). cbn [top_of tp_content] in Eq. destruct (Fe p I) as (_ & _ & Fp). destruct (ge_class (snd p)) eqn:Ec.
      + injection Eq as <-. destruct (known_ref _ Fp) as [L | (m & O & Im)]; [now left|right]. exists m. split; [exact O|]. apply in_or_app. tauto.
      + destruct (T p I Ec) as (c & Et). rewrite Et in Eq. discriminate.
  Qed.
End Works.

(** ** The module *)
Lemma loaded sort n rt nss limit s rank O x : list_sort sort -> schema_works nss n limit s rank -> states_schema x s ->
  exists code m, schema_to_py sort n nss [] x = Ok code /\ load rt limit O code = Ok m /\
    (forall c, In c (simple_names s) -> exists t, assoc c (ms_names (md_state m)) = Some (MSimple t)) /\
    (forall c, In c (complex_names s ++ own_names s) -> exists k, assoc c (ms_names (md_state m)) = Some (MComplex k)).
Proof.
  intros LS W S. destruct (in_order sort n nss limit s rank x LS W S) as (x' & cs & -> & P & S' & W'). cbn zeta in *.
  set (s' := mkPlan (sc_tns s) (sc_efd s) (sc_simples s) cs (sc_tops s)) in *.
  assert (Pn : Permutation (complex_names s) (complex_names s')) by (apply Permutation_map; exact P).
  destruct (importable rt nss limit s' rank O x' W' S') as (code & m & C & L & B). exists code, m. split; [exact C|]. split; [exact L|]. split.
  - intros c I. destruct (bt_simple _ _ _ _ B c) as (t & A & _); [unfold all_names; cbn [app]; apply in_or_app; now left|exact I|eauto].
  - intros c I. assert (J : In c (complex_names s' ++ own_names s')).
    { apply in_app_or in I as [I | I]; apply in_or_app; [left; now apply (Permutation_in _ Pn)|now right]. }
    apply (bt_complex _ _ _ _ B c); [|exact J]. unfold all_names. cbn [app]. apply in_or_app. now right.
Qed.
