(** What is valid against the XSD document of a schema. *)
From Coq Require Import String Ascii List ZArith NArith Bool Lia Permutation.
From Verif Require Import PyBase PyRe Xml PyVal XsdSimple XsdComplex LibClasses Py2Xsd SpecXsd SpecSimple SpecRender SpecRound SpecValid SpecGiven PfBase PfSimple PfRender PfValid PfValid2.
Import ListNotations.
Open Scope nat_scope.
Open Scope string_scope.
Open Scope list_scope.

Lemma the_one_same P l x y : the_one P l x -> the_one P l y -> x = y.
Proof.
  intros (l1 & l2 & -> & Px & Ho) (m1 & m2 & E & Py & _).
  assert (Hy : In y (l1 ++ x :: l2)) by (rewrite E; apply in_elt).
  apply in_app_or in Hy as [Hy | [Hy | Hy]]; [|exact Hy|]; exfalso; apply (Ho y); auto; apply in_or_app; auto.
Qed.
Lemma clark_local ns a b : clark ns a = clark ns b -> a = b.
Proof.
  unfold clark. intros H. injection H as H. revert H. induction ns as [|c ns IH]; cbn; intros H; [now injection H|]. injection H as H. auto.
Qed.
Lemma append_local p a b : (p ++ a)%string = (p ++ b)%string -> a = b.
Proof. induction p as [|c p IH]; cbn; intros H; [exact H | injection H as H; auto]. Qed.

Lemma whole_unique s x y : whole s x -> whole s y -> x = y.
Proof.
  intros (sl & sg & ds & E & Hs & Hd & Hn & ->) (sl' & sg' & ds' & E' & Hs' & Hd' & Hn' & ->). rewrite E in E'. unfold digits in *.
  destruct Hs as [(-> & ->) | [(-> & ->) | (-> & ->)]], Hs' as [(-> & ->) | [(-> & ->) | (-> & ->)]]; cbn [app] in E'; subst; try reflexivity; try discriminate; try (injection E' as ->; reflexivity).
Qed.
Section Schema.
  Variable O : oracle. Variable E : env. Variable G : decls. Variable s : gschema. Variable mean : string -> re.
  Hypothesis HN : distinct_names s.
  Notation D := (the_doc O E G s).

  (** The name of a child. *)
  Definition child_tag (n : string) : string := if String.eqb (gs_efd s) "qualified" then clark (gs_tns s) n else n.
  Lemma child_tag_local n t : local_tag D n t -> t = child_tag n.
  Proof.
    unfold local_tag, child_tag, root, the_doc, describe_schema, xel. cbn [xd_root el_attrs].
    replace (assoc "elementFormDefault" _) with (Some (gs_efd s)) by reflexivity.
    destruct (String.eqb (gs_efd s) "qualified"); [|auto]. intros (ns & Hns & ->). unfold own_namespace in Hns.
    now injection Hns as <-.
  Qed.
  Lemma child_tag_inj a b : child_tag a = child_tag b -> a = b.
  Proof. unfold child_tag. destruct (String.eqb (gs_efd s) "qualified"); [apply clark_local | auto]. Qed.

  Lemma names_sns q ns n : names D ("sns:" ++ q)%string ns n -> ns = gs_tns s /\ n = q.
  Proof.
    intros (p & Eq & Hp). cbn [the_doc xd_prefixes assoc] in Hp. destruct (String.eqb_spec p "sns") as [-> | _].
    - injection Hp as <-. split; [reflexivity|]. cbn in Eq. now injection Eq.
    - destruct (String.eqb_spec p "xsd") as [-> | _]; [|discriminate]. cbn in Eq. discriminate Eq.
  Qed.
  Lemma names_xsd q ns n : names D ("xsd:" ++ q)%string ns n -> ns = ns_xsd /\ n = q.
  Proof.
    intros (p & Eq & Hp). cbn [the_doc xd_prefixes assoc] in Hp. destruct (String.eqb_spec p "sns") as [-> | _].
    - cbn in Eq. discriminate Eq.
    - destruct (String.eqb_spec p "xsd") as [-> | _]; [|discriminate]. injection Hp as <-. split; [reflexivity|]. cbn in Eq. now injection Eq.
  Qed.

  (** ** The root *)
  Lemma valid_toplevel name el t a k : In (name, el) (gs_elements s) -> t = clark (gs_tns s) name -> valid mean D (Elem t a k) ->
    fits mean D (describe_toplevel O E G (name, el)) (Elem t a k).
  Proof.
    intros Hin -> (ns & n & d & Hns & Hg & Ht & Hf). injection Hns as <-. cbn [el_tag] in Ht. apply clark_local in Ht. subst n.
    rewrite (the_one_same _ _ _ _ (element_found O E G s mean HN name el Hin) Hg). exact Hf.
  Qed.
  Lemma class_fits name el c t a k : ge_type el = TComplex c -> (ge_class el = true -> In c (gs_complex s)) -> (exists y, In y k /\ is_text y = false) ->
    fits mean D (describe_toplevel O E G (name, el)) (Elem t a k) ->
    exists b k', elements k k' /\ content mean D (describe_class O G b c (class_of E c)) k'.
  Proof.
    intros Ht Hc (y & Hy & Hyt) Hf. inversion Hf as [d tag Hn|d tag k0 w Ho _|d tag ct k0 k' Hct Hk Hco]; subst.
    - destruct Hy.
    - destruct Ho as [[-> _] | ->]; [destruct Hy|]. destruct Hy as [<- | []]. discriminate Hyt.
    - assert (At : assoc "type" (el_attrs (describe_toplevel O E G (name, el))) = if ge_class el then Some (type_ref (ge_type el)) else None).
      { unfold describe_toplevel, xel. cbn [el_attrs fst snd]. destruct (ge_class el), (ge_subst el); reflexivity. }
      destruct Hct as (_ & [(q & ns & n & Hq & Hns & Hnm & Hg) | (Hq & Hk1)]); rewrite At in Hq; destruct (ge_class el) eqn:Eg; try discriminate.
      + injection Hq as <-. rewrite Ht in Hnm. unfold type_ref in Hnm. apply names_sns in Hnm as (-> & ->).
        exists true, k'. split; [exact Hk|]. rewrite <- (the_one_same _ _ _ _ Hg (class_found O E G s mean HN c (Hc eq_refl))). exact Hco.
      + exists false, k'. split; [exact Hk|]. unfold describe_toplevel, xel in Hk1. cbn [el_kids snd] in Hk1. rewrite Eg, Ht in Hk1. injection Hk1 as <-. exact Hco.
  Qed.

  (** ** Children *)
  Lemma group_same ct g ps g' ps' : group_of ct g ps -> group_of ct g' ps' -> g = g' /\ ps = ps'.
  Proof. intros (a & H) (a' & H'). rewrite H in H'. assert (X : clark ns_xsd g = clark ns_xsd g' /\ ps = ps') by (split; congruence). destruct X as [X ->]. split; [exact (clark_local _ _ _ X) | reflexivity]. Qed.
  Lemma content_runs ct g ps k : content mean D ct k -> group_of ct g ps -> g <> "choice" ->
    exists runs, Forall2 (SpecValid.occurs mean D) ps runs /\ Permutation (concat runs) k.
  Proof.
    intros Hc Hg Hn. inversion Hc as [? ps' runs ? Hg'|? ps' p ? Hg'|? ps' runs ? Hg']; subst; destruct (group_same _ _ _ _ _ Hg Hg') as (-> & ->); eauto.
    contradiction.
  Qed.
  Lemma content_choice ct ps k : content mean D ct k -> group_of ct "choice" ps -> exists p, In p ps /\ SpecValid.occurs mean D p k.
  Proof.
    intros Hc Hg. inversion Hc as [? ps' runs ? Hg'|? ps' p ? Hg'|? ps' runs ? Hg']; subst; destruct (group_same _ _ _ _ _ Hg Hg') as (X & ->); eauto; discriminate X.
  Qed.
  Definition called (n : string) (k : list node) : list node := filter (fun y => String.eqb (el_tag y) (child_tag n)) k.
  Lemma called_all n k : Forall (fun x => el_tag x = child_tag n) k -> called n k = k.
  Proof. induction 1 as [|x k H _ IH]; [reflexivity|]. unfold called in *. cbn [filter]. rewrite H, String.eqb_refl. now f_equal. Qed.
  Lemma called_none n m k : n <> m -> Forall (fun x => el_tag x = child_tag m) k -> called n k = [].
  Proof.
    intros Hn. induction 1 as [|x k H _ IH]; [reflexivity|]. unfold called in *. cbn [filter]. rewrite H.
    destruct (String.eqb_spec (child_tag m) (child_tag n)) as [X | _]; [|exact IH]. apply child_tag_inj in X. now destruct Hn.
  Qed.
  Lemma called_app n k k' : called n (k ++ k') = called n k ++ called n k'.
  Proof. apply filter_app. Qed.
  Lemma occurs_tags c f k : SpecValid.occurs mean D (describe_element O G c f) k -> Forall (fun x => el_tag x = child_tag (tag_or_name f)) k.
  Proof.
    inversion 1 as [d n k0 _ Hn _ _ Hk]; subst. rewrite decl_name in Hn. injection Hn as <-.
    apply Forall_forall. intros x Hx. rewrite Forall_forall in Hk. apply child_tag_local, Hk, Hx.
  Qed.
  Lemma called_run c fs runs f : NoDup (map tag_or_name fs) -> Forall2 (SpecValid.occurs mean D) (map (describe_element O G c) fs) runs -> In f fs ->
    SpecValid.occurs mean D (describe_element O G c f) (called (tag_or_name f) (concat runs)).
  Proof.
    intros Hd H. remember (map (describe_element O G c) fs) as ds eqn:Ed. revert fs Hd Ed. induction H as [|d run ds runs Ho Hos IH]; intros fs Hd Ed Hin.
    - destruct fs; [destruct Hin | discriminate Ed].
    - destruct fs as [|g fs]; [discriminate Ed|]. cbn [map] in Ed, Hd. injection Ed as -> ->. inversion Hd as [|? ? Hni Hd']; subst.
      cbn [concat]. rewrite called_app. pose proof (occurs_tags c g run Ho) as Hg.
      assert (Hns : forall n, ~ In n (map tag_or_name fs) -> called n (concat runs) = []).
      { clear - Hos. intros n. remember (map (describe_element O G c) fs) as ds eqn:Ed. revert fs Ed. induction Hos as [|d run ds runs Ho Hos IH]; intros fs Ed Hn; [reflexivity|].
        destruct fs as [|g fs]; [discriminate Ed|]. cbn [map] in Ed, Hn. injection Ed as -> ->. cbn [concat]. rewrite called_app.
        rewrite (called_none n (tag_or_name g) run); [|intros ->; apply Hn; now left|exact (occurs_tags c g run Ho)]. apply (IH fs eq_refl). intros X. apply Hn. now right. }
      destruct Hin as [-> | Hin].
      + rewrite (called_all _ _ Hg), (Hns _ Hni), app_nil_r. exact Ho.
      + rewrite (called_none (tag_or_name f) (tag_or_name g) run); [|intros X; apply Hni; rewrite <- X; now apply in_map|exact Hg].
        apply (IH fs Hd' eq_refl Hin).
  Qed.
  Lemma occurs_permuted d k k' : SpecValid.occurs mean D d k -> Permutation k k' -> SpecValid.occurs mean D d k'.
  Proof.
    inversion 1 as [? n ? Ht Hn Hl Hm Hk]; subst. intros Hp. pose proof (Permutation_length Hp) as El. rewrite El in Hl, Hm. econstructor; eauto.
    rewrite Forall_forall in Hk |- *. intros x Hx. apply Hk. now apply (Permutation_in x (Permutation_sym Hp)).
  Qed.
  Lemma called_permuted n k k' : Permutation k k' -> Permutation (called n k) (called n k').
  Proof.
    unfold called. induction 1; cbn [filter]; auto.
    - destruct (String.eqb (el_tag x) (child_tag n)); auto.
    - destruct (String.eqb (el_tag x) (child_tag n)), (String.eqb (el_tag y) (child_tag n)); auto. constructor.
    - now transitivity (filter (fun y => String.eqb (el_tag y) (child_tag n)) l').
  Qed.
  (** In a valid document, the children of an element fit the fields of its class. *)
  Lemma valid_fields name el c d t a k : In (name, el) (gs_elements s) -> t = clark (gs_tns s) name -> ge_type el = TComplex c -> (ge_class el = true -> In c (gs_complex s)) ->
    e_cls E c = Some d -> cd_ind d <> IChoice -> NoDup (map tag_or_name (filter is_plain (cd_fields d))) -> (exists y, In y k /\ is_text y = false) -> valid mean D (Elem t a k) ->
    exists k', elements k k' /\ forall f, In f (cd_fields d) -> is_plain f = true -> SpecValid.occurs mean D (describe_element O G c f) (called (tag_or_name f) k').
  Proof.
    intros Hin Htag Ht Hc Ed Hi Hd Hk Hv. apply (valid_toplevel name el t a k Hin Htag) in Hv. destruct (class_fits name el c t a k Ht Hc Hk Hv) as (b & k' & He & Hco).
    exists k'. split; [exact He|]. intros f Hf Hp.
    assert (Hg : group_of (describe_class O G b c (class_of E c)) (indicator_tag (cd_ind d)) (map (describe_element O G c) (filter is_plain (cd_fields d)))).
    { exists []. unfold class_of. rewrite Ed. reflexivity. }
    destruct (content_runs _ _ _ _ Hco Hg) as (runs & Hr & Hpm); [destruct (cd_ind d); [discriminate|contradiction|discriminate]|].
    refine (occurs_permuted _ _ _ (called_run c _ runs f Hd Hr _) (called_permuted _ _ _ Hpm)). apply filter_In. auto.
  Qed.
  Lemma valid_choice name el c d t a k : In (name, el) (gs_elements s) -> t = clark (gs_tns s) name -> ge_type el = TComplex c -> (ge_class el = true -> In c (gs_complex s)) ->
    e_cls E c = Some d -> cd_ind d = IChoice -> (exists y, In y k /\ is_text y = false) -> valid mean D (Elem t a k) ->
    exists k' f, elements k k' /\ In f (cd_fields d) /\ SpecValid.occurs mean D (describe_element O G c f) k'.
  Proof.
    intros Hin Htag Ht Hc Ed Hi Hk Hv. apply (valid_toplevel name el t a k Hin Htag) in Hv. destruct (class_fits name el c t a k Ht Hc Hk Hv) as (b & k' & He & Hco).
    assert (Hg : group_of (describe_class O G b c (class_of E c)) "choice" (map (describe_element O G c) (filter is_plain (cd_fields d)))).
    { exists []. unfold class_of. rewrite Ed. cbn. now rewrite Hi. }
    destruct (content_choice _ _ _ Hco Hg) as (p & Hp & Ho). apply in_map_iff in Hp as (f & <- & Hf). apply filter_In in Hf as [Hf _]. eauto.
  Qed.
  (** The text of a type of the library. *)
  Lemma builtin_text f c n x : gs_tns s <> ns_xsd -> dc_class G c f = true -> type_ref (f_type f) = ("xsd:" ++ n)%string ->
    (exists w, x = Elem (el_tag x) [] [Text w]) -> fits mean D (describe_element O G c f) x -> exists w, x = Elem (el_tag x) [] [Text w] /\ lexical n w.
  Proof.
    intros Hns Hc Ht (w & ->) Hf. exists w. split; [reflexivity|]. cbn [el_tag] in *. inversion Hf as [|d tag k0 w' Ho Htx|d tag ct k0 k' Hct Hk Hco]; subst.
    - destruct Ho as [[C _] | C]; [discriminate C|]. injection C as <-.
      destruct Htx as [(q & Hq & Hx) | (t & base & fs & Hq & _)]; rewrite decl_type, Hc in Hq; [|discriminate Hq]. injection Hq as <-. rewrite Ht in Hx.
      inversion Hx as [q' n' s' Hnm Hl|q' ns n' t base fs s' Hown Hnm]; subst.
      + apply names_xsd in Hnm as (_ & ->). exact Hl.
      + apply names_xsd in Hnm as (-> & _). injection Hown as C. contradiction.
    - destruct Hct as (_ & [(q & ns & n' & Hq & Hown & Hnm & Hg) | (Hq & _)]); rewrite decl_type, Hc in Hq; [|discriminate Hq]. injection Hq as <-. rewrite Ht in Hnm.
      apply names_xsd in Hnm as (-> & _). injection Hown as C. contradiction.
  Qed.
End Schema.
