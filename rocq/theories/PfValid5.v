(** Validity of what is sent: after serialisation and pretty-printing. *)
From Coq Require Import String Ascii List ZArith NArith Bool Lia Permutation.
From Verif Require Import PyBase PyRe Xml PyVal XsdSimple XsdComplex LibClasses Py2Xsd SpecXsd SpecRound SpecValid SpecGiven PfBase PfXsd2 PfValid2 PfValid3.
Import ListNotations.
Open Scope nat_scope.
Open Scope string_scope.
Open Scope list_scope.

Lemma node_tree (P : node -> Prop) : (forall t a k, Forall P k -> P (Elem t a k)) -> (forall x, (forall t a k, x <> Elem t a k) -> P x) -> forall x, P x.
Proof.
  intros HE HO. fix IH 1. intros [t a k|s|s|s]; [|apply HO; discriminate..]. apply HE. induction k as [|y k IHk]; constructor; [apply IH | exact IHk].
Qed.
Lemma elements_same k : (forall y, In y k -> is_text y = false) -> filter (fun y => negb (is_text y)) k = k.
Proof. induction k as [|y k IH]; intros H; [reflexivity|]. cbn [filter]. rewrite (H y (or_introl eq_refl)). cbn. f_equal. apply IH. intros z Hz. apply H. now right. Qed.
Lemma blank_app a b : blank a -> blank b -> blank (a ++ b).
Proof. unfold blank, to_l. intros Ha Hb. rewrite to_l_app. now apply Forall_app. Qed.

Section Document.
  Variable mean : string -> re. Variable D : xdocument.
  Notation fits := (fits mean D). Notation content := (content mean D). Notation occurs := (SpecValid.occurs mean D).
  Definition kept (x y : node) : Prop := el_tag x = el_tag y /\ forall d, fits d x -> fits d y.

  Lemma occurs_kept d k k2 : occurs d k -> Forall2 kept k k2 -> occurs d k2.
  Proof.
    inversion 1 as [? n ? Ht Hn Hl Hm Hk]; subst. intros Hr. assert (El : length k = length k2) by (clear - Hr; induction Hr; cbn; congruence). rewrite El in Hl, Hm. econstructor; eauto.
    clear - Hk Hr. induction Hr as [|x y k k2 (E & F) Hr IH]; [constructor|]. inversion Hk as [|? ? (H1 & H2) Hk']; subst. constructor; [|auto]. split; [now rewrite <- E | auto].
  Qed.
  Lemma runs_kept ps runs : Forall2 occurs ps runs -> forall k2, Forall2 kept (concat runs) k2 -> exists runs2, Forall2 occurs ps runs2 /\ k2 = concat runs2.
  Proof.
    induction 1 as [|p run ps runs Ho Hos IH]; intros k2 H; cbn [concat] in H.
    - inversion H. exists []. now split.
    - apply Forall2_app_inv_l in H as (a & b & Ha & Hb & ->). destruct (IH b Hb) as (runs2 & H2 & ->). exists (a :: runs2). split; [|reflexivity]. constructor; [exact (occurs_kept _ _ _ Ho Ha) | exact H2].
  Qed.
  Lemma content_kept ct k k2 : content ct k -> Forall2 kept k k2 -> content ct k2.
  Proof.
    intros Hc Hk. inversion Hc as [? ps runs ? Hg Ho E|? ps p ? Hg Hp Ho|? ps runs ? Hg Ha Ho Hpm]; subst.
    - destruct (runs_kept _ _ Ho _ Hk) as (runs2 & H2 & ->). eapply co_sequence; eauto.
    - eapply co_choice; eauto. eapply occurs_kept; eauto.
    - destruct (Permutation_Forall2 (Permutation_sym Hpm) Hk) as (l & Hp & Hl). destruct (runs_kept _ _ Ho _ Hl) as (runs2 & H2 & ->). eapply co_all; eauto. now apply Permutation_sym.
  Qed.

  (** ** Serialisation *)
  Lemma merge_elements k : filter (fun y => negb (is_text y)) (merge_text k) = filter (fun y => negb (is_text y)) k.
  Proof.
    induction k as [|y k IH]; [reflexivity|]. destruct y as [t a kk|s|s|s]; cbn [merge_text filter is_text negb]; try (now rewrite IH).
    rewrite <- IH. destruct (merge_text k) as [|[t a kk|s'|s'|s'] m]; destruct (String.eqb s ""); reflexivity.
  Qed.
  Lemma merge_blank k : (forall s, In (Text s) k -> blank s) -> forall s, In (Text s) (merge_text k) -> blank s.
  Proof.
    induction k as [|y k IH]; intros Hb s Hs; [destruct Hs|].
    assert (Hk : forall s, In (Text s) (merge_text k) -> blank s) by (apply IH; intros w Hw; apply Hb; now right).
    destruct y as [t a kk|w|w|w]; cbn [merge_text] in Hs; try (destruct Hs as [C | Hs]; [discriminate C | auto]).
    assert (Hw : blank w) by (apply Hb; now left).
    destruct (merge_text k) as [|[t a kk|s'|s'|s'] m]; try (destruct (String.eqb w ""); [auto|]; destruct Hs as [[= <-] | Hs]; auto; fail).
    destruct Hs as [[= <-] | Hs]; [apply blank_app; [exact Hw | apply Hk; now left] | apply Hk; now right].
  Qed.
  Lemma wire_is_text y : is_text (wire y) = is_text y.
  Proof. now destruct y. Qed.
  Lemma wire_tag y : el_tag (wire y) = el_tag y.
  Proof. now destruct y. Qed.
  Lemma wire_kept x : kept x (wire x).
  Proof.
    induction x as [t a k IH|x Hx] using node_tree; [|destruct x as [t a k|s|s|s]; [destruct (Hx t a k eq_refl)|split; auto..]].
    split; [reflexivity|]. intros d Hf. inversion Hf as [? ? Hn|? ? ? s Ho Ht|? ? ct ? k' Hct (He & Hb) Hco]; subst; cbn [wire].
    - now constructor.
    - apply ft_text with s; [|exact Ht]. destruct Ho as [(-> & ->) | ->]; [now left|]. cbn. destruct (String.eqb_spec s "") as [-> | _]; [now left | now right].
    - apply ft_children with ct (map wire (filter (fun y => negb (is_text y)) k)); [exact Hct| |].
      + split.
        * rewrite merge_elements. clear. induction k as [|y k IH]; [reflexivity|]. cbn [map filter]. rewrite wire_is_text. destruct (is_text y); cbn; now rewrite IH.
        * apply merge_blank. intros s Hs. apply in_map_iff in Hs as (y & Ey & Hy). destruct y; try discriminate Ey. cbn in Ey. injection Ey as ->. auto.
      + apply (content_kept ct _ _ Hco). clear - IH. induction IH as [|y k Hy _ IHk]; [constructor|]. cbn [filter]. destruct (negb (is_text y)); [cbn [map]; constructor|]; auto.
  Qed.

  (** ** White space *)
  Lemma layout_tag x y : layout x y -> el_tag x = el_tag y.
  Proof. now inversion 1. Qed.
  Lemma layout_is_text x y : layout x y -> is_text x = is_text y.
  Proof. now inversion 1. Qed.
  Lemma spaced_elements k k2 : spaced k k2 -> Forall (fun y => is_text y = false) k -> exists k', elements k2 k' /\ Forall2 layout k k'.
  Proof.
    induction 1 as [|s k k2 Hs Hk IH|x y k k2 Hx Hk IH]; intros Ht.
    - exists []. split; [split; [reflexivity | intros s []] | constructor].
    - destruct (IH Ht) as (k' & (-> & Hb) & Hl). eexists. split; [split; [reflexivity|]|exact Hl]. intros w [[= <-] | Hw]; auto.
    - inversion Ht as [|? ? Htx Ht']; subst. destruct (IH Ht') as (k' & (-> & Hb) & Hl). exists (y :: filter (fun y => negb (is_text y)) k2). split; [split|].
      + cbn [filter]. now rewrite <- (layout_is_text x y Hx), Htx.
      + intros w [-> | Hw]; [|auto]. rewrite (layout_is_text x _ Hx) in Htx. discriminate Htx.
      + constructor; assumption.
  Qed.
  Lemma layout_kept x : forall y, layout x y -> kept x y.
  Proof.
    induction x as [t a k IH|x Hx] using node_tree; intros y Hl; [|inversion Hl as [|t a k]; subst; [split; auto | destruct (Hx t a k eq_refl)]].
    split; [exact (layout_tag _ _ Hl)|]. intros d Hf. inversion Hl as [|? ? ? k2 Hn Ht Hsp]; subst; [exact Hf|].
    inversion Hf as [|? ? ? s Ho|? ? ct ? k' Hct (He & Hb) Hco]; subst.
    - now destruct Hn.
    - destruct Ho as [(-> & _) | ->]; [now destruct Hn|]. inversion Ht; discriminate.
    - destruct (spaced_elements k k2 Hsp Ht) as (k' & Hk' & Hf2). apply ft_children with ct k'; [exact Hct|exact Hk'|]. apply (content_kept ct _ _ Hco).
      rewrite elements_same by (now apply Forall_forall). clear - IH Hf2. induction Hf2 as [|x y k k' Hx Hf2 IHf]; [constructor|]. inversion IH as [|? ? H1 H2]; subst. constructor; auto.
  Qed.
  Lemma valid_sent x y : valid mean D x -> layout (wire x) y -> valid mean D y.
  Proof.
    intros (ns & n & d & Hn & Hg & Ht & Hf) Hl. destruct (wire_kept x) as (T1 & F1), (layout_kept _ _ Hl) as (T2 & F2). exists ns, n, d. repeat split; auto. congruence.
  Qed.
End Document.

Lemma written_valid O lim E G j s mean n c name el v x : schema_describable O E G s -> schema_ok mean E G s ->
  In (name, el) (gs_elements s) -> ge_type el = TComplex c -> ncname_ok name = true -> complete O E (TComplex c) v ->
  xml_of n O E v name (Some (gs_tns s)) (Some (gs_efd s)) = Ok x ->
  exists doc, generate_xsd (8 + j) O (lib_env lim) E G s = Ok doc /\ valid mean doc x.
Proof.
  intros HD HS Hin Ht Hn Hv Hx. eexists. split; [exact (generate_ok O lim E G j s HD)|]. exact (document_valid O E G s mean HD HS n c name el v x Hin Ht Hn Hv Hx).
Qed.
Lemma written_layout_valid O lim E G j s mean n c name el v x y : schema_describable O E G s -> schema_ok mean E G s ->
  In (name, el) (gs_elements s) -> ge_type el = TComplex c -> ncname_ok name = true -> complete O E (TComplex c) v ->
  xml_of n O E v name (Some (gs_tns s)) (Some (gs_efd s)) = Ok x -> layout (wire x) y ->
  exists doc, generate_xsd (8 + j) O (lib_env lim) E G s = Ok doc /\ valid mean doc y.
Proof.
  intros HD HS Hin Ht Hn Hv Hx Hl. destruct (written_valid O lim E G j s mean n c name el v x HD HS Hin Ht Hn Hv Hx) as (doc & Hd & Hok).
  exists doc. split; [exact Hd | exact (valid_sent _ _ _ _ Hok Hl)].
Qed.
