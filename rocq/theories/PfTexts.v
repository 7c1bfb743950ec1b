(** Proofs about XML text with schemas, and about documents. *)
From Coq Require Import String Ascii List ZArith Bool Lia Permutation.
From Verif Require Import PyBase PyRe Xml PyVal XsdSimple XsdComplex XsdMeta LibClasses Py2Xsd Texts
  SpecXsd SpecParse SpecRound SpecTotal SpecValid SpecGiven SpecRead SpecMeta SpecTexts
  PfBase PfRoundEx PfValid5 PfRead4 PfMeta PfMeta2.
Import ListNotations.
Open Scope nat_scope.
Open Scope string_scope.
Open Scope list_scope.

Lemma checked_only n O L E G fromstring XMLSchema mean d check c text v : accepts_only mean d check ->
  parsexml n O L E G fromstring XMLSchema c text (Some (Compiled check)) = Ok v ->
  parsexml n O L E G fromstring XMLSchema c text None = Ok v /\ exists x, fromstring text = Ok x /\ valid mean d x.
Proof.
  intros H. unfold parsexml, parse_checked. cbn [bind]. destruct (fromstring text) as [x|e]; cbn [bind]; [|discriminate].
  destruct (check x) as [[]|e] eqn:C; cbn [bind]; [|discriminate]. intros R. split; [exact R|]. exists x. split; [reflexivity|now apply H].
Qed.
Lemma checked_all n O L E G fromstring XMLSchema mean d check c text x : accepts_all mean d check ->
  fromstring text = Ok x -> valid mean d x ->
  parsexml n O L E G fromstring XMLSchema c text (Some (Compiled check)) = parsexml n O L E G fromstring XMLSchema c text None.
Proof. intros H T V. unfold parsexml, parse_checked. cbn [bind]. rewrite T. cbn [bind]. now rewrite (H x V). Qed.
Lemma described_checked n O L E G fromstring XMLSchema s d check c text : generate_xsd n O L E G s = Ok d -> XMLSchema d = Ok check ->
  parsexml n O L E G fromstring XMLSchema c text (Some (Described s)) = parsexml n O L E G fromstring XMLSchema c text (Some (Compiled check)).
Proof. intros A B. unfold parsexml. rewrite A. cbn [bind]. now rewrite B. Qed.
Lemma written_only n O E tostring mean d check v tag ns efd text : accepts_only mean d check ->
  to_xml n O E tostring v tag ns efd (Some (Compiled check)) = Ok text ->
  to_xml n O E tostring v tag ns efd None = Ok text /\ exists x, text = tostring x /\ valid mean d x.
Proof.
  intros H. unfold to_xml. destruct (xml_of n O E v tag ns efd) as [x|e]; cbn [bind]; [|discriminate].
  destruct (check x) as [[]|e] eqn:C; cbn [bind]; [|discriminate]. intros [= <-]. split; [reflexivity|]. exists x. split; [reflexivity|now apply H].
Qed.
Lemma written_schema n O E tostring v tag ns efd s : forall text, to_xml n O E tostring v tag ns efd (Some (Described s)) <> Ok text.
Proof. intros text. unfold to_xml. destruct (xml_of n O E v tag ns efd); cbn [bind]; discriminate. Qed.

Lemma schema_round O lim E G j s mean fromstring tostring XMLSchema P c name el v d check :
  schema_describable O E G s -> schema_ok mean E G s -> rt_classes O E P -> P c -> rt_typed O E (TComplex c) v -> complete O E (TComplex c) v ->
  In (name, el) (gs_elements s) -> ge_type el = TComplex c -> ncname_ok name = true -> ns_good (Some (gs_tns s)) -> vdepth v <= 8 + j ->
  generate_xsd (8 + j) O (lib_env lim) E G s = Ok d -> XMLSchema d = Ok check -> accepts_all mean d check ->
  (forall x, xml_of (8 + j) O E v name (Some (gs_tns s)) (Some (gs_efd s)) = Ok x -> survives fromstring tostring x) ->
  exists text v', to_xml (8 + j) O E tostring v name (Some (gs_tns s)) (Some (gs_efd s)) (Some (Compiled check)) = Ok text /\
    parsexml (8 + j) O (lib_env lim) E G fromstring XMLSchema c text (Some (Described s)) = Ok v' /\ erase v' = erase v.
Proof.
  intros HD HS HR Pc Tv Cv Hin Ht Hn Hg Hd Gd Xd Ha Hs.
  destruct (roundtrip_wire O E P c v name (Some (gs_tns s)) (Some (gs_efd s)) (8 + j) HR Pc Tv Hn Hg Hd) as (x & X & R).
  destruct (Hs x X) as (doc & Fd & Ly).
  destruct (R doc doc Ly (or_introl eq_refl)) as (v' & Pv & Ev).
  destruct (written_valid O lim E G j s mean (8 + j) c name el v x HD HS Hin Ht Hn Cv X) as (d1 & G1 & V1).
  destruct (written_layout_valid O lim E G j s mean (8 + j) c name el v x doc HD HS Hin Ht Hn Cv X Ly) as (d2 & G2 & V2).
  rewrite Gd in G1, G2. injection G1 as <-. injection G2 as <-.
  exists (tostring x), v'. split; [|split; [|exact Ev]].
  - unfold to_xml. rewrite X. cbn [bind]. rewrite (Ha x V1). reflexivity.
  - rewrite (described_checked _ _ _ _ _ fromstring XMLSchema s d check c (tostring x) Gd Xd).
    rewrite (checked_all _ _ _ _ _ fromstring XMLSchema mean d check c (tostring x) doc Ha Fd V2).
    unfold parsexml. cbn [bind]. rewrite Fd. cbn [bind]. exact Pv.
Qed.
Lemma schema_reads O lim E G j s mean fromstring XMLSchema name el c x text d check :
  reads_numbers O -> schema_describable O E G s -> schema_ok mean E G s -> schema_readable O E G s ->
  In (name, el) (gs_elements s) -> ge_type el = TComplex c -> el_tag x = clark (gs_tns s) name -> spelled E s (TComplex c) x -> height x < 8 + j ->
  generate_xsd (8 + j) O (lib_env lim) E G s = Ok d -> XMLSchema d = Ok check -> accepts_all mean d check -> fromstring text = Ok x -> valid mean d x ->
  exists v, parsexml (8 + j) O (lib_env lim) E G fromstring XMLSchema c text (Some (Described s)) = Ok v /\ says O E s (TComplex c) x v.
Proof.
  intros HO HD HS HR Hin Ht Hx Hs Hn Gd Xd Ha Fx Vx.
  destruct (valid_reads_doc O lim E G j s mean name el c x (8 + j) HO HD HS HR Hin Ht Hx Hs Hn) as (d1 & G1 & R). rewrite Gd in G1. injection G1 as <-.
  destruct (R Vx) as (v & Pv & Sv). exists v. split; [|exact Sv].
  rewrite (described_checked _ _ _ _ _ fromstring XMLSchema s d check c text Gd Xd).
  rewrite (checked_all _ _ _ _ _ fromstring XMLSchema mean d check c text x Ha Fx Vx).
  unfold parsexml. cbn [bind]. rewrite Fx. cbn [bind]. exact Pv.
Qed.

(** ** Documents *)
Lemma root_field_of E c f : root_of E c f -> root_field E c = Ok f.
Proof.
  intros (d & before & after & D & F & K & B). unfold root_field, get_class. rewrite D. cbn [bind]. rewrite F, filter_app.
  assert (N : filter is_plain before = []).
  { clear F. induction B as [|g l Hg B IH]; [reflexivity|]. cbn [filter]. unfold is_plain, is_attr, is_group. destruct Hg as [-> |[-> | ->]]; exact IH. }
  rewrite N. cbn [app filter]. unfold is_plain, is_attr, is_group. rewrite K. reflexivity.
Qed.

Lemma document_text n O E tostring c f ct xe fs xe' fs' : root_of E c f -> f_type f = TComplex ct -> f_ns f = None ->
  assoc (f_name f) fs = Some (VObj ct xe' fs') ->
  document_render n O E tostring None (VObj c xe fs) = to_xml n O E tostring (VObj ct xe' fs') (f_name f) None None None.
Proof.
  intros R T N A. unfold document_render, to_xml, xml_of. cbn [obj_parts bind fst snd]. rewrite (root_field_of E c f R). cbn [bind].
  unfold getattr. rewrite A. cbn [bind]. destruct R as (d & before & after & D & F & K & B). rewrite K.
  unfold render_element, eff_ns. rewrite N. cbn [qualify]. destruct (mk_element (f_name f)) as [x|e]; cbn [bind]; [|reflexivity].
  rewrite T. cbn [render_type]. destruct (render_obj n O E ct x (VObj ct xe' fs') None None) as [y|e]; cbn [bind]; [|reflexivity].
  unfold mock. cbn [el_append el_kids app rev]. reflexivity.
Qed.
Lemma document_round n O L E G XMLSchema fromstring tostring P c f ct xe fs v : root_of E c f -> f_type f = TComplex ct -> f_ns f = None ->
  rt_classes O E P -> P ct -> rt_typed O E (TComplex ct) v -> ncname_ok (f_name f) = true -> vdepth v <= n ->
  assoc (f_name f) fs = Some v -> (forall x, xml_of n O E v (f_name f) None None = Ok x -> survives fromstring tostring x) ->
  exists text v', document_render n O E tostring None (VObj c xe fs) = Ok text /\ parsexml n O L E G fromstring XMLSchema ct text None = Ok v' /\ erase v' = erase v.
Proof.
  intros R T N HR Pc Tv Hn Hd A Hs.
  destruct (roundtrip_wire O E P ct v (f_name f) None None n HR Pc Tv Hn I Hd) as (x & X & Q).
  destruct (Hs x X) as (doc & Fd & Ly). destruct (Q doc doc Ly (or_introl eq_refl)) as (v' & Pv & Ev).
  exists (tostring x), v'. split; [|split; [unfold parsexml; cbn [bind]; rewrite Fd; exact Pv|exact Ev]].
  inversion Tv as [|c0 d0 xe0 fs0 D0 N0 F0]; subst. rewrite (document_text n O E tostring c f ct xe fs xe0 fs0 R T N A).
  unfold to_xml. rewrite X. reflexivity.
Qed.

(** Rendering does not change the tag. *)
Lemma bind_ok {A B} (r : res A) (k : A -> res B) b : bind r k = Ok b -> exists a, r = Ok a /\ k a = Ok b.
Proof. destruct r as [a|e]; cbn [bind]; [eauto|discriminate]. Qed.
Lemma append_tag p x : el_tag (el_append p x) = el_tag p. Proof. now destruct p. Qed.
Lemma set_tag x a b y : el_set x a b = Ok y -> el_tag y = el_tag x.
Proof. unfold el_set. intros H. apply bind_ok in H as (m & _ & H). destruct (xml_text_ok b); [|discriminate]. destruct x; try discriminate. now injection H as <-. Qed.
Lemma set_text_tag x t y : set_text_val x t = Ok y -> el_tag y = el_tag x.
Proof.
  unfold set_text_val. destruct t; try discriminate; [now intros [= <-]|]. unfold el_set_text.
  destruct x; try discriminate; repeat match goal with |- context [if ?b then _ else _] => destruct b end; try discriminate; now intros [= <-].
Qed.
Lemma simple_tag O s x v y : render_simple O s x v = Ok y -> el_tag y = el_tag x.
Proof.
  unfold render_simple. intros H. apply bind_ok in H as (t & _ & H). apply bind_ok in H as (p & Hp & H). apply set_text_tag in Hp. rewrite <- Hp.
  destruct s; try (now injection H as <-). now apply set_tag in H.
Qed.
Section tag.
  Variables (O : oracle) (E : env) (rec : renderer).
  Hypothesis Hrec : forall c x v ns efd y, rec c x v ns efd = Ok y -> el_tag y = el_tag x.
  Lemma type_tag t x v ns efd y : render_type O rec t x v ns efd = Ok y -> el_tag y = el_tag x.
  Proof. destruct t; cbn [render_type]; [apply simple_tag|apply Hrec]. Qed.
  Lemma ref_tag f p nm v ns efd y : render_ref O E rec f p nm v ns efd = Ok y -> el_tag y = el_tag p.
  Proof.
    unfold render_ref. intros H. assert (Q : v <> VNone) by (intros ->; discriminate).
    destruct (is_group_obj E v).
    - apply (type_tag (f_type f) p v ns efd). now destruct v.
    - assert (W : (x <- mk_element (match ns with Some n => if String.eqb n "" then nm else clark n nm | None => nm end) ;; x' <- render_type O rec (f_type f) x v ns efd ;; Ok (el_append p x')) = Ok y) by now destruct v.
      clear H. apply bind_ok in W as (x & _ & W); apply bind_ok in W as (x' & _ & W); injection W as <-; apply append_tag.
  Qed.
  Lemma field_tag f p v ns efd y : render_field O E rec f p v ns efd = Ok y -> el_tag y = el_tag p.
  Proof.
    unfold render_field. destruct (f_kind f).
    - unfold render_element. destruct v; try (now intros [= <-]); intros H; apply bind_ok in H as (x & _ & H); apply bind_ok in H as (x' & _ & H); injection H as <-; apply append_tag.
    - unfold render_classnamed. destruct v; try (now intros [= <-]); intros H; apply bind_ok in H as (q & _ & H); apply bind_ok in H as (tn & _ & H); apply bind_ok in H as (vl & _ & H);
      (destruct vl; [now injection H as <-|..]); apply bind_ok in H as (q' & _ & H); apply bind_ok in H as (dd & _ & H); (destruct (cd_schema dd); [|discriminate]);
      apply bind_ok in H as (tg & _ & H); apply bind_ok in H as (x & _ & H); apply bind_ok in H as (x' & _ & H); injection H as <-; apply append_tag.
    - unfold render_attribute. intros H.
      repeat match type of H with
      | (match ?v with _ => _ end) = Ok _ => destruct v; try discriminate
      | Ok _ = Ok _ => injection H as <-; reflexivity
      | bind _ _ = Ok _ => apply bind_ok in H as (? & _ & H)
      | el_set _ _ _ = Ok _ => now apply set_tag in H
      | set_attr_val _ _ ?x = Ok _ => unfold set_attr_val in H; destruct x; try discriminate; now apply set_tag in H
      end.
    - apply ref_tag.
    - apply ref_tag.
    - unfold render_list. destruct v as [| | | | | | | | | | | |q items|]; try discriminate. destruct (match f_min f with Some m => _ | None => _ end); [discriminate|].
      destruct (match f_max f with OInt m => _ | _ => _ end); [discriminate|]. destruct (f_tag f) as [t|].
      + apply (foldM_inv (fun q => el_tag q = el_tag p)); [reflexivity|]. intros a b b' _ Hb H.
        apply bind_ok in H as (x & _ & H); apply bind_ok in H as (x' & _ & H); injection H as <-. now rewrite append_tag.
      + destruct items; [now intros [= <-]|discriminate].
  Qed.
End tag.
Lemma render_tag n O E : forall c x v ns efd y, render_obj n O E c x v ns efd = Ok y -> el_tag y = el_tag x.
Proof.
  induction n as [|n IH]; intros c x v ns efd y; cbn [render_obj]; [discriminate|]. intros H.
  apply bind_ok in H as (d & _ & H). apply bind_ok in H as (ns0 & _ & H).
  destruct v; try (now injection H as <-); apply bind_ok in H as (p & _ & H); apply bind_ok in H as (di & _ & H); revert H; cbv zeta;
  apply (foldM_inv (fun q => el_tag q = el_tag x)); try reflexivity; intros fld q q' _ Hq H; apply bind_ok in H as (fv & _ & H);
  apply (field_tag O E (render_obj n O E) IH) in H; congruence.
Qed.

Lemma document_root n O E tostring c f ns xe fs text : root_of E c f -> ncname_ok (f_name f) = true ->
  document_render n O E tostring ns (VObj c xe fs) = Ok text -> exists x, text = tostring x /\ el_tag x = f_name f.
Proof.
  intros R Hn. unfold document_render. cbn [obj_parts bind fst snd]. rewrite (root_field_of E c f R). cbn [bind]. intros H.
  destruct R as (d & before & after & D & F & K & B). rewrite K in H. apply bind_ok in H as (v & _ & H). apply bind_ok in H as (m & Hm & H).
  unfold render_element in Hm.
  assert (Q : qualify (eff_ns f ns) None (f_name f) = f_name f) by (unfold qualify; destruct (eff_ns f ns); reflexivity). rewrite Q in Hm.
  assert (M : m = mock \/ exists x x', mk_element (f_name f) = Ok x /\ el_tag x' = el_tag x /\ m = el_append mock x').
  { destruct v; try (left; now injection Hm as <-); right; apply bind_ok in Hm as (x & Hx & Hm); apply bind_ok in Hm as (x' & Hx' & Hm); injection Hm as <-; exists x, x'; (split; [exact Hx|]; split; [|reflexivity]);
    first [now apply set_tag in Hx' | now apply (type_tag O (render_obj n O E) (render_tag n O E)) in Hx']. }
  destruct M as [-> |(x & x' & Hx & Ht & ->)]; [discriminate|]. cbn in H. injection H as <-. exists x'. split; [reflexivity|]. rewrite Ht.
  unfold mk_element in Hx. rewrite (PfRender.norm_plain _ Hn) in Hx. cbn [bind] in Hx. now injection Hx as <-.
Qed.

Lemma document_read n O E fromstring c f ct text v : root_of E c f -> f_type f = TComplex ct ->
  document_parse n O E fromstring c text = Ok v <-> read_as n O E fromstring ct text v.
Proof.
  intros R T. unfold document_parse. rewrite (root_field_of E c f R). cbn [bind]. destruct R as (d & before & after & D & F & K & B). rewrite K, T. cbn [parse_type].
  unfold read_as. change (clark "http://www.w3.org/2001/XMLSchema-instance" "nil") with xsi_nil.
  destruct (fromstring text) as [x|e]; cbn [bind].
  - destruct (el_get x xsi_nil) as [t|] eqn:G; [destruct (String.eqb t "true") eqn:Q|].
    + apply String.eqb_eq in Q as ->. split.
      * intros [= <-]. exists x. split; [reflexivity|]. left. now split.
      * intros (y & [= <-] & [[_ ->]|[N _]]); [reflexivity|]. congruence.
    + apply String.eqb_neq in Q. split.
      * intros P. exists x. split; [reflexivity|]. right. rewrite G. split; [congruence|exact P].
      * intros (y & [= <-] & [[N _]|[_ P]]); [congruence|exact P].
    + split.
      * intros P. exists x. split; [reflexivity|]. right. rewrite G. split; [discriminate|exact P].
      * intros (y & [= <-] & [[N _]|[_ P]]); [congruence|exact P].
  - split; [discriminate|]. intros (y & [= ] & _).
Qed.

Lemma document_history n O E fromstring c f ct : root_of E c f -> f_type f = TComplex ct ->
  forall texts st st' rs, document_calls n O E fromstring c st texts = (st', rs) ->
  Forall (fun r => r = Ok VNone \/ exists e, r = Err e) rs /\
  ((st' = st /\ forall t v, In t texts -> ~ read_as n O E fromstring ct t v) \/
   exists before t after v, texts = before ++ t :: after /\ st' = Some v /\ read_as n O E fromstring ct t v /\
     forall t' v', In t' after -> ~ read_as n O E fromstring ct t' v').
Proof.
  intros R T. induction texts as [|t rest IH]; intros st st' rs; cbn [document_calls].
  - intros [= <- <-]. split; [constructor|]. left. split; [reflexivity|]. intros t v [].
  - destruct (document_call n O E fromstring c st t) as [st1 r] eqn:C. destruct (document_calls n O E fromstring c st1 rest) as [st2 rs2] eqn:D.
    intros [= <- <-]. destruct (IH st1 st2 rs2 D) as [F1 F2]. unfold document_call in C. destruct (document_parse n O E fromstring c t) as [v|e] eqn:Pv; injection C as <- <-.
    + split; [constructor; [now left|exact F1]|]. right. apply (document_read n O E fromstring c f ct t v R T) in Pv.
      destruct F2 as [[-> N]|(b & t' & a & v' & -> & -> & Rv & N)].
      * exists [], t, rest, v. repeat split; auto.
      * exists (t :: b), t', a, v'. repeat split; auto.
    + split; [constructor; [right; eauto|exact F1]|].
      destruct F2 as [[-> N]|(b & t' & a & v' & -> & -> & Rv & N)].
      * left. split; [reflexivity|]. intros t' v [<-|I] Q; [|now apply (N t' v)]. apply (document_read n O E fromstring c f ct t v R T) in Q. congruence.
      * right. exists (t :: b), t', a, v'. repeat split; auto.
Qed.

(** ** The classes of the program *)
Lemma set_class_nth name : forall l c b, nth_error (set_class name l c) b =
  if Nat.eqb b c then option_map (fun k => mkK (assoc_set name AOther (k_dict k)) (k_mro k) (k_meta k)) (nth_error l b) else nth_error l b.
Proof. induction l as [|k l IH]; intros [|c] [|b]; cbn; try reflexivity; [now destruct (Nat.eqb b c)|apply IH]. Qed.
Lemma set_class_length name : forall l c, length (set_class name l c) = length l.
Proof. induction l as [|k l IH]; intros [|c]; cbn; auto. Qed.
Lemma class_kept w c name c' : class_fields (class_setattr w c name) c' = class_fields w c' /\ lineage (class_setattr w c name) c' = lineage w c'.
Proof.
  unfold class_fields, meta_of, lineage, class_setattr. cbn [w_store w_classes]. rewrite set_class_nth.
  destruct (Nat.eqb c' c); [|now split]. destruct (nth_error (w_classes w) c'); now split.
Qed.
Lemma setattr_declares w c name b n v : declares (class_setattr w c name) b n v ->
  (b = c /\ n = name /\ v = AOther) \/ declares w b n v.
Proof.
  intros (k & K & A). unfold class_setattr in K. cbn [w_classes] in K. rewrite set_class_nth in K. destruct (Nat.eqb b c) eqn:Q.
  - apply Nat.eqb_eq in Q as ->. destruct (nth_error (w_classes w) c) as [k0|] eqn:N; [|discriminate]. cbn in K. injection K as <-. cbn [k_dict] in A.
    destruct (string_dec n name) as [-> |D].
    + rewrite assoc_set_same in A. injection A as <-. now left.
    + rewrite assoc_set_other in A by auto. right. exists k0. now split.
  - right. exists k. now split.
Qed.

Lemma get_two cs b c rest name v : assoc name (dict_of cs b) = None -> assoc name (dict_of cs c) = Some v ->
  mro_get cs (b :: c :: rest) name = Some v.
Proof. intros A B. cbn [mro_get]. now rewrite A, B. Qed.
Lemma new_dicts w w' k : w_classes w' = w_classes w ++ [k] -> dict_of (dicts w') (length (w_classes w)) = k_dict k /\
  forall b, b < length (w_classes w) -> dict_of (dicts w') b = dict_of (dicts w) b.
Proof.
  intros C. unfold dicts. rewrite C, map_app. cbn [map]. split.
  - unfold dict_of. rewrite app_nth2; rewrite map_length; [|lia]. now rewrite Nat.sub_diag.
  - intros b L. apply dict_of_app. now rewrite map_length.
Qed.
Lemma subclass_loses es w c name d dict rest w2 : exec_all empty_world es = Ok w -> declares w c name (ADesc d) ->
  exec (class_setattr w c name) (DefClass dict (c :: rest)) = Ok w2 -> assoc name dict = None ->
  Forall (fun f => f_name f <> name) (class_fields w2 (length (w_classes w))).
Proof.
  intros R D X A. assert (I := reachable_inv es w R).
  destruct (exec_def _ _ _ _ X) as (k & C & Kd & Km & La & Ld & Kt & St).
  assert (Lw : length (w_classes (class_setattr w c name)) = length (w_classes w)) by apply set_class_length.
  destruct (new_dicts _ _ _ C) as [N1 N2]. rewrite Lw in *.
  assert (Hc : c < length (w_classes w)) by (destruct D as (kc & Hk & _); apply nth_error_Some; congruence).
  assert (Dc : assoc name (dict_of (dicts (class_setattr w c name)) c) = Some AOther).
  { apply declares_dict. destruct D as (kc & Hk & _). eexists. unfold class_setattr. cbn [w_classes]. rewrite set_class_nth, Nat.eqb_refl, Hk. split; [reflexivity|].
    cbn [k_dict]. apply assoc_set_same. }
  assert (G : mro_get (dicts w2) (k_mro k) name = Some AOther).
  { rewrite Km. apply get_two; [now rewrite N1, Kd|]. now rewrite N2. }
  assert (Kn : nth_error (w_classes w2) (length (w_classes w)) = Some k) by (rewrite C, nth_error_app2, Lw, Nat.sub_diag by lia; reflexivity).
  rewrite (class_fields_of w2 _ k Kn). apply Forall_forall. intros f Hf. apply in_map_iff in Hf as (d' & <- & Hd).
  rewrite Kt in Hd. apply (Permutation_in _ (build_all_perm _ _ _)) in Hd.
  assert (Ld' : d' < length (w_store w)).
  { apply raw_in in Hd as (n' & _ & Gn). apply mro_get_spec in Gn as (b4 & b & aft & M & Ab & _).
    destruct (Nat.eq_dec b (length (w_classes w))) as [-> |Nb]; [rewrite N1, Kd in Ab; exact (Ld _ _ Ab)|].
    assert (Hb : b < length (w_classes w)).
    { rewrite Km in M. destruct b4 as [|x b4]; [injection M as <- _; congruence|]. injection M as _ M. rewrite Forall_forall in La. apply La. rewrite M. apply in_elt. }
    rewrite N2 in Ab by exact Hb. apply declares_dict, setattr_declares in Ab as [(_ & _ & [=])|Ab]. exact (i_dict w I _ _ _ Ab). }
  rewrite St. destruct (named_hit (dicts w2) (k_mro k) (dir (dicts w2) (k_mro k)) (w_store (class_setattr w c name)) d' Ld' Hd) as (n' & _ & Gn & ->).
  cbn [rename f_name]. intros ->. congruence.
Qed.
Lemma subclass_has w c name d dict rest w2 : declares w c name (ADesc d) ->
  exec w (DefClass dict (c :: rest)) = Ok w2 -> assoc name dict = None -> has_field w2 (length (w_classes w)) name d.
Proof.
  intros D X A. destruct (exec_def _ _ _ _ X) as (k & C & Kd & Km & La & Ld & Kt & St). destruct (new_dicts _ _ _ C) as [N1 N2].
  assert (Hc : c < length (w_classes w)) by (destruct D as (kc & Hk & _); apply nth_error_Some; congruence).
  apply has_field_get. rewrite (lineage_new _ _ _ C), Km. apply get_two; [now rewrite N1, Kd|]. rewrite N2 by exact Hc. now apply declares_dict.
Qed.
