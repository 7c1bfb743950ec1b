(** Classes regenerated from the XSD document generated from them: what the
    document states. *)
From Coq Require Import String Ascii List ZArith NArith Bool Lia.
From Verif Require Import PyBase PfBase Xml PyVal XsdSimple XsdComplex PyHttp Soap Client LibClasses Py2Xsd SpecXsd SpecParse SpecRound SpecNames PyLoad XsdPrefixes SpecGenCode SpecGenWsdl SpecUrl
  SpecService SpecLoadable SpecReclass PfNames PfXsd PfXsd2 PfRegen.
Import ListNotations.
Open Scope nat_scope.
Open Scope string_scope.
Open Scope list_scope.

(** ** Objects with the same data state the same *)
Lemma has_alike o o' k v : has o k v -> data o' = data o -> exists v', has o' k v' /\ data v' = data v.
Proof.
  intros (c & xe & fs & -> & A) D. cbn [data] in D. destruct o'; try discriminate D. cbn [data] in D. injection D as -> D.
  assert (X : forall l l', map (fun p : string * pyval => (fst p, data (snd p))) l' = map (fun p => (fst p, data (snd p))) l ->
    assoc k l = Some v -> exists v', assoc k l' = Some v' /\ data v' = data v).
  { induction l as [|[k0 x] l IH]; intros [|[k1 y] l'] E H; try discriminate E; [discriminate H|].
    cbn [map fst snd] in E. injection E as -> Ey E. cbn in H |- *. destruct (String.eqb k k0); [injection H as ->; eauto|exact (IH l' E H)]. }
  destruct (X _ _ D A) as (v' & V & Dv). exists v'. split; [eexists _, _, _; split; [reflexivity|exact V]|exact Dv].
Qed.
Ltac alike H D := let v := fresh "v" in let E := fresh "E" in let H' := fresh "H" in
  destruct (has_alike _ _ _ _ H D) as (v & H' & E); cbn [data] in E; destruct v; try discriminate E.
Lemma str_alike o o' k s : data o' = data o -> has o k (VStr s) -> has o' k (VStr s).
Proof. intros D H. alike H D. now injection E as ->. Qed.
Lemma int_alike o o' k z : data o' = data o -> has o k (VInt z) -> has o' k (VInt z).
Proof. intros D H. alike H D. now injection E as ->. Qed.
Lemma bool_alike o o' k b : data o' = data o -> has o k (VBool b) -> has o' k (VBool b).
Proof. intros D H. alike H D. now injection E as ->. Qed.
Lemma list_alike o o' k b l : data o' = data o -> has o k (VList b l) -> exists b' l', has o' k (VList b' l') /\ map data l' = map data l.
Proof. intros D H. alike H D. injection E as E. eauto. Qed.
Lemma lacks_alike o o' k : data o' = data o -> lacks o k -> lacks o' k.
Proof.
  intros D H v V. destruct (has_alike _ _ _ _ V (eq_sym D)) as (w & W & E). rewrite (H _ W) in E. cbn in E. destruct v; try discriminate E. reflexivity.
Qed.
Lemma is_a_alike o o' c : data o' = data o -> is_a o c -> is_a o' c.
Proof. intros D (xe & fs & ->). cbn [data] in D. destruct o'; try discriminate D. cbn [data] in D. injection D as -> _. eexists _, _. reflexivity. Qed.
Lemma forall2_alike {B} (R : pyval -> B -> Prop) l l' ps : (forall x y p, data y = data x -> R x p -> R y p) ->
  map data l' = map data l -> Forall2 R l ps -> Forall2 R l' ps.
Proof.
  intros H E F. revert l' E. induction F as [|x p l ps Hx F IH]; intros [|y l'] E; try discriminate E; constructor; cbn [map] in E; injection E as E1 E2; eauto.
Qed.

Lemma unbounded_alike o o' k : data o' = data o -> has o k UNBOUNDED -> has o' k UNBOUNDED.
Proof. intros D H. unfold UNBOUNDED in *. alike H D. now injection E as ->. Qed.
Lemma element_alike x y p : data y = data x -> states_element x p -> states_element y p.
Proof.
  intros D (H1 & H2 & H3 & H4 & H5 & H6 & H7 & H8 & H9 & H10). split; [now apply is_a_alike with x|]. split; [exact H2|]. split; [now apply str_alike with x|].
  split; [now apply str_alike with x|]. split; [exact H5|]. split; [now apply lacks_alike with x|]. split; [now apply lacks_alike with x|]. split; [|split].
  - unfold states_min in *. destruct (pt_min p); [now apply int_alike with x|now apply lacks_alike with x].
  - unfold states_max in *. destruct (pt_max p); [now apply lacks_alike with x|now apply int_alike with x|now apply unbounded_alike with x].
  - unfold states_nil in *. destruct (pt_nil p); [now apply bool_alike with x|]. destruct H10; [left; now apply lacks_alike with x|right; now apply bool_alike with x].
Qed.
Lemma attribute_alike x y p : data y = data x -> states_attribute x p -> states_attribute y p.
Proof.
  intros D (H1 & H2 & H3 & H4 & H5 & H6 & H7 & H8 & H9). split; [now apply is_a_alike with x|]. split; [exact H2|]. split; [now apply str_alike with x|].
  split; [now apply str_alike with x|]. split; [exact H5|]. split; [now apply lacks_alike with x|]. split; [exact H7|]. split; [exact H8|].
  destruct H9 as [[M U] | [M [U | [U | U]]]]; [left|right|right|right]; (split; [exact M|]).
  - now apply str_alike with x.
  - left. now apply lacks_alike with x.
  - right. left. now apply str_alike with x.
  - right. right. now apply str_alike with x.
Qed.
Lemma plan_alike x y c : data y = data x -> states_plan x c -> states_plan y c.
Proof.
  intros D (els & attrs & (H1 & (b & H2) & b' & H3) & Fe & Fa). destruct (list_alike _ _ _ _ _ D H2) as (b2 & attrs' & H2' & Da).
  destruct (list_alike _ _ _ _ _ D H3) as (b3 & l3 & H3' & D3). destruct l3; [|discriminate D3].
  unfold states_plan, states_content. destruct (co_ind c) as [i|].
  - destruct H1 as [(s & bs & S1 & S2 & S3) Lo]. destruct (has_alike _ _ _ _ S1 D) as (s' & S1' & Ds).
    destruct (list_alike _ _ _ _ _ Ds S3) as (bs' & els' & S3' & De). exists els', attrs'. split.
    + split; [split; [exists s', bs'; split; [exact S1'|split; [now apply is_a_alike with s|exact S3']]|intros j N; apply (lacks_alike x y _ D); auto]|].
      split; eauto.
    + split; [apply (forall2_alike states_element els els' _ element_alike De Fe)|apply (forall2_alike states_attribute attrs attrs' _ attribute_alike Da Fa)].
  - destruct H1 as [-> Lo]. exists [], attrs'. split.
    + split; [split; [reflexivity|intros j; apply (lacks_alike x y _ D); auto]|]. split; eauto.
    + split; [exact Fe|apply (forall2_alike states_attribute attrs attrs' _ attribute_alike Da Fa)].
Qed.
Lemma facet_alike x y n v : data y = data x -> states_facet x n v -> states_facet y n v.
Proof.
  intros D. destruct v as [s|]; [|apply lacks_alike, D]. intros (o & H1 & H2 & H3). destruct (has_alike _ _ _ _ H1 D) as (o' & H1' & Do).
  exists o'. split; [exact H1'|]. split; [now apply is_a_alike with o|now apply str_alike with o].
Qed.
Lemma simple_alike x y p : data y = data x -> states_simple x p -> states_simple y p.
Proof.
  intros D (H1 & H2 & r & b & es & H3 & H4 & H5 & H6 & H7 & H8). split; [now apply str_alike with x|]. split; [now apply lacks_alike with x|].
  destruct (has_alike _ _ _ _ H3 D) as (r' & H3' & Dr). destruct (list_alike _ _ _ _ _ Dr H6) as (b' & es' & H6' & De).
  exists r', b', es'. split; [exact H3'|]. split; [now apply is_a_alike with r|]. split; [now apply str_alike with r|]. split; [exact H6'|]. split.
  - apply (forall2_alike (fun e s => has e "value" (VStr s)) es es' (sp_enums p)); [intros a c s Dc; now apply str_alike|exact De|exact H7].
  - intros n I. apply (facet_alike r); auto.
Qed.
Lemma complex_alike x y p : data y = data x -> states_complex x p -> states_complex y p.
Proof.
  intros D [H1 H2]. split; [now apply str_alike with x|]. destruct (cp_base p) as [q|].
  - destruct H2 as (cc & ex & C1 & C2 & C3 & C4 & C5 & C6 & C7). destruct (has_alike _ _ _ _ C1 D) as (cc' & C1' & Dc).
    destruct (has_alike _ _ _ _ C4 Dc) as (ex' & C4' & Dx). exists cc', ex'. split; [exact C1'|]. split; [now apply is_a_alike with cc|].
    split; [now apply lacks_alike with cc|]. split; [exact C4'|]. split; [now apply is_a_alike with ex|]. split; [now apply str_alike with ex|].
    now apply plan_alike with ex.
  - destruct H2 as [C1 C2]. split; [now apply lacks_alike with x|now apply plan_alike with x].
Qed.
Lemma top_alike x y p : data y = data x -> states_top x p -> states_top y p.
Proof.
  intros D (H1 & H2 & H3 & Hs & H4). split; [now apply is_a_alike with x|]. split; [now apply str_alike with x|]. split; [now apply lacks_alike with x|].
  split. { destruct (tp_group p); [destruct Hs; split; [now apply str_alike with x|assumption]|now apply lacks_alike with x]. }
  destruct (tp_content p) as [q|c].
  - destruct H4 as (T1 & T2 & T3). split; [now apply str_alike with x|]. split; [exact T2|now apply lacks_alike with x].
  - destruct H4 as (T1 & ct & T2 & T3 & T4 & T5). split; [now apply lacks_alike with x|]. destruct (has_alike _ _ _ _ T2 D) as (ct' & T2' & Dc).
    exists ct'. split; [exact T2'|]. split; [now apply is_a_alike with ct|]. split; [now apply lacks_alike with ct|now apply plan_alike with ct].
Qed.
Lemma schema_alike x y p : data y = data x -> states_schema x p -> states_schema y p.
Proof.
  intros D (H1 & H2 & (b3 & l3 & H3 & F3) & (b4 & l4 & H4 & F4) & (b5 & l5 & H5 & F5) & (b6 & H6) & b7 & H7).
  split; [now apply str_alike with x|]. split; [now apply str_alike with x|].
  destruct (list_alike _ _ _ _ _ D H3) as (c3 & m3 & H3' & D3). destruct (list_alike _ _ _ _ _ D H4) as (c4 & m4 & H4' & D4).
  destruct (list_alike _ _ _ _ _ D H5) as (c5 & m5 & H5' & D5). destruct (list_alike _ _ _ _ _ D H6) as (c6 & m6 & H6' & D6).
  destruct (list_alike _ _ _ _ _ D H7) as (c7 & m7 & H7' & D7). destruct m6; [|discriminate D6]. destruct m7; [|discriminate D7].
  split; [exists c3, m3; split; [exact H3'|exact (forall2_alike _ l3 m3 _ simple_alike D3 F3)]|].
  split; [exists c4, m4; split; [exact H4'|exact (forall2_alike _ l4 m4 _ complex_alike D4 F4)]|].
  split; [exists c5, m5; split; [exact H5'|exact (forall2_alike _ l5 m5 _ top_alike D5 F5)]|]. split; eauto.
Qed.

(** ** The object built for a schema *)
Definition simple_obj (st : stclass) : pyval := o_st (Some (type_name (sc_name st))) (class_restr st).
Definition complex_obj (O : oracle) (E : env) (G : decls) (c : string) : pyval := ct_of O G true c (class_of E c).
Definition top_obj (O : oracle) (E : env) (G : decls) (p : string * gelement) : pyval :=
  o_el (VStr (fst p)) (vs (when (ge_class (snd p)) (type_ref (ge_type (snd p))))) VNone VNone VNone (vs (option_map toplevel_ref (ge_subst (snd p)))) VNone
    (if ge_class (snd p) then VNone else match ge_type (snd p) with TComplex c => ct_of O G false c (class_of E c) | TSimple _ => VNone end).
Lemma fill_exact {A} (step : pyval -> A -> res pyval) (mk : list pyval -> pyval) (f : A -> pyval) (P : A -> Prop) :
  (forall acc a, P a -> step (mk acc) a = Ok (mk (acc ++ [f a]))) -> forall l acc, Forall P l -> foldM step (mk acc) l = Ok (mk (acc ++ map f l)).
Proof.
  intros S l. induction l as [|a l IH]; intros acc H; cbn [foldM map]; [now rewrite app_nil_r|].
  apply Forall_cons_iff in H as [Ha Hl]. rewrite (S acc a Ha). cbn [bind]. rewrite IH by exact Hl. now rewrite <- app_assoc.
Qed.
Lemma class_of_ok E c d : e_cls E c = Some d -> class_of E c = d.
Proof. unfold class_of. now intros ->. Qed.
Lemma ct_obj O G named c d : exists fs, ct_of O G named c d = VObj (xs "XSDComplexType") None fs.
Proof. unfold ct_of, ct_with, o_ct. destruct (cd_ind d); eexists; reflexivity. Qed.
Lemma top_exact O lim E G p : toplevel_describable O E G p -> generate_element O (lib_env lim) E G (fst p) (snd p) = Ok (top_obj O E G p).
Proof.
  destruct p as [name el]. unfold toplevel_describable, top_obj. cbn [fst snd]. intros (Hn & Hs & Ht). unfold generate_element. rewrite new_el. cbn [bind].
  rewrite el_set_name. cbn [bind].
  match goal with |- (e <- ?M ;; _) = _ =>
    assert (X : M = Ok (o_el (VStr name) VNone VNone VNone VNone (vs (option_map toplevel_ref (ge_subst el))) VNone VNone)) end.
  { destruct (ge_subst el); [|reflexivity]. apply el_set_subst. }
  rewrite X. clear X. cbn [bind]. destruct (ge_class el).
  - destruct (get_type_ok _ Ht) as [-> Tt]. cbn [bind]. now rewrite el_set_type.
  - destruct Ht as (c & -> & Hc). pose proof Hc as (d & Hd & _). rewrite (complex_ok O lim E G c d false Hd Hc). cbn [bind].
    rewrite (class_of_ok _ _ _ Hd). destruct (ct_obj O G false c d) as (fs & ->). now rewrite el_set_ct.
Qed.
Lemma schema_exact O lim E G s : schema_describable O E G s -> gs_imports s = [] -> gs_includes s = [] ->
  generate_xsdspec O (lib_env lim) E G s =
  Ok (o_schema (gs_tns s) (gs_efd s) [] [] (map simple_obj (gs_simple s)) (map (complex_obj O E G) (gs_complex s)) (map (top_obj O E G) (gs_elements s))).
Proof.
  intros (Ht & He & _ & _ & Hs & Hc & Hl) Ei En. set (L := lib_env lim). set (t := gs_tns s). set (e := gs_efd s).
  unfold generate_xsdspec. pose proof (schema_new O lim t e He) as N. fold L in N. unfold bind in N at 1.
  destruct (construct O L (xs "Schema") []) as [x|]; [|discriminate]. cbn [bind] in *.
  fold t e. unfold bind in N at 1. destruct (py_set O L x "targetNamespace" (VStr t)); [|discriminate]. cbn [bind] in *. rewrite N.
  cbn [bind]. clear N. rewrite Ei, En. cbn [build_imports build_includes foldM bind]. unfold build_includes. cbn [foldM bind].
  rewrite (fill_exact (fun x st => o <- xsd_simpleType O L st ;; py_append O L x "simpleTypes" o) (fun a => o_schema t e [] [] a [] []) simple_obj simple_describable) with (acc := @nil pyval) (2 := Hs).
  2:{ intros acc st P. subst L. rewrite (simple_ok O lim st P). cbn [bind]. apply app_simple. }
  cbn [bind app].
  rewrite (fill_exact (fun x c => o <- xsd_complexType O L E G c true ;; py_append O L x "complexTypes" o) (fun a => o_schema t e [] [] (map simple_obj (gs_simple s)) a [])
    (complex_obj O E G) (class_describable O E G)) with (acc := @nil pyval) (2 := Hc).
  2:{ intros acc c P. pose proof P as (d & Hd & _). subst L. rewrite (complex_ok O lim E G c d true Hd P). cbn [bind]. unfold complex_obj. rewrite (class_of_ok _ _ _ Hd).
    destruct (ct_obj O G true c d) as (fs & ->). apply app_complex. }
  cbn [bind app].
  rewrite (fill_exact (fun x p => o <- generate_element O L E G (fst p) (snd p) ;; py_append O L x "elements" o)
    (fun a => o_schema t e [] [] (map simple_obj (gs_simple s)) (map (complex_obj O E G) (gs_complex s)) a) (top_obj O E G) (toplevel_describable O E G)) with (acc := @nil pyval) (2 := Hl).
  2:{ intros acc p P. subst L. rewrite (top_exact O lim E G p P). cbn [bind]. apply app_element. }
  reflexivity.
Qed.

(** ** What it states *)
Definition particle_of (f : field) : particle :=
  mkPt false (tag_or_name f) (type_ref (f_type f)) (f_min f) (match f_kind f with KList => f_max f | _ => ONone end) (f_nillable f).
Definition content_of (d : classdef) : content_plan := mkCp (Some (cd_ind d)) [] (map particle_of (cd_fields d)).
Definition pattern_facet (st : stclass) : list (string * string) :=
  match (match st_text (sc_fraction st) with Some _ => None | None => st_text (sc_pattern st) end) with Some p => [("pattern", p)] | None => [] end.
Definition simple_of (st : stclass) : simple_plan :=
  mkSp (type_name (sc_name st)) (type_ref (TSimple (sc_base st))) (strings (sc_enum st)) (pattern_facet st).
Definition top_of (E : env) (p : string * gelement) : top_plan :=
  mkTp (fst p) (if ge_class (snd p) then TopNamed (type_ref (ge_type (snd p)))
                else match ge_type (snd p) with TComplex c => TopOwn (content_of (class_of E c)) | TSimple _ => TopNamed "" end)
    (option_map written_group (ge_subst (snd p))).
Definition plan_of (E : env) (s : gschema) : schema_plan :=
  mkPlan (gs_tns s) (gs_efd s) (map simple_of (gs_simple s)) (map (fun c => mkXp (type_name c) None (content_of (class_of E c))) (gs_complex s))
    (map (top_of E) (gs_elements s)).

Lemma lacks_ob o k : match o with VObj _ _ fs => match assoc k fs with Some v => v = VNone | None => True end | _ => True end -> lacks o k.
Proof. intros H v (c & xe & fs & -> & A). now rewrite A in H. Qed.
Lemma is_a_ob cls xe fs : is_a (VObj (xs cls) xe fs) cls.
Proof. now exists xe, fs. Qed.
Ltac ho := first [apply has_ob; reflexivity | apply lacks_ob; exact eq_refl | apply lacks_ob; exact I | apply is_a_ob].

Lemma ref_filled t : type_ref t <> "".
Proof.
  destruct t as [u|c]; cbn [type_ref]; [|discriminate]. destruct u; try discriminate; destruct (builtin _); try discriminate; destruct (unlisted _); discriminate.
Qed.
Lemma element_states O G s rank c n f : field_reproducible G s rank c n f -> states_element (elem_of O G c f) (particle_of f).
Proof.
  intros (Hd & _ & _ & _ & K). unfold elem_of, particle_of. rewrite Hd. split; [ho|]. split; [reflexivity|]. split; [ho|]. split; [ho|]. split; [apply ref_filled|].
  split; [ho|]. split; [ho|]. cbn [pt_min pt_max pt_nil]. split; [|split].
  - unfold states_min. destruct (f_min f); ho.
  - unfold states_max. destruct (f_kind f); try ho. destruct (f_max f); ho.
  - unfold states_nil. destruct (f_nillable f); [ho|right; ho].
Qed.
Lemma reproducible_plain G s rank c n l : Forall (field_reproducible G s rank c n) l -> filter is_plain l = l.
Proof.
  induction 1 as [|f l H _ IH]; [reflexivity|]. cbn [filter].
  assert (is_plain f = true) as -> by (destruct H as (_ & _ & _ & _ & [[K _] | [K _]]); unfold is_plain, is_attr, is_group; rewrite K; reflexivity). now rewrite IH.
Qed.
Lemma content_states O E G s limit rank named c n : class_reproducible E G s limit rank c n ->
  states_plan (ct_of O G named c (class_of E c)) (content_of (class_of E c)).
Proof.
  intros (d & Hd & _ & Hf & _). rewrite (class_of_ok _ _ _ Hd). unfold ct_of. rewrite (reproducible_plain _ _ _ _ _ _ Hf).
  exists (map (elem_of O G c) (cd_fields d)), []. split.
  - unfold states_content, content_of, ct_with. cbn [co_ind]. destruct (cd_ind d); (split; [split; [eexists _, true; split; [ho|split; [ho|ho]]|intros [] N; try congruence; ho]|split; exists true; ho]).
  - cbn [content_of co_elems co_attrs]. split; [|constructor]. apply Forall2_map_same. eapply Forall_impl; [|exact Hf]. intros f. apply element_states.
Qed.
Lemma complexes_state O E G s limit rank c : class_reproducible E G s limit rank c c ->
  states_complex (complex_obj O E G c) (mkXp (type_name c) None (content_of (class_of E c))).
Proof.
  intros H. unfold complex_obj. split; [|split; [|now apply content_states with (1 := H)]]; unfold ct_of, ct_with; destruct (cd_ind (class_of E c)); ho.
Qed.
Lemma simples_state st : states_simple (simple_obj st) (simple_of st).
Proof.
  split; [ho|]. split; [ho|]. eexists _, true, _. split; [ho|]. split; [unfold class_restr; ho|]. split; [ho|]. split; [ho|]. split.
  - cbn [simple_of sp_enums]. induction (strings (sc_enum st)) as [|x l IH]; [constructor|]. cbn [map]. constructor; [ho|exact IH].
  - cbn [simple_of sp_facets]. unfold pattern_facet, class_restr. intros n I.
    destruct (match st_text (sc_fraction st) with Some _ => None | None => st_text (sc_pattern st) end) as [p|]; cbn in I;
      repeat (destruct I as [<- | I]; [first [ho | eexists; split; [ho|split; ho]]|]); destruct I.
Qed.
Lemma tops_state O E G s limit rank p : toplevel_describable O E G p ->
  (ge_class (snd p) = false -> forall c, ge_type (snd p) = TComplex c -> class_reproducible E G s limit rank c (capital (fst p))) ->
  states_top (top_obj O E G p) (top_of E p).
Proof.
  intros (_ & _ & Ht) H. unfold top_obj, top_of, states_top. cbn [tp_name tp_content tp_group]. split; [ho|]. split; [ho|]. split; [ho|].
  split. { destruct (ge_subst (snd p)) as [v|]; cbn [option_map]; [|ho]. split; [ho|]. unfold written_group. destruct (String.prefix "sns:" v) eqn:Ep; [|discriminate]. intros ->. discriminate Ep. }
  destruct (ge_class (snd p)).
  - split; [ho|]. split; [apply ref_filled|ho].
  - destruct Ht as (c & Et & _). rewrite Et in *. split; [ho|]. exists (ct_of O G false c (class_of E c)). split; [ho|].
    destruct (ct_obj O G false c (class_of E c)) as (fs & Ec). split; [rewrite Ec; ho|].
    split; [unfold ct_of, ct_with; destruct (cd_ind (class_of E c)); ho|]. now apply content_states with (1 := H eq_refl c eq_refl).
Qed.
Lemma schema_states O E G limit rank s : schema_describable O E G s -> schema_reproducible E G limit rank s ->
  states_schema (o_schema (gs_tns s) (gs_efd s) [] [] (map simple_obj (gs_simple s)) (map (complex_obj O E G) (gs_complex s)) (map (top_obj O E G) (gs_elements s)))
    (plan_of E s).
Proof.
  intros (_ & _ & _ & _ & _ & _ & Hl) (_ & _ & _ & _ & _ & _ & _ & _ & Rc & Rt). split; [ho|]. split; [ho|]. split; [|split; [|split]].
  - eexists true, _. split; [ho|]. apply Forall2_map_same, Forall_forall. intros st _. apply simples_state.
  - eexists true, _. split; [ho|]. apply Forall2_map_same. eapply Forall_impl; [|exact Rc]. intros c. apply complexes_state.
  - eexists true, _. split; [ho|]. apply Forall2_map_same, Forall_forall. intros p I. rewrite Forall_forall in Hl, Rt. specialize (Rt p I).
    apply tops_state with s limit rank; [now apply Hl|]. intros F. rewrite F in Rt. apply Rt.
  - split; exists true; ho.
Qed.
