(** Modules from several documents: following includes and imports. *)
From Coq Require Import String Ascii List ZArith NArith Bool Lia Permutation.
From Verif Require Import PyBase PyPath PyVal XsdSimple XsdComplex XsdMeta LibClasses Py2Xsd GenOrder SpecOrder GenImports Xsd2Py PyLoad PyUrl XsdFiles SpecGenCode SpecPath SpecImports
  SpecUrl SpecService SpecLoadable SpecFiles PfBase PfMeta PfMeta2 PfLoad PfLoad2 PfGenCode PfGenCode2 PfGenCode3 PfGenCode4 PfGenCode5 PfLoadable PfLoadable2 PfLoadable3 PfLoadable4
  PfFiles PfFiles2 PfFiles3.
From Verif Require PfService2.
Import ListNotations.
Open Scope nat_scope.
Open Scope string_scope.
Open Scope list_scope.

Section Traversal.
  Variables (g : string) (u : string -> string -> string) (md5 : string -> string) (checked : string -> bool) (open : string -> res file) (sort : sorter).
  Variables (n_docs n_sort : nat) (rt : runtime) (limit : nat) (O : oracle) (rank : string -> nat) (files : list (string * document)) (root : document) (base : list string).
  Hypothesis PB : Forall proper base.
  Hypothesis Hx : forall v, hex5 (md5 v).
  Hypothesis LS : list_sort sort.
  Hypothesis F : fitting n_docs n_sort limit rank files root.
  Hypothesis DH : directory_holds open base files.

  Definition var_of (t : string) : string := ("Schema_" ++ md5 t)%string.
  Definition entries_all : list entry := (None, root) :: map (fun p => (Some (fst p), snd p)) files.

  Record inv (st : progress) (E : list entry) (pre : list schema_plan) (fm : fmodule) : Prop := {
    iv_from : incl E entries_all;
    iv_once : NoDup (map fst E);
    iv_pre : Forall2 (fun e s => arranged_as (do_plan (snd e)) s) E pre;
    iv_types : forall n, In n (pg_types st) <-> In n (flat_map simple_names pre ++ flat_map complex_names pre);
    iv_run : import_files rt limit O (pg_code st) = Ok fm;
    iv_built : built (joined pre nothing) rank (fm_state fm) (map fst (ms_names (fm_state fm)));
    iv_names : Permutation (map fst (ms_names (fm_state fm))) (flat_map simple_names pre ++ flat_map complex_names pre ++ flat_map own_names pre);
    iv_ext : ext start (fm_state fm);
    iv_rank : forall n, In n (flat_map complex_names pre ++ flat_map own_names pre) -> rank n < limit;
    iv_calls : forall n, In n (flat_map complex_names pre ++ flat_map own_names pre) -> exists fs, new_instance O (module_env limit (fm_state fm)) n = Ok fs;
    iv_facts : forall e p, In e E -> In p (sc_complexes (do_plan (snd e))) -> cp_base p = None ->
      class_fact (fm_state fm) (do_prefixes (snd e)) (sc_tns (do_plan (snd e))) (sc_efd (do_plan (snd e))) p;
    iv_vars : forall e, In e E -> (exists i, assoc (var_of (sc_tns (do_plan (snd e)))) (fm_vars fm) = Some i) /\
      forall f, fst e = Some f -> exists i, assoc (var_of f) (fm_vars fm) = Some i;
    iv_keys : forall v, In v (map fst (fm_vars fm)) -> exists t, v = ("Schema_" ++ t)%string;
    iv_closed : forall e f, In e E -> In f (followed (snd e)) -> exists d, In (Some f, d) E;
    iv_linked : no_collision md5 files root -> Forall2 (fun e o => linked fm (fst e) (snd e) o) E (fm_schemas fm) /\
      (forall ns i, In ns (namespaces files root) -> assoc (var_of ns) (fm_vars fm) = Some i -> schema_numbered fm i (of_namespace ns)) /\
      (forall f i, In f (map fst files) -> assoc (var_of f) (fm_vars fm) = Some i -> schema_numbered fm i (of_file (Some f))) }.

  Lemma entry_document e : In e entries_all -> In (snd e) (root :: map snd files).
  Proof. intros [<- | I]; [now left|]. right. apply in_map_iff in I as ([f d] & <- & I). cbn. apply (in_map snd _ _ I). Qed.
  Lemma entry_file f d : In (Some f, d) entries_all -> In (f, d) files.
  Proof. intros [E | I]; [discriminate|]. apply in_map_iff in I as ([f' d'] & E & I). cbn in E. injection E as -> ->. exact I. Qed.
  Lemma file_once f d d' : In (f, d) files -> In (f, d') files -> d = d'.
  Proof.
    intros I J. pose proof (ft_once _ _ _ _ _ _ F) as N. apply (assoc_in_nodup f d files N) in I. apply (assoc_in_nodup f d' files N) in J. congruence.
  Qed.
  Lemma entries_once : NoDup (map fst entries_all).
  Proof.
    cbn [entries_all map fst]. constructor.
    - rewrite map_map. cbn. intros I. apply in_map_iff in I as (p & E & _). discriminate.
    - rewrite map_map. cbn. pose proof (ft_once _ _ _ _ _ _ F) as N. rewrite <- (map_map fst Some). apply FinFun.Injective_map_NoDup; [|exact N]. intros a b [= ->]. reflexivity.
  Qed.
  Lemma entry_classes : NoDup (flat_map entry_names entries_all).
  Proof.
    pose proof (ft_classes _ _ _ _ _ _ F) as N. cbn [entries_all flat_map entry_names snd] in *. 
    replace (flat_map entry_names (map (fun p => (Some (fst p), snd p)) files)) with (flat_map document_names (map snd files)); [exact N|].
    clear. induction files as [|p l IH]; [reflexivity|]. cbn. now rewrite IH.
  Qed.
  Lemma entry_free e c t : In e entries_all -> In c (entry_names e) -> c <> ("Schema_" ++ t)%string.
  Proof. intros I J. apply (ft_free _ _ _ _ _ _ F). apply in_flat_map. exists (snd e). split; [now apply entry_document|exact J]. Qed.

  (** Everything that is reached has been written. *)
  Lemma reached_written E d d' : incl E entries_all -> (forall e f, In e E -> In f (followed (snd e)) -> exists d, In (Some f, d) E) ->
    (forall f, In f (followed d) -> exists d, In (Some f, d) E) -> reaches files d d' -> exists loc, In (loc, d') E.
  Proof.
    intros I C H R. revert H. induction R as [d f d' Hf Hd|d f d1 d2 Hf Hd R IH]; intros H.
    - destruct (H f Hf) as (d1 & J). exists (Some f). replace d' with d1; [exact J|]. apply (file_once f); [now apply entry_file, I|exact Hd].
    - apply IH. intros f' Hf'. destruct (H f Hf) as (d3 & J). apply (C (Some f, d3)); [exact J|]. cbn [snd]. replace d3 with d1; [exact Hf'|].
      symmetry. apply (file_once f); [now apply entry_file, I|exact Hd].
  Qed.

  Lemma forall2_in {A B} (R : A -> B -> Prop) l l' a : Forall2 R l l' -> In a l -> exists b, In b l' /\ R a b.
  Proof. intros H I. exact (forall2_left _ _ _ H a I). Qed.

  Lemma refs_of (l : list pyval) (ts : list string) (k : pyval -> pyval) : Forall2 (fun i t => k i = VStr t) l ts -> mapM (fun i => schema_ref md5 (k i)) l = Ok (map var_of ts).
  Proof. induction 1 as [|i t l ts E Fl IH]; [reflexivity|]. cbn [mapM map]. rewrite E, IH. reflexivity. Qed.
  Lemma some_refs ts : mapM (fun l => schema_ref md5 (opt_str l)) (map Some ts) = Ok (map var_of ts).
  Proof. induction ts as [|t ts IH]; [reflexivity|]. cbn [map mapM opt_str schema_ref bind]. rewrite IH. reflexivity. Qed.
  Lemma var_ident t : identifier (var_of t) = true.
  Proof. apply PfService2.hex_ident, Hx. Qed.
  Lemma objects_of fm ts : (forall t, In t ts -> exists i, assoc (var_of t) (fm_vars fm) = Some i) ->
    exists is, mapM (schema_object fm) (map var_of ts) = Ok is /\ Forall2 (fun t i => assoc (var_of t) (fm_vars fm) = Some i) ts is.
  Proof.
    induction ts as [|t ts IH]; intros H; [exists []; split; [reflexivity|constructor]|]. destruct (H t (or_introl eq_refl)) as (i & Hi).
    destruct IH as (is & E & Fl); [intros t' I; apply H; now right|]. exists (i :: is). cbn [map mapM]. unfold schema_object at 1. rewrite var_ident, Hi. cbn [bind]. rewrite E.
    split; [reflexivity|]. now constructor.
  Qed.
  Lemma located l ts : Forall2 (fun i loc => has i "schemaLocation" (VStr loc)) l ts -> mapM location_of l = Ok (map Some ts).
  Proof.
    induction 1 as [|i t l ts H Fl IH]; [reflexivity|]. cbn [mapM map]. unfold location_of at 1. rewrite (has_jget _ _ _ H). cbn [bind]. rewrite IH. reflexivity.
  Qed.

  Lemma emit st E pre fm loc d f imports paths : inv st E pre fm -> In (loc, d) entries_all -> ~ In loc (map fst E) ->
    (forall f, In f (followed d) -> exists d', In (Some f, d') E) -> states_file f d ->
    Forall2 (fun i p => has i "namespace" (VStr (fst p)) /\ has i "schemaLocation" (VStr (snd p))) imports (do_imports d) ->
    exists x p c pre' fm', sorted_schema sort n_sort (fi_schema f) = Ok x /\ schema_classes (fi_prefixes f) (pg_types st) x = Ok p /\
      file_statement md5 checked (fi_prefixes f) x (map Some (do_includes d)) imports loc p = Ok c /\
      inv (mkProg paths (snd p) (pg_code st ++ [c])) (E ++ [(loc, d)]) pre' fm'.
  Proof.
    intros V Ie New Follow (Ef & Ss & _ & _) Im.
    destruct (ft_works _ _ _ _ _ _ F d (entry_document _ Ie)) as (others & Ho & Wd).
    (* the types of other documents *)
    assert (Od : forall s, In s others -> exists s', In s' pre /\ arranged_as s s').
    { intros s I. destruct (Ho s I) as (d' & R & <-). destruct (reached_written E d d' (iv_from _ _ _ _ V) (iv_closed _ _ _ _ V) Follow R) as (loc' & J).
      destruct (forall2_in _ _ _ _ (iv_pre _ _ _ _ V) J) as (s' & Js & A). exists s'. auto. }
    assert (Is : incl (flat_map simple_names others) (flat_map simple_names pre)).
    { intros n I. apply in_flat_map in I as (s & I & J). destruct (Od s I) as (s' & Js & A). apply in_flat_map. exists s'. split; [exact Js|]. now rewrite (arranged_simple _ _ A). }
    assert (Ic : incl (flat_map complex_names others) (flat_map complex_names pre)).
    { intros n I. apply in_flat_map in I as (s & I & J). destruct (Od s I) as (s' & Js & A). apply in_flat_map. exists s'. split; [exact Js|].
      apply (Permutation_in _ (Permutation_sym (arranged_complex _ _ A)) J). }
    (* the names of the classes *)
    assert (IE : incl (E ++ [(loc, d)]) entries_all).
    { intros e I. apply in_app_or in I as [I | [<- | []]]; [now apply (iv_from _ _ _ _ V)|exact Ie]. }
    assert (NE : NoDup (map fst (E ++ [(loc, d)]))).
    { rewrite map_app. cbn [map fst]. apply NoDup_app_comm_cons; [exact (iv_once _ _ _ _ V)|exact New]. }
    assert (NC : NoDup (flat_map entry_names (E ++ [(loc, d)]))).
    { apply nodup_sub with entries_all; [now apply nodup_pairs|exact IE|exact entry_classes]. }
    assert (NJ : forall s', arranged_as (do_plan d) s' -> NoDup (plan_names (joined pre s'))).
    { intros s' A. eapply Permutation_NoDup; [|exact NC]. rewrite flat_map_app. cbn [flat_map]. rewrite app_nil_r. symmetry. unfold plan_names. rewrite joined_simple, joined_complex, joined_own, perm_three.
      apply Permutation_app; [|exact (arranged_names _ _ A)]. rewrite names_grouped. exact (names_arranged _ _ (iv_pre _ _ _ _ V)). }
    assert (A0 : arranged_as (do_plan d) (do_plan d)) by (exists (sc_complexes (do_plan d)); split; [reflexivity|now destruct (do_plan d)]).
    destruct (in_order_from sort n_sort (do_prefixes d) limit others pre (do_plan d) rank (fi_schema f) LS Wd Ss Is Ic (NJ _ A0) (iv_rank _ _ _ _ V)) as (x & cs & Sx & Pc & Sx' & W').
    cbn zeta in Sx', W'. set (s' := mkPlan (sc_tns (do_plan d)) (sc_efd (do_plan d)) (sc_simples (do_plan d)) cs (sc_tops (do_plan d))) in *.
    assert (A' : arranged_as (do_plan d) s') by (exists cs; split; [exact Pc|reflexivity]).
    destruct (importable_from rt (do_prefixes d) limit pre s' rank O (pg_types st) (map fst (ms_names (fm_state fm))) W' (iv_types _ _ _ _ V) (iv_names _ _ _ _ V) x Sx')
      as (gs & z & Cc & Cs & (Zt & Ze & Za & Zg & Zc & Zt') & Ld).
    destruct (Ld (fm_state fm) (built_next _ _ _ _ _ (iv_names _ _ _ _ V) (NJ _ A') (iv_built _ _ _ _ V))) as (m & Lm & Bm).
    set (kt := known s' (pg_types st)) in *. set (al := all_names s' (map fst (ms_names (fm_state fm)))) in *.
    assert (Dw : plain_text (sc_tns (do_plan d)) /\ plain_text (sc_efd (do_plan d))) by (destruct Wd as (_ & _ & P1 & P2 & _); now split). destruct Dw as [Pt Pe].
    (* the statement *)
    set (loc' := match loc with None => None | Some f => Some (served_at f) end).
    set (al_ := match loc with None => None | Some f => Some (var_of f) end).
    assert (Lf : forall f, loc = Some f -> file_name f /\ In f (map fst files)).
    { intros f0 ->. pose proof (entry_file _ _ Ie) as J. apply (in_map fst) in J. cbn in J. split; [|exact J]. pose proof (ft_names _ _ _ _ _ _ F) as Q. rewrite Forall_forall in Q. now apply Q. }
    set (c := mkFc (var_of (sc_tns (do_plan d))) al_ (map var_of (map fst (do_imports d))) (map var_of (do_includes d)) loc' (gs, z)).
    assert (Fs : file_statement md5 checked (do_prefixes d) x (map Some (do_includes d)) imports loc (gs, kt) = Ok c).
    { unfold file_statement. destruct Sx' as (Ht & _). rewrite (has_jget _ _ _ Ht). cbn [schema_ref bind].
      rewrite (refs_of imports (map fst (do_imports d)) (fun i => jget i "namespace")), some_refs.
      2:{ clear - Im. induction Im as [|i p l ps [H _] Fl IH]; constructor; [exact (has_jget _ _ _ H)|exact IH]. }
      cbn [bind]. unfold c, loc', al_. destruct loc as [f0|]; [|cbn [given bind snd fst]; rewrite Cs; reflexivity].
      destruct (Lf f0 eq_refl) as [Ff _]. rewrite (file_given f0 Ff), (file_template checked f0 Ff). cbn [bind snd fst]. rewrite Cs. reflexivity. }
    (* running it *)
    assert (Gn : exists ms, foldM (exec_class rt) (fm_state fm) gs = Ok ms /\ exec_schema rt limit O ms z = Ok m).
    { unfold load_from in Lm. cbn [fst snd] in Lm. apply bind_ok in Lm as (ms & L1 & L2). eauto. }
    destruct Gn as (ms & Fm & Xm).
    pose proof (bt_good _ _ _ _ (iv_built _ _ _ _ V)) as G0.
    destruct (load_from_spec _ _ _ _ _ _ G0 Lm) as (ms' & Fm' & G & Gm & Ex & Ww & Wn & Wc & _ & _). cbn [fst] in Fm'. rewrite Fm in Fm'. injection Fm' as <-.
    destruct (exec_classes_step _ _ _ _ G0 Fm) as [_ E1]. assert (E2 : ext (fm_state fm) (md_state m)) by (eapply ext_trans; eauto).
    destruct (exec_classes_names _ _ _ _ Fm) as [Nm _].
    assert (Own : map gc_name gs = plan_names s').
    { pose proof (bt_names _ _ _ _ Bm) as B. rewrite Wn, Nm in B. unfold al, all_names in B. now apply app_inv_head in B. }
    assert (Mn : map fst (ms_names (md_state m)) = map fst (ms_names (fm_state fm)) ++ plan_names s') by (now rewrite Wn, Nm, Own).
    assert (Free : forall n t, In n (map fst (ms_names (md_state m))) -> n <> ("Schema_" ++ t)%string).
    { intros n t I. rewrite Mn in I. apply in_app_or in I as [I | I].
      - apply (Permutation_in _ (iv_names _ _ _ _ V)) in I. apply (Permutation_in _ (names_grouped pre)), (Permutation_in _ (names_arranged _ _ (iv_pre _ _ _ _ V))) in I.
        apply in_flat_map in I as (e & J & I). apply (entry_free e); [now apply (iv_from _ _ _ _ V)|exact I].
      - apply (entry_free (loc, d) _ _ Ie). apply (Permutation_in _ (arranged_names _ _ A')), I. }
    assert (Nv : forall t, ~ In (var_of t) (map fst (ms_names (md_state m)))) by (intros t I; now apply (Free _ (md5 t)) in I).
    assert (Nc : existsb (fun g => str_in (gc_name g) (map fst (fm_vars fm))) gs = false).
    { apply not_true_iff_false. intros Xe. apply existsb_exists in Xe as (g0 & Ig & Xe). apply str_in_spec in Xe. apply (iv_keys _ _ _ _ V) in Xe as (t & Et).
      apply (Free (gc_name g0) t); [|exact Et]. rewrite Mn, <- Own. apply in_or_app. right. apply in_map, Ig. }
    destruct (objects_of fm (map fst (do_imports d))) as (imps & Ei & Fi).
    { intros ns I. apply in_map_iff in I as ([ns' f'] & <- & I). destruct (Follow f') as (d' & J); [apply in_or_app; right; apply (in_map snd _ _ I)|].
      destruct (iv_vars _ _ _ _ V _ J) as [Hv _]. cbn [snd fst] in *. rewrite (ft_namespace _ _ _ _ _ _ F d ns' f' d' (entry_document _ Ie) I (entry_file _ _ (iv_from _ _ _ _ V _ J))) in Hv. exact Hv. }
    destruct (objects_of fm (do_includes d)) as (incs & Ej & Fj).
    { intros f' I. destruct (Follow f') as (d' & J); [apply in_or_app; now left|]. destruct (iv_vars _ _ _ _ V _ J) as [_ Hv]. now apply Hv. }
    set (i := length (fm_schemas fm)).
    set (o := mkSo m imps incs loc').
    set (v1 := assoc_set (var_of (sc_tns (do_plan d))) i (fm_vars fm)).
    set (v2 := match loc with None => v1 | Some f => assoc_set (var_of f) i v1 end).
    set (fm' := mkFm (md_state m) (fm_schemas fm ++ [o]) v2).
    assert (Xf : exec_file rt limit O fm c = Ok fm').
    { unfold exec_file, c. cbn [fc_code fc_imports fc_includes fc_location fc_var fc_alias fst snd]. rewrite Nc, Fm. cbn [bind]. rewrite Ei, Ej. cbn [bind].
      assert (Ll : match loc' with None => Ok None | Some t => res_map Some (literal rt false t) end = Ok loc').
      { unfold loc'. destruct loc as [f0|]; [|reflexivity]. rewrite (served_literal rt f0 (proj1 (Lf f0 eq_refl))). reflexivity. }
      rewrite Ll. cbn [bind]. rewrite Xm. cbn [bind]. cbn zeta. fold i o. rewrite bind_schema_ok by (apply var_ident || apply Nv). cbn [bind fm_state fm_schemas fm_vars]. fold v1.
      unfold al_, fm', v2. destruct loc as [f0|]; [|reflexivity]. rewrite bind_schema_ok by (apply var_ident || apply Nv). reflexivity. }
    (* what holds after it *)
    assert (Tn : md_tns m = sc_tns (do_plan d)).
    { destruct (schema_executed_from _ _ _ _ _ _ Lm) as (_ & _ & _ & _ & Lt & _). cbn [snd] in Lt. rewrite Zt in Lt. cbn [s' sc_tns] in Lt. rewrite (plain_literal rt false _ Pt) in Lt. now injection Lt. }
    assert (Keep : forall e p, In e E -> In p (sc_complexes (do_plan (snd e))) -> forall j, assoc (capital (cp_name p)) (ms_names (fm_state fm)) = Some (MComplex j) ->
      nat_assoc j (ms_schema (md_state m)) = nat_assoc j (ms_schema (fm_state fm))).
    { intros e p I J j A. apply (schema_kept rt limit O (fm_state fm) gs z m G0 Lm (capital (cp_name p)) j A).
      - rewrite Za, Zg, Zc. cbn [app]. intros Q. apply (nodup_apart_files (map fst (ms_names (fm_state fm))) (plan_names s') (capital (cp_name p))).
        + rewrite <- Mn. apply (gd_nodup _ Gm).
        + apply assoc_some_in. eauto.
        + unfold plan_names. rewrite !in_app_iff. auto.
      - intros t It Et. destruct (forall2_in _ _ _ _ Zt' It) as (tp & Jt & _ & Tx & _). unfold top_expr in Tx. rewrite Et in Tx. destruct (tp_content tp) as [q|ct] eqn:Ect; [destruct Tx as (? & ? & _); discriminate|].
        injection Tx as Tx. apply (nodup_apart_files (map fst (ms_names (fm_state fm))) (plan_names s') (capital (cp_name p))).
        + rewrite <- Mn. apply (gd_nodup _ Gm).
        + apply assoc_some_in. eauto.
        + unfold plan_names. rewrite !in_app_iff. right. right. unfold own_names, own_tops. rewrite Tx. apply in_map_iff. exists (mkXp (tp_name tp) None ct). split; [reflexivity|].
          apply in_flat_map. exists tp. split; [exact Jt|]. rewrite Ect. now left. }
    exists x, (gs, kt), c, (pre ++ [s']), fm'. rewrite Ef. split; [exact Sx|]. split; [exact Cc|]. split; [exact Fs|]. cbn [snd]. split.
    - exact IE.
    - exact NE.
    - apply Forall2_app; [exact (iv_pre _ _ _ _ V)|]. constructor; [exact A'|constructor].
    - intros n. cbn [pg_types]. unfold kt, known. rewrite !flat_map_app. cbn [flat_map]. rewrite !app_nil_r, !in_app_iff. pose proof (iv_types _ _ _ _ V n) as T. rewrite in_app_iff in T. tauto.
    - cbn [pg_code]. unfold import_files. rewrite foldM_app. pose proof (iv_run _ _ _ _ V) as R. unfold import_files in R. rewrite R. cbn [bind foldM]. rewrite Xf. reflexivity.
    - cbn [fm_state fm']. rewrite (bt_names _ _ _ _ Bm). apply built_done, Bm.
    - cbn [fm_state fm']. rewrite Mn, !flat_map_app. cbn [flat_map]. rewrite !app_nil_r. symmetry. rewrite perm_three. apply Permutation_app; [symmetry; exact (iv_names _ _ _ _ V)|reflexivity].
    - cbn [fm_state fm']. eapply ext_trans; [exact (iv_ext _ _ _ _ V)|exact E2].
    - intros n I. destruct W' as (_ & Rk & _). apply Rk. rewrite joined_complex, joined_own. rewrite !flat_map_app in I. cbn [flat_map] in I. rewrite !app_nil_r in I. exact I.
    - intros n I. cbn [fm_state fm'].
      apply (new_total (do_prefixes d) limit pre s' rank O (pg_types st) (map fst (ms_names (fm_state fm))) W' (iv_types _ _ _ _ V) (iv_names _ _ _ _ V)); [exact Bm|].
      rewrite joined_complex, joined_own. rewrite !flat_map_app in I. cbn [flat_map] in I. rewrite !app_nil_r in I. exact I.
    - cbn [fm_state fm']. intros e p I J Bp. apply in_app_or in I as [I | [<- | []]].
      + apply (fact_kept (fm_state fm)); [exact G0|exact Gm|exact E2|intros j; now apply (Keep e)|now apply (iv_facts _ _ _ _ V)].
      + cbn [snd]. apply (fact_made rt limit O (do_prefixes d) (pg_types st) x (gs, z) m (fm_state fm) s' p); auto.
        * exact (iv_ext _ _ _ _ V).
        * apply Forall_forall. intros n I. apply (built_ident _ _ _ _ _ (iv_built _ _ _ _ V)). apply (Permutation_in _ (Permutation_sym (iv_names _ _ _ _ V))).
          apply (iv_types _ _ _ _ V) in I. rewrite !in_app_iff in *. tauto.
        * unfold schema_code. rewrite Cc. cbn [bind snd fst]. fold kt. rewrite Cs. reflexivity.
        * apply (Permutation_in _ Pc J).
        * destruct (complex_ok n_sort (do_prefixes d) limit others (do_plan d) rank Wd p J) as ((U & _) & _). exact U.
    - cbn [fm_vars fm']. intros e I. assert (V1 : forall t, (exists j, assoc (var_of t) (fm_vars fm) = Some j) \/ t = sc_tns (do_plan d) \/ loc = Some t -> exists j, assoc (var_of t) v2 = Some j).
      { intros t H. assert (H1 : (exists j, assoc (var_of t) v1 = Some j) \/ loc = Some t).
        { unfold v1. rewrite assoc_set_get. destruct (String.eqb_spec (var_of t) (var_of (sc_tns (do_plan d)))); [left; eauto|]. destruct H as [H | [-> | H]]; [auto|congruence|auto]. }
        unfold v2. destruct loc as [f0|]; [|destruct H1 as [H1 | H1]; [exact H1|discriminate]]. rewrite assoc_set_get. destruct (String.eqb_spec (var_of t) (var_of f0)); [eauto|].
        destruct H1 as [H1 | [= <-]]; [exact H1|congruence]. }
      apply in_app_or in I as [I | [<- | []]].
      + destruct (iv_vars _ _ _ _ V e I) as [H1 H2]. split; [apply V1; auto|]. intros f0 E0. apply V1. left. now apply H2.
      + cbn [snd fst]. split; [apply V1; auto|]. intros f0 E0. apply V1. auto.
    - cbn [fm_vars fm']. intros v I. assert (H : In v (map fst (fm_vars fm)) \/ exists t, v = var_of t).
      { apply assoc_some_in in I as (j & A). unfold v2, v1 in A. assert (A1 : (exists t, v = var_of t) \/ assoc v (assoc_set (var_of (sc_tns (do_plan d))) i (fm_vars fm)) = Some j).
        { destruct loc as [f0|]; [|auto]. rewrite assoc_set_get in A. destruct (String.eqb_spec v (var_of f0)); [left; eauto|auto]. }
        destruct A1 as [A1 | A1]; [auto|]. rewrite assoc_set_get in A1. destruct (String.eqb_spec v (var_of (sc_tns (do_plan d)))); [right; eauto|]. left. apply assoc_some_in. eauto. }
      destruct H as [H | (t & ->)]; [now apply (iv_keys _ _ _ _ V)|]. exists (md5 t). reflexivity.
    - intros e f0 I J. apply in_app_or in I as [I | [<- | []]].
      + destruct (iv_closed _ _ _ _ V e f0 I J) as (d' & Q). exists d'. apply in_or_app. now left.
      + destruct (Follow f0 J) as (d' & Q). exists d'. apply in_or_app. now left.
    - intros NCol. destruct (iv_linked _ _ _ _ V NCol) as (Ln & Vn & Vf). assert (More : fm_schemas fm' = fm_schemas fm ++ [o]) by reflexivity.
      assert (Ni : nth_error (fm_schemas fm') i = Some o) by (rewrite More; unfold i; rewrite nth_error_app2 by lia; now rewrite Nat.sub_diag).
      destruct NCol as [Nh Na].
      assert (Id : In (sc_tns (do_plan d)) (namespaces files root)) by (apply in_map_iff; exists d; split; [reflexivity|exact (entry_document _ Ie)]).
      split; [|split].
      + apply Forall2_app; [|constructor; [|constructor]].
        * eapply forall2_mono; [|exact Ln]. intros e o' _ H. now apply linked_more with fm [o].
        * cbn [fst snd]. split; [exact Tn|]. split; [unfold of_file, o; cbn [so_location]; unfold loc'; destruct loc; reflexivity|]. cbn [o so_imports so_includes]. split.
          -- assert (Hn : forall ns, In ns (map fst (do_imports d)) -> In ns (namespaces files root)).
             { intros ns I. apply in_map_iff in I as ([ns' f'] & <- & I). destruct (Follow f') as (d' & J); [apply in_or_app; right; apply (in_map snd _ _ I)|].
               apply (iv_from _ _ _ _ V) in J. rewrite <- (ft_namespace _ _ _ _ _ _ F d ns' f' d' (entry_document _ Ie) I (entry_file _ _ J)). apply in_map_iff. exists d'. split; [reflexivity|exact (entry_document _ J)]. }
             eapply forall2_mono; [|exact (forall2_map_left _ _ _ _ Fi)]. cbv beta. intros p j I A. apply numbered_more with fm [o]; [exact More|]. apply Vn; [apply Hn, in_map, I|exact A].
          -- assert (Hn : forall f', In f' (do_includes d) -> In f' (map fst files)).
             { intros f' I. destruct (Follow f') as (d' & J); [apply in_or_app; now left|]. apply (iv_from _ _ _ _ V), entry_file in J. apply (in_map fst _ _ J). }
             eapply forall2_mono; [|exact Fj]. cbv beta. intros f' j I A. apply numbered_more with fm [o]; [exact More|]. apply Vf; [apply Hn, I|exact A].
      + cbn [fm_vars fm']. intros ns j I A. assert (A1 : assoc (var_of ns) v1 = Some j).
        { unfold v2 in A. destruct loc as [f0|]; [|exact A]. rewrite assoc_set_get in A. destruct (String.eqb_spec (var_of ns) (var_of f0)) as [E0|_]; [|exact A].
          exfalso. apply schema_inj in E0. destruct (Lf f0 eq_refl) as [_ If]. apply (Na f0 If). rewrite <- (Nh ns f0); auto using in_or_app. }
        unfold v1 in A1. rewrite assoc_set_get in A1. destruct (String.eqb_spec (var_of ns) (var_of (sc_tns (do_plan d)))) as [E0|_].
        * injection A1 as <-. apply schema_inj, Nh in E0; auto using in_or_app. exists o. split; [exact Ni|]. unfold of_namespace, o. cbn [so_module]. congruence.
        * apply numbered_more with fm [o]; [exact More|]. now apply Vn.
      + cbn [fm_vars fm']. intros f' j I A. unfold v2 in A. assert (A1 : (loc = Some f' /\ j = i) \/ assoc (var_of f') v1 = Some j).
        { destruct loc as [f0|]; [|auto]. rewrite assoc_set_get in A. destruct (String.eqb_spec (var_of f') (var_of f0)) as [E0|_]; [|auto].
          apply schema_inj, Nh in E0; [|auto using in_or_app|apply in_or_app; left; exact (proj2 (Lf f0 eq_refl))]. injection A as <-. left. split; [now rewrite E0|reflexivity]. }
        destruct A1 as [[E0 ->] | A1]; [exists o; split; [exact Ni|]; unfold of_file, o, loc'; cbn [so_location]; now rewrite E0|].
        unfold v1 in A1. rewrite assoc_set_get in A1. destruct (String.eqb_spec (var_of f') (var_of (sc_tns (do_plan d)))) as [E0|_].
        * exfalso. apply schema_inj, Nh in E0; auto using in_or_app. apply (Na f' I). now rewrite E0.
        * apply numbered_more with fm [o]; [exact More|]. now apply Vf.
  Qed.

  (** ** The recursion *)
  Variable depth : string -> nat.
  Hypothesis Dp : forall f d f', In (f, d) files -> In f' (followed d) -> depth f' < depth f.

  Definition seen (st : progress) (E : list entry) : Prop := (forall l d, In (Some l, d) E -> In l (pg_paths st)) /\ forall d, ~ In (None, d) E.
  Definition goes (D : nat) (st : progress) (E : list entry) : Prop := forall l, In l (pg_paths st) -> depth l < D -> exists d, In (Some l, d) E.
  Record went (D : nat) (srcs : string -> Prop) (st : progress) (E : list entry) (st' : progress) (E' : list entry) (pre' : list schema_plan) (fm' : fmodule) : Prop := {
    wt_inv : inv st' E' pre' fm';
    wt_seen : seen st' E';
    wt_more : incl E E';
    wt_kept : incl (pg_paths st) (pg_paths st');
    wt_paths : forall l, In l (pg_paths st') -> In l (pg_paths st) \/ exists d, In (Some l, d) E';
    wt_depth : forall l d, In (Some l, d) E' -> In (Some l, d) E \/ depth l < D;
    wt_from : forall l d, In (Some l, d) E' -> In (Some l, d) E \/ srcs l \/ exists f d1, srcs f /\ In (f, d1) files /\ refers files d1 l }.

  Lemma inv_paths st E pre fm paths : inv st E pre fm -> inv (mkProg paths (pg_types st) (pg_code st)) E pre fm.
  Proof. intros []. split; assumption. Qed.
  Lemma followed_file d f : In d (root :: map snd files) -> In f (followed d) -> file_name f /\ exists d', In (f, d') files.
  Proof.
    intros Id If. pose proof (ft_there _ _ _ _ _ _ F d f Id If) as I. pose proof (ft_names _ _ _ _ _ _ F) as Q. rewrite Forall_forall in Q. split; [now apply Q|].
    apply in_map_iff in I as ([f' d'] & <- & I). eauto.
  Qed.
  Lemma rewritten ts : (forall t, In t ts -> file_name t) -> mapM (rewrite_path g u (path_of base) (path_of base)) (map Some ts) = Ok (map Some ts).
  Proof.
    induction ts as [|t ts IH]; intros H; [reflexivity|]. cbn [map mapM]. rewrite (rewrite_file g u base PB t) by (apply H; now left). cbn [bind].
    rewrite IH by (intros t' I; apply H; now right). reflexivity.
  Qed.
  Lemma refers_on d f d1 l : In f (followed d) -> In (f, d1) files -> refers files d1 l -> refers files d l.
  Proof.
    intros If I (d' & [-> | R] & J).
    - exists d1. split; [right; now apply reaches_here with f|exact J].
    - exists d'. split; [right; now apply reaches_on with f d1|exact J].
  Qed.
  Notation code n := (files_code g u md5 checked open sort n_sort n).
  Definition step (n : nat) (st : progress) (l : option string) : res progress :=
    match given l with
    | None => Ok st
    | Some l =>
        r <- resolve_location g l (path_of base) ;;
        let '(path, cwd', location') := r in
        f' <- open path ;;
        code n f' (Some location') cwd' (path_of base) st
    end.
  Definition visits (n : nat) : Prop := forall f d x st E pre fm, In (f, d) files -> depth f < n -> states_file x d -> inv st E pre fm -> seen st E -> goes (S (depth f)) st E ->
    exists st' E' pre' fm', code n x (Some f) (path_of base) (path_of base) st = Ok st' /\ went (S (depth f)) (eq f) st E st' E' pre' fm' /\ exists d', In (Some f, d') E'.

  Lemma visit_all n D ls : visits n -> (forall f, In f ls -> file_name f /\ depth f < D /\ depth f < n /\ exists d, In (f, d) files) ->
    forall st E pre fm, inv st E pre fm -> seen st E -> goes D st E ->
    exists st' E' pre' fm', foldM (step n) st (map Some ls) = Ok st' /\ went D (fun f => In f ls) st E st' E' pre' fm' /\
      forall f, In f ls -> exists d, In (Some f, d) E'.
  Proof.
    intros Vn. induction ls as [|f ls IH]; intros H st E pre fm V Sn Go.
    - exists st, E, pre, fm. split; [reflexivity|]. split; [|intros f []]. split; auto using incl_refl.
    - destruct (H f (or_introl eq_refl)) as (Ff & Df & Dn & d & Ifd). destruct (DH f d Ifd) as (x & Ox & Sx).
      destruct (Vn f d x st E pre fm Ifd Dn Sx V Sn) as (st1 & E1 & pre1 & fm1 & C1 & W1 & (d1 & I1)).
      { intros l Il Dl. apply Go; [exact Il|lia]. }
      destruct (IH (fun f' I => H f' (or_intror I)) st1 E1 pre1 fm1 (wt_inv _ _ _ _ _ _ _ _ W1) (wt_seen _ _ _ _ _ _ _ _ W1)) as (st2 & E2 & pre2 & fm2 & C2 & W2 & A2).
      { intros l Il Dl. destruct (wt_paths _ _ _ _ _ _ _ _ W1 l Il) as [Il' | Il']; [|exact Il']. destruct (Go l Il' Dl) as (d2 & J). exists d2. now apply (wt_more _ _ _ _ _ _ _ _ W1). }
      exists st2, E2, pre2, fm2. split; [|split].
      + cbn [map foldM]. unfold step at 1. rewrite (file_given f Ff), (resolve_file g base PB f Ff). cbn [bind]. rewrite Ox. cbn [bind]. rewrite C1. exact C2.
      + split.
        * apply (wt_inv _ _ _ _ _ _ _ _ W2).
        * apply (wt_seen _ _ _ _ _ _ _ _ W2).
        * eapply incl_tran; [apply (wt_more _ _ _ _ _ _ _ _ W1)|apply (wt_more _ _ _ _ _ _ _ _ W2)].
        * eapply incl_tran; [apply (wt_kept _ _ _ _ _ _ _ _ W1)|apply (wt_kept _ _ _ _ _ _ _ _ W2)].
        * intros l Il. destruct (wt_paths _ _ _ _ _ _ _ _ W2 l Il) as [Il' | Il']; [|auto]. destruct (wt_paths _ _ _ _ _ _ _ _ W1 l Il') as [J | (d2 & J)]; [auto|].
          right. exists d2. now apply (wt_more _ _ _ _ _ _ _ _ W2).
        * intros l d2 I. destruct (wt_depth _ _ _ _ _ _ _ _ W2 l d2 I) as [J | J]; [|auto]. destruct (wt_depth _ _ _ _ _ _ _ _ W1 l d2 J) as [Q | Q]; [auto|right; lia].
        * intros l d2 I. destruct (wt_from _ _ _ _ _ _ _ _ W2 l d2 I) as [J | [J | (f' & d3 & If' & J)]].
          -- destruct (wt_from _ _ _ _ _ _ _ _ W1 l d2 J) as [Q | [Q | (f' & d3 & <- & Q)]]; [auto|right; left; now left|]. right. right. exists f, d3. split; [now left|exact Q].
          -- right. left. now right.
          -- right. right. exists f', d3. split; [now right|exact J].
      + intros f' [<- | If']; [|now apply A2]. exists d1. now apply (wt_more _ _ _ _ _ _ _ _ W2).
  Qed.

  (** One document with everything it follows. *)
  Lemma document_code n D loc d x st E pre fm : visits n -> In (loc, d) entries_all -> states_file x d -> inv st E pre fm -> seen st E ->
    (forall f, loc = Some f -> ~ In f (pg_paths st) /\ depth f = D) -> ~ In loc (map fst E) ->
    (forall f, In f (followed d) -> depth f < D /\ depth f < n) -> goes D st E ->
    exists st1 E1 pre1 fm1 st' pre' fm', code (S n) x loc (path_of base) (path_of base) st = Ok st' /\
      went D (fun f => In f (followed d)) (match loc with Some l => mkProg (pg_paths st ++ [l]) (pg_types st) (pg_code st) | None => st end) E st1 E1 pre1 fm1 /\
      pg_paths st' = pg_paths st1 /\ inv st' (E1 ++ [(loc, d)]) pre' fm'.
  Proof.
    intros Vn Ie Sx V Sn Nl NE Fd Go. pose proof Sx as (Ex & Ss & (b1 & incs & H1 & F1) & (b2 & imps & H2 & F2)).
    pose proof (entry_document _ Ie) as Id. cbn [snd] in Id.
    set (st0 := match loc with Some l => mkProg (pg_paths st ++ [l]) (pg_types st) (pg_code st) | None => st end).
    assert (Gl : given loc = loc).
    { destruct loc as [f|]; [|reflexivity]. apply file_given. pose proof (ft_names _ _ _ _ _ _ F) as Q. rewrite Forall_forall in Q. apply Q. apply entry_file in Ie. apply (in_map fst _ _ Ie). }
    assert (V0 : inv st0 E pre fm) by (unfold st0; destruct loc; [now apply inv_paths|exact V]).
    assert (S0 : seen st0 E).
    { destruct Sn as [Sn1 Sn2]. split; [|exact Sn2]. intros l d' I. unfold st0. destruct loc; [cbn [pg_paths]; apply in_or_app; left|]; eauto. }
    assert (G0 : goes D st0 E).
    { intros l I Dl. apply Go; [|exact Dl]. unfold st0 in I. destruct loc as [f|]; [|exact I]. cbn [pg_paths] in I. apply in_app_or in I as [I | [<- | []]]; [exact I|]. destruct (Nl f eq_refl). lia. }
    destruct (visit_all n D (followed d) Vn) with (st := st0) (E := E) (pre := pre) (fm := fm) as (st1 & E1 & pre1 & fm1 & C1 & W1 & A1); auto.
    { intros f If. destruct (followed_file d f Id If) as (Ff & d' & J). destruct (Fd f If). eauto 6. }
    assert (NE1 : ~ In loc (map fst E1)).
    { intros I. apply in_map_iff in I as ([l d'] & El & I). cbn in El. subst l. destruct loc as [f|]; [|now apply (proj2 (wt_seen _ _ _ _ _ _ _ _ W1)) in I].
      destruct (wt_depth _ _ _ _ _ _ _ _ W1 f d' I) as [J | J]; [apply NE, (in_map fst _ _ J)|]. destruct (Nl f eq_refl). lia. }
    destruct (emit st1 E1 pre1 fm1 loc d x imps (pg_paths st1) (wt_inv _ _ _ _ _ _ _ _ W1) Ie NE1 A1 Sx F2) as (x' & p & c & pre' & fm' & Sx' & Cp & Cc & V').
    exists st1, E1, pre1, fm1, (mkProg (pg_paths st1) (snd p) (pg_code st1 ++ [c])), pre', fm'. split; [|split; [exact W1|split; [reflexivity|exact V']]].
    cbn [files_code]. rewrite Gl.
    replace (match loc with Some l => str_in l (pg_paths st) | None => false end) with false.
    2:{ destruct loc as [f|]; [|reflexivity]. symmetry. apply not_true_iff_false. intros Q. apply str_in_spec in Q. now destruct (Nl f eq_refl). }
    cbn zeta. rewrite (has_jget _ _ _ H1), (has_jget _ _ _ H2). cbn [jlist bind]. rewrite (located _ _ F1). cbn [bind].
    rewrite (located imps (map snd (do_imports d))).
    2:{ clear - F2. induction F2 as [|i q l qs [_ H] Fl IH]; constructor; [exact H|exact IH]. }
    cbn [bind]. rewrite path_some.
    rewrite (rewritten (do_includes d)) by (intros t It; apply (followed_file d t Id); apply in_or_app; now left).
    rewrite (rewritten (map snd (do_imports d))) by (intros t It; apply (followed_file d t Id); apply in_or_app; now right). cbn [bind]. rewrite Sx'. cbn [bind].
    rewrite <- map_app. fold (followed d). fold st0. change (foldM _ st0 (map Some (followed d))) with (foldM (step n) st0 (map Some (followed d))). rewrite C1. cbn [bind].
    rewrite Cp. cbn [bind]. rewrite Cc. reflexivity.
  Qed.
  Lemma visits_all n : visits n.
  Proof.
    induction n as [|n IH]; intros f d x st E pre fm Ifd Dn Sx V Sn Go; [lia|].
    assert (Ff : file_name f) by (pose proof (ft_names _ _ _ _ _ _ F) as Q; rewrite Forall_forall in Q; apply Q; apply (in_map fst _ _ Ifd)).
    destruct (str_in f (pg_paths st)) eqn:K.
    - apply str_in_spec in K. exists st, E, pre, fm. split; [cbn [files_code]; rewrite (file_given f Ff); apply str_in_spec in K; now rewrite K|].
      split; [split; auto using incl_refl|]. apply Go; [exact K|lia].
    - assert (K' : ~ In f (pg_paths st)) by (intros I; apply str_in_spec in I; congruence). clear K.
      assert (Ie : In (Some f, d) entries_all) by (right; apply in_map_iff; exists (f, d); auto).
      destruct (document_code n (depth f) (Some f) d x st E pre fm IH Ie Sx V Sn) as (st1 & E1 & pre1 & fm1 & st' & pre' & fm' & C & W1 & Ep & V').
      + intros f' [= <-]. auto.
      + intros I. apply in_map_iff in I as ([l d'] & El & I). cbn in El. subst l. apply K'. now apply (proj1 Sn) in I.
      + intros f' If'. pose proof (Dp f d f' Ifd If'). lia.
      + intros l Il Dl. apply Go; [exact Il|lia].
      + exists st', (E1 ++ [(Some f, d)]), pre', fm'. split; [exact C|]. cbn iota in W1. split; [|exists d; apply in_or_app; right; now left]. split.
        * exact V'.
        * split.
          -- intros l d' I. rewrite Ep. apply in_app_or in I as [I | [[= <- <-] | []]]; [now apply (proj1 (wt_seen _ _ _ _ _ _ _ _ W1)) in I|].
             apply (wt_kept _ _ _ _ _ _ _ _ W1). apply in_or_app. right. now left.
          -- intros d' I. apply in_app_or in I as [I | [I | []]]; [now apply (proj2 (wt_seen _ _ _ _ _ _ _ _ W1)) in I|discriminate].
        * intros e I. apply in_or_app. left. now apply (wt_more _ _ _ _ _ _ _ _ W1).
        * intros l I. rewrite Ep. apply (wt_kept _ _ _ _ _ _ _ _ W1). apply in_or_app. now left.
        * intros l I. rewrite Ep in I. destruct (wt_paths _ _ _ _ _ _ _ _ W1 l I) as [J | (d' & J)]; [|right; exists d'; apply in_or_app; now left].
          cbn [pg_paths] in J. apply in_app_or in J as [J | [<- | []]]; [now left|]. right. exists d. apply in_or_app. right. now left.
        * intros l d' I. apply in_app_or in I as [I | [[= <- <-] | []]]; [|right; lia]. destruct (wt_depth _ _ _ _ _ _ _ _ W1 l d' I) as [J | J]; [now left|right; lia].
        * intros l d' I. apply in_app_or in I as [I | [[= <- <-] | []]]; [|now right; left]. destruct (wt_from _ _ _ _ _ _ _ _ W1 l d' I) as [J | [J | (f' & d2 & If' & J & R)]]; [now left| |].
          -- right. right. exists f, d. split; [reflexivity|]. split; [exact Ifd|]. exists d. split; [now left|exact J].
          -- right. right. exists f, d. split; [reflexivity|]. split; [exact Ifd|]. now apply refers_on with f' d2.
  Qed.

  Lemma inv_start : inv (mkProg [] [] []) [] [] fm_start.
  Proof.
    split.
    - intros e [].
    - constructor.
    - constructor.
    - intros n. reflexivity.
    - reflexivity.
    - apply built_start.
    - apply Permutation_refl.
    - apply ext_refl.
    - intros n [].
    - intros n [].
    - intros e p [].
    - intros e [].
    - intros v [].
    - intros e f [].
    - intros _. split; [constructor|]. split; intros ? ? _ Q; discriminate Q.
  Qed.

  (** The whole module. *)
  Lemma whole x : states_file x root -> (forall f, In f (map fst files) -> depth f + 1 < n_docs) ->
    exists st E pre fm, module_code g u md5 checked open sort n_sort n_docs x (path_of base) = Ok (pg_code st) /\ inv st (E ++ [(None, root)]) pre fm /\
      (forall l d, In (Some l, d) E -> refers files root l) /\ forall d, ~ In (None, d) E.
  Proof.
    intros Sx Dn. pose proof (ft_room _ _ _ _ _ _ F) as Rm. assert (exists n, n_docs = S n) as (n & En) by (destruct n_docs; [lia|eauto]).
    assert (Nd : forall f, In f (followed root) -> depth f + 1 < n_docs) by (intros f I; apply Dn, (ft_there _ _ _ _ _ _ F root); [now left|exact I]).
    destruct (document_code n n_docs None root x (mkProg [] [] []) [] [] fm_start (visits_all n)) as (st1 & E1 & pre1 & fm1 & st' & pre' & fm' & C & W1 & Ep & V').
    - now left.
    - exact Sx.
    - exact inv_start.
    - split; [intros l d []|intros d []].
    - discriminate.
    - intros [].
    - intros f I. specialize (Nd f I). lia.
    - intros l [].
    - exists st', E1, pre', fm'. split; [unfold module_code; rewrite En, C; reflexivity|]. split; [exact V'|]. split; [|apply (proj2 (wt_seen _ _ _ _ _ _ _ _ W1))].
      intros l d I. destruct (wt_from _ _ _ _ _ _ _ _ W1 l d I) as [[] | [J | (f & d1 & If & J & R)]].
      + exists root. split; [now left|exact J].
      + now apply refers_on with f d1.
  Qed.
End Traversal.
