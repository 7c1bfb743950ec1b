(** Modules from several documents: the whole module. *)
From Coq Require Import String Ascii List ZArith NArith Bool Lia Permutation.
From Verif Require Import PyBase PyPath PyVal XsdSimple XsdComplex XsdMeta LibClasses Py2Xsd GenOrder SpecOrder GenImports Xsd2Py PyLoad PyUrl XsdFiles SpecGenCode SpecPath SpecImports
  SpecUrl SpecService SpecLoadable SpecFiles PfBase PfMeta PfMeta2 PfLoad PfLoad2 PfGenCode PfGenCode2 PfGenCode3 PfGenCode4 PfGenCode5 PfLoadable PfLoadable2 PfLoadable3 PfLoadable4
  PfFiles PfFiles2 PfFiles3 PfFiles4.
Import ListNotations.
Open Scope nat_scope.
Open Scope string_scope.
Open Scope list_scope.

Lemma part_file files root d : reaches files root d -> exists f, In (f, d) files /\ refers files root f.
Proof.
  induction 1 as [d f d' Hf Hd|d f d1 d2 Hf Hd R (f' & I & J)].
  - exists f. split; [exact Hd|]. exists d. split; [now left|exact Hf].
  - exists f'. split; [exact I|]. now apply refers_on with f d1.
Qed.
Lemma file_part files root f d : In (f, d) files -> refers files root f -> reaches files root d.
Proof.
  intros I (d' & [-> | R] & J); [now apply reaches_here with f|]. induction R as [d1 f1 d2 Hf Hd|d1 f1 d2 d3 Hf Hd R IH].
  - apply reaches_on with f1 d2; [exact Hf|exact Hd|]. now apply reaches_here with f.
  - apply reaches_on with f1 d2; auto.
Qed.

Section Whole.
  Variables (g : string) (u : string -> string -> string) (md5 : string -> string) (checked : string -> bool) (open : string -> res file) (sort : sorter).
  Variables (n_docs n_sort : nat) (rt : runtime) (limit : nat) (O : oracle) (rank : string -> nat) (files : list (string * document)) (root : document) (base : list string) (x : file).
  Hypothesis PB : Forall proper base.
  Hypothesis Hx : forall v, hex5 (md5 v).
  Hypothesis LS : list_sort sort.
  Hypothesis F : fitting n_docs n_sort limit rank files root.
  Hypothesis DH : directory_holds open base files.
  Hypothesis Sx : states_file x root.

  Lemma module_made : exists code parts pre fm, module_code g u md5 checked open sort n_sort n_docs x (path_of base) = Ok code /\ import_files rt limit O code = Ok fm /\
    parts_of files root parts /\ exists st, inv md5 rt limit O rank files root st parts pre fm.
  Proof.
    destruct (ft_acyclic _ _ _ _ _ _ F) as (depth & Dp & Dn).
    destruct (whole g u md5 checked open sort n_docs n_sort rt limit O rank files root base PB Hx LS F DH depth Dp x Sx Dn) as (st & E & pre & fm & C & V & Fr & No).
    exists (pg_code st), (E ++ [(None, root)]), pre, fm. split; [exact C|]. split; [exact (iv_run _ _ _ _ _ _ _ _ _ _ _ V)|]. split; [|exists st; exact V].
    split; [exact (iv_once _ _ _ _ _ _ _ _ _ _ _ V)|]. intros [f|] d.
    - split.
      + intros I. split; [apply (entry_file files root), (iv_from _ _ _ _ _ _ _ _ _ _ _ V), I|]. apply in_app_or in I as [I | [I | []]]; [now apply Fr in I|discriminate].
      + intros [I (d' & P & J)].
        assert (K : exists loc, In (loc, d') (E ++ [(None, root)])).
        { destruct P as [-> | P]; [exists None; apply in_or_app; right; now left|].
          eapply reached_written; [exact F|exact (iv_from _ _ _ _ _ _ _ _ _ _ _ V)|exact (iv_closed _ _ _ _ _ _ _ _ _ _ _ V)| |exact P].
          intros f' If'. apply (iv_closed _ _ _ _ _ _ _ _ _ _ _ V (None, root)); [apply in_or_app; right; now left|exact If']. }
        destruct K as (loc & K). destruct (iv_closed _ _ _ _ _ _ _ _ _ _ _ V _ f K J) as (d2 & Q). replace d with d2; [exact Q|].
        apply (file_once n_docs n_sort limit rank files root F f); [|exact I]. apply (entry_file files root), (iv_from _ _ _ _ _ _ _ _ _ _ _ V), Q.
    - split.
      + intros I. apply in_app_or in I as [I | [I | []]]; [now apply No in I|]. congruence.
      + intros ->. apply in_or_app. right. now left.
  Qed.
  Lemma part_in parts d : parts_of files root parts -> part_of files root d -> exists loc, In (loc, d) parts.
  Proof.
    intros [_ P] [-> | R]; [exists None; now apply P|]. apply part_file in R as (f & I & J). exists (Some f). apply P. auto.
  Qed.
  Lemma in_part parts e : parts_of files root parts -> In e parts -> part_of files root (snd e).
  Proof.
    intros [_ P] I. destruct e as [[f|] d]; apply P in I; cbn [snd]; [right; destruct I; now apply file_part with f|now left].
  Qed.

  Lemma files_import : exists code fm, module_code g u md5 checked open sort n_sort n_docs x (path_of base) = Ok code /\ import_files rt limit O code = Ok fm /\
    NoDup (map fst (ms_names (fm_state fm))) /\
    (forall n, In n (map fst (ms_names (fm_state fm))) <-> exists d, part_of files root d /\ In n (document_names d)) /\
    forall d c, part_of files root d -> In c (complex_names (do_plan d) ++ own_names (do_plan d)) -> exists fs, new_instance O (module_env limit (fm_state fm)) c = Ok fs.
  Proof.
    destruct module_made as (code & parts & pre & fm & C & R & P & st & V). exists code, fm. split; [exact C|]. split; [exact R|]. split; [|split].
    - exact (gd_nodup _ (bt_good _ _ _ _ (iv_built _ _ _ _ _ _ _ _ _ _ _ V))).
    - intros n. pose proof (iv_names _ _ _ _ _ _ _ _ _ _ _ V) as N. rewrite names_grouped, (names_arranged _ _ (iv_pre _ _ _ _ _ _ _ _ _ _ _ V)) in N. split.
      + intros I. apply (Permutation_in _ N) in I. apply in_flat_map in I as (e & I & J). exists (snd e). split; [now apply in_part with parts|exact J].
      + intros (d & Pd & J). apply (Permutation_in _ (Permutation_sym N)). destruct (part_in parts d P Pd) as (loc & I). apply in_flat_map. exists (loc, d). auto.
    - intros d c Pd I. destruct (part_in parts d P Pd) as (loc & J). apply (iv_calls _ _ _ _ _ _ _ _ _ _ _ V).
      destruct (forall2_left _ _ _ (iv_pre _ _ _ _ _ _ _ _ _ _ _ V) _ J) as (s & Is & A). cbn [snd] in A. apply in_app_or in I as [I | I]; apply in_or_app; [left|right]; apply in_flat_map; exists s; split; auto.
      + apply (Permutation_in _ (Permutation_sym (arranged_complex _ _ A)) I).
      + now rewrite (arranged_own _ _ A).
  Qed.
  Lemma files_classes : exists code fm, module_code g u md5 checked open sort n_sort n_docs x (path_of base) = Ok code /\ import_files rt limit O code = Ok fm /\
    forall d, part_of files root d -> has_classes (classes_of fm) d.
  Proof.
    destruct module_made as (code & parts & pre & fm & C & R & P & st & V). exists code, fm. split; [exact C|]. split; [exact R|].
    intros d Pd p Ip Bp. destruct (part_in parts d P Pd) as (loc & J). pose proof (iv_facts _ _ _ _ _ _ _ _ _ _ _ V (loc, d) p J Ip Bp) as Fc. cbn [snd] in Fc. apply fact_class in Fc; [exact Fc|exact (bt_good _ _ _ _ (iv_built _ _ _ _ _ _ _ _ _ _ _ V))].
  Qed.
  Lemma files_schemas : no_collision md5 files root -> exists code fm parts, module_code g u md5 checked open sort n_sort n_docs x (path_of base) = Ok code /\
    import_files rt limit O code = Ok fm /\ parts_of files root parts /\
    Forall2 (fun e o => linked fm (fst e) (snd e) o) parts (fm_schemas fm) /\
    (forall d, part_of files root d -> exists i, assoc ("Schema_" ++ md5 (sc_tns (do_plan d)))%string (fm_vars fm) = Some i /\ schema_numbered fm i (of_namespace (sc_tns (do_plan d)))) /\
    forall f, refers files root f -> exists i, assoc ("Schema_" ++ md5 f)%string (fm_vars fm) = Some i /\ schema_numbered fm i (of_file (Some f)).
  Proof.
    intros NC. destruct module_made as (code & parts & pre & fm & C & R & P & st & V). exists code, fm, parts. split; [exact C|]. split; [exact R|]. split; [exact P|].
    destruct (iv_linked _ _ _ _ _ _ _ _ _ _ _ V NC) as (L & Vn & Vf). split; [exact L|]. split.
    - intros d Pd. destruct (part_in parts d P Pd) as (loc & J). destruct (iv_vars _ _ _ _ _ _ _ _ _ _ _ V _ J) as [(i & A) _]. cbn [snd] in A. exists i. split; [exact A|]. apply Vn; [|exact A].
      apply in_map_iff. exists d. split; [reflexivity|]. apply (entry_document files root (loc, d)), (iv_from _ _ _ _ _ _ _ _ _ _ _ V), J.
    - intros f (d & Pd & If). destruct (part_in parts d P Pd) as (loc & J). destruct (iv_closed _ _ _ _ _ _ _ _ _ _ _ V _ f J If) as (d' & J').
      destruct (iv_vars _ _ _ _ _ _ _ _ _ _ _ V _ J') as [_ H]. destruct (H f eq_refl) as (i & A). exists i. split; [exact A|]. apply Vf; [|exact A].
      apply (iv_from _ _ _ _ _ _ _ _ _ _ _ V), entry_file in J'. apply (in_map fst _ _ J').
  Qed.
End Whole.
