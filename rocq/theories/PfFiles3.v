(** Modules from several documents: the statements for one document. *)
From Coq Require Import String Ascii List ZArith NArith Bool Lia Permutation.
From Verif Require Import PyBase PyPath PyVal XsdSimple XsdComplex XsdMeta LibClasses Py2Xsd GenOrder SpecOrder GenImports Xsd2Py PyLoad PyUrl XsdFiles SpecGenCode SpecPath SpecImports
  SpecUrl SpecService SpecLoadable SpecFiles PfBase PfMeta PfMeta2 PfLoad PfLoad2 PfGenCode PfGenCode2 PfGenCode3 PfGenCode4 PfGenCode5 PfLoadable PfLoadable2 PfLoadable3 PfLoadable4
  PfFiles PfFiles2.
From Verif Require PfService2.
Import ListNotations.
Open Scope nat_scope.
Open Scope string_scope.
Open Scope list_scope.

(** ** Lists *)

Lemma in_perm_split {A} (a : A) l : In a l -> exists r, Permutation l (a :: r).
Proof. intros I. apply in_split in I as (l1 & l2 & ->). exists (l1 ++ l2). now rewrite <- Permutation_middle. Qed.
Lemma nodup_incl_rest {A} (l : list A) : forall k, NoDup l -> incl l k -> exists r, Permutation k (l ++ r).
Proof.
  induction l as [|a l IH]; intros k N I; [exists k; reflexivity|]. inversion_clear N as [|? ? Na Nl].
  destruct (in_perm_split a k (I a (or_introl eq_refl))) as (k' & P). destruct (IH k' Nl) as (r & P').
  - intros b J. assert (B : In b k) by (apply I; now right). apply (Permutation_in _ P) in B as [-> | B]; [contradiction|exact B].
  - exists r. rewrite P, P'. reflexivity.
Qed.
Lemma flat_map_perm {A B} (f : A -> list B) l l' : Permutation l l' -> Permutation (flat_map f l) (flat_map f l').
Proof.
  induction 1 as [|x l l' P IH|x y l|l1 l2 l3 P1 IH1 P2 IH2]; cbn [flat_map].
  - constructor.
  - now rewrite IH.
  - rewrite !app_assoc. apply Permutation_app_tail, Permutation_app_comm.
  - now rewrite IH1.
Qed.
Lemma nodup_sub {A B} (f : A -> list B) l k : NoDup l -> incl l k -> NoDup (flat_map f k) -> NoDup (flat_map f l).
Proof.
  intros N I H. destruct (nodup_incl_rest l k N I) as (r & P). apply (Permutation_NoDup (flat_map_perm f _ _ P)) in H. rewrite flat_map_app in H.
  now apply nodup_left in H.
Qed.
Lemma nodup_pairs {A B} (l : list (A * B)) : NoDup (map fst l) -> NoDup l.
Proof. apply NoDup_map_inv. Qed.
Lemma perm_two {A} (a b c d : list A) : Permutation ((a ++ b) ++ (c ++ d)) ((a ++ c) ++ (b ++ d)).
Proof. rewrite <- !app_assoc. apply Permutation_app_head, Permutation_app_swap_app. Qed.
Lemma perm_three {A} (a1 b1 a2 b2 a3 b3 : list A) : Permutation ((a1 ++ b1) ++ (a2 ++ b2) ++ (a3 ++ b3)) ((a1 ++ a2 ++ a3) ++ b1 ++ b2 ++ b3).
Proof. rewrite (Permutation_app_head _ (perm_two a2 b2 a3 b3)). apply perm_two. Qed.

(** ** Schema objects and their variables *)

Lemma numbered_more fm fm' i P l : fm_schemas fm' = fm_schemas fm ++ l -> schema_numbered fm i P -> schema_numbered fm' i P.
Proof. intros E (o & H & Po). exists o. split; [|exact Po]. rewrite E, nth_error_app1; [exact H|]. apply nth_error_Some. now rewrite H. Qed.
Lemma linked_more fm fm' f d o l : fm_schemas fm' = fm_schemas fm ++ l -> linked fm f d o -> linked fm' f d o.
Proof.
  intros E (N & F & Im & Ic). split; [exact N|]. split; [exact F|].
  split; [clear - E Im; induction Im as [|p i ps is_ H Fl IH]|clear - E Ic; induction Ic as [|p i ps is_ H Fl IH]]; constructor; auto; now apply numbered_more with fm l.
Qed.
Lemma bind_schema_ok fm v i : identifier v = true -> ~ In v (map fst (ms_names (fm_state fm))) ->
  bind_schema fm v i = Ok (mkFm (fm_state fm) (fm_schemas fm) (assoc_set v i (fm_vars fm))).
Proof. intros Id N. unfold bind_schema. rewrite Id. cbn [negb]. destruct (str_in v _) eqn:E; [apply str_in_spec in E; contradiction|reflexivity]. Qed.
Lemma schema_inj a b : ("Schema_" ++ a = "Schema_" ++ b)%string -> a = b.
Proof. cbn [append]. intros H. now injection H. Qed.

(** ** A document and its types in the order of their classes *)

Definition arranged_as (s s' : schema_plan) : Prop :=
  exists cs, Permutation (sc_complexes s) cs /\ s' = mkPlan (sc_tns s) (sc_efd s) (sc_simples s) cs (sc_tops s).
Lemma arranged_simple s s' : arranged_as s s' -> simple_names s' = simple_names s.
Proof. intros (cs & _ & ->). reflexivity. Qed.
Lemma arranged_own s s' : arranged_as s s' -> own_names s' = own_names s.
Proof. intros (cs & _ & ->). reflexivity. Qed.
Lemma arranged_complex s s' : arranged_as s s' -> Permutation (complex_names s') (complex_names s).
Proof. intros (cs & P & ->). unfold complex_names. cbn [sc_complexes]. now apply Permutation_map, Permutation_sym. Qed.
Definition plan_names (s : schema_plan) : list string := simple_names s ++ complex_names s ++ own_names s.
Lemma arranged_names s s' : arranged_as s s' -> Permutation (plan_names s') (plan_names s).
Proof.
  intros A. unfold plan_names. rewrite (arranged_simple _ _ A), (arranged_own _ _ A). apply Permutation_app_head, Permutation_app_tail, arranged_complex, A.
Qed.
Lemma names_grouped (pre : list schema_plan) :
  Permutation (flat_map simple_names pre ++ flat_map complex_names pre ++ flat_map own_names pre) (flat_map plan_names pre).
Proof.
  induction pre as [|s pre IH]; [reflexivity|]. cbn [flat_map]. rewrite perm_three. unfold plan_names at 1. apply Permutation_app_head, IH.
Qed.
Definition entry := (option string * document)%type.
Definition entry_names (e : entry) : list string := document_names (snd e).
Lemma names_arranged (E : list entry) pre : Forall2 (fun e s => arranged_as (do_plan (snd e)) s) E pre -> Permutation (flat_map plan_names pre) (flat_map entry_names E).
Proof.
  induction 1 as [|e s E pre A F IH]; [reflexivity|]. cbn [flat_map]. apply Permutation_app; [|exact IH]. exact (arranged_names _ _ A).
Qed.
Definition nothing : schema_plan := mkPlan "" "" [] [] [].
Lemma joined_nothing_simple pre : simple_names (joined pre nothing) = flat_map simple_names pre.
Proof. rewrite joined_simple. apply app_nil_r. Qed.
Lemma joined_nothing_complex pre : complex_names (joined pre nothing) = flat_map complex_names pre.
Proof. rewrite joined_complex. apply app_nil_r. Qed.
Lemma joined_nothing_own pre : own_names (joined pre nothing) = flat_map own_names pre.
Proof. rewrite joined_own. apply app_nil_r. Qed.

(** Going on to the next document. *)
Lemma built_next pre s rank ms k : Permutation k (flat_map simple_names pre ++ flat_map complex_names pre ++ flat_map own_names pre) ->
  NoDup (plan_names (joined pre s)) -> built (joined pre nothing) rank ms k -> built (joined pre s) rank ms k.
Proof.
  intros P N. unfold plan_names in N. rewrite joined_simple, joined_complex, joined_own in N.
  assert (N' : NoDup ((flat_map simple_names pre ++ flat_map complex_names pre ++ flat_map own_names pre) ++ plan_names s)).
  { eapply Permutation_NoDup; [|exact N]. unfold plan_names. apply perm_three. }
  assert (X : forall n, In n k -> ~ In n (plan_names s)).
  { intros n I J. apply (Permutation_in _ P) in I. revert I J. clear - N'. induction (flat_map simple_names pre ++ flat_map complex_names pre ++ flat_map own_names pre) as [|a l IH]; [intros []|].
    cbn [app] in N'. inversion_clear N' as [|? ? Na Nl]. intros [-> | I] J; [apply Na, in_or_app; now right|auto]. }
  apply built_grow; rewrite ?joined_nothing_simple, ?joined_nothing_complex, ?joined_nothing_own, ?joined_simple, ?joined_complex, ?joined_own.
  - intros n I. apply in_or_app. now left.
  - intros n I. apply in_or_app. now left.
  - intros n I J. apply in_app_or in J as [J | J]; [exact J|]. exfalso. apply (X n I). unfold plan_names. rewrite !in_app_iff. auto.
  - intros n I J. rewrite !in_app_iff in *. assert (~ In n (complex_names s)) by (intros Z; apply (X n I); unfold plan_names; rewrite !in_app_iff; auto).
    assert (~ In n (own_names s)) by (intros Z; apply (X n I); unfold plan_names; rewrite !in_app_iff; auto). tauto.
Qed.
Lemma built_done pre s rank ms k : built (joined pre s) rank ms k -> built (joined (pre ++ [s]) nothing) rank ms k.
Proof.
  apply built_grow; rewrite ?joined_nothing_simple, ?joined_nothing_complex, ?joined_nothing_own, ?joined_simple, ?joined_complex, ?joined_own, ?flat_map_app; cbn [flat_map];
    rewrite ?app_nil_r; auto using incl_refl.
Qed.
Lemma NoDup_app_comm_cons {A} (l : list A) a : NoDup l -> ~ In a l -> NoDup (l ++ [a]).
Proof. intros N I. eapply Permutation_NoDup; [|exact (NoDup_cons a I N)]. apply Permutation_cons_append. Qed.
Lemma nodup_apart_files {A} (l r : list A) a : NoDup (l ++ r) -> In a l -> In a r -> False.
Proof.
  induction l as [|b l IH]; [intros _ []|]. cbn [app]. intros N I J. inversion_clear N as [|? ? Nb Nl]. destruct I as [-> | I]; [apply Nb, in_or_app; now right|auto].
Qed.
Lemma forall2_mono {A B} (R Q : A -> B -> Prop) l l' : (forall a b, In a l -> R a b -> Q a b) -> Forall2 R l l' -> Forall2 Q l l'.
Proof. intros H Fl. induction Fl as [|a b l l' X Fl IH]; constructor; [apply H; [now left|exact X]|]. apply IH. intros a' b' I. apply H. now right. Qed.
Lemma forall2_map_left {A B C} (R : B -> C -> Prop) (f : A -> B) l l' : Forall2 R (map f l) l' -> Forall2 (fun a c => R (f a) c) l l'.
Proof. revert l'. induction l as [|a l IH]; intros l' H; inversion H; subst; constructor; auto. Qed.
