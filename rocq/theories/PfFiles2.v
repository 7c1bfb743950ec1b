(** Modules from several documents: what earlier documents have made stays. *)
From Coq Require Import String Ascii List ZArith NArith Bool Lia Permutation.
From Verif Require Import PyBase PyPath PyVal XsdSimple XsdComplex XsdMeta LibClasses Py2Xsd GenOrder GenImports Xsd2Py PyLoad PyUrl XsdFiles SpecGenCode SpecPath SpecImports
  SpecUrl SpecService SpecLoadable SpecFiles PfBase PfMeta PfMeta2 PfLoad PfLoad2 PfGenCode PfGenCode2 PfGenCode3 PfGenCode4 PfGenCode5 PfLoadable PfLoadable2 PfLoadable3 PfLoadable4 PfFiles.
Import ListNotations.
Open Scope nat_scope.
Open Scope string_scope.
Open Scope list_scope.

Lemma built_grow u u' rank ms k : incl (simple_names u) (simple_names u') -> incl (complex_names u) (complex_names u') ->
  (forall n, In n k -> In n (simple_names u') -> In n (simple_names u)) ->
  (forall n, In n k -> In n (complex_names u' ++ own_names u') -> In n (complex_names u ++ own_names u)) -> built u rank ms k -> built u' rank ms k.
Proof.
  intros Is Ic Hs Hc B. split.
  - apply (bt_good _ _ _ _ B).
  - apply (bt_names _ _ _ _ B).
  - intros n I J. apply (bt_simple _ _ _ _ B); auto.
  - intros n I J. apply (bt_complex _ _ _ _ B); auto.
  - intros n c A. destruct (bt_fields _ _ _ _ B n c A) as [N F]. split; [exact N|]. intros f If. destruct (F f If) as (K & D & T). split; [exact K|]. split; [exact D|].
    destruct (f_type f); [exact T|]. destruct T as [T | [T R]]; [left; auto|right; auto].
Qed.

Definition bare (ms : mstate) : module := mkMod ms "" "" [].
(** A class of a type that is no extension. *)
Definition class_fact (ms : mstate) (nss : list (option string)) (tns efd : string) (p : complex_plan) : Prop :=
  exists i, assoc (capital (cp_name p)) (ms_names ms) = Some (MComplex i) /\
    nat_assoc i (ms_schema ms) = Some {| si_tns := Some tns; si_efd := efd |} /\
    (exists b, mro_of ms i = [i; b] /\ b < length (ms_class ms) /\ class_name ms b = "xsd.ComplexType") /\
    existsb (Nat.eqb 1) (mro_of ms i) = false /\
    snd (nth i (ms_class ms) ("", ISequence)) = match co_ind (cp_content p) with Some i => i | None => ISequence end /\
    (forall f, In f (class_fields (ms_world ms) i) -> exists t, resolve ms (f_type f) = Ok t) /\
    Forall2 (mirrors (bare ms) nss) (co_attrs (cp_content p) ++ co_elems (cp_content p)) (map (retype ms) (class_fields (ms_world ms) i)).

Lemma fact_class ms nss tns efd p : good ms -> class_fact ms nss tns efd p ->
  exists c, module_class (bare ms) (capital (cp_name p)) c /\ cd_mro c = [capital (cp_name p); "xsd.ComplexType"] /\ cd_kind c = CKPlain /\
    cd_ind c = match co_ind (cp_content p) with Some i => i | None => ISequence end /\
    cd_schema c = Some {| si_tns := Some tns; si_efd := efd |} /\
    Forall2 (mirrors (bare ms) nss) (co_attrs (cp_content p) ++ co_elems (cp_content p)) (cd_fields c).
Proof.
  intros G (i & A & Sc & (b & M & Lb & Nb) & K & Id & R & F). exists (class_def ms i). split; [unfold module_class, bare; cbn [md_state module_env e_cls]; now rewrite A|].
  unfold class_def. cbn [cd_mro cd_kind cd_ind cd_schema cd_fields]. split; [|split; [now rewrite K|split; [exact Id|split; [|exact F]]]].
  - rewrite M. cbn [map]. rewrite Nb. now rewrite (proj2 (gd_names ms G _ _ A)).
  - rewrite M. cbn [schema_of]. now rewrite Sc.
Qed.
Lemma resolve_ext ms ms' t t' : ext ms ms' -> resolve ms t = Ok t' -> (forall n v, assoc n (ms_names ms') = Some v -> identifier n = true) -> resolve ms' t = Ok t'.
Proof.
  intros E H Id. unfold resolve in *. destruct t as [s|n]; [exact H|]. destruct (assoc n (ms_names ms)) as [v|] eqn:A.
  - now rewrite (ext_bound _ _ _ _ E A).
  - destruct (str_in n _) eqn:S; [|discriminate]. destruct (assoc n (ms_names ms')) as [v|] eqn:A'; [|exact H]. apply Id in A'. apply str_in_spec in S.
    cbn in S. repeat (destruct S as [<- | S]; [discriminate|]). destruct S.
Qed.
Lemma provides_ext ms ms' n t : ext ms ms' -> provides (bare ms) n t -> provides (bare ms') n t.
Proof.
  unfold provides, bare. cbn [md_state]. intros E. destruct (assoc n (ms_names ms)) as [v|] eqn:A; [|intros []]. now rewrite (ext_bound _ _ _ _ E A).
Qed.
Lemma mirrors_ext ms ms' nss p f : ext ms ms' -> mirrors (bare ms) nss p f -> mirrors (bare ms') nss p f.
Proof.
  intros E (H1 & H2 & H3 & (pr & l & Q & N & D) & H). split; [exact H1|]. split; [exact H2|]. split; [exact H3|]. split; [|exact H].
  exists pr, l. split; [exact Q|]. split; [exact N|]. destruct D as [D | [D P]]; [now left|right]. split; [exact D|]. now apply provides_ext with ms.
Qed.
Lemma fact_kept ms ms' nss tns efd p : good ms -> good ms' -> ext ms ms' ->
  (forall i, assoc (capital (cp_name p)) (ms_names ms) = Some (MComplex i) -> nat_assoc i (ms_schema ms') = nat_assoc i (ms_schema ms)) ->
  class_fact ms nss tns efd p -> class_fact ms' nss tns efd p.
Proof.
  intros G G' E S (i & A & Sc & (b & M & Lb & Nb) & K & Id & R & F). destruct (gd_names ms G _ _ A) as [[_ Li] _].
  exists i. split; [now apply ext_bound with ms|]. split; [now rewrite S|]. rewrite (ext_mro ms ms' i G E Li), (ext_class_name ms ms' i E Li), (ext_class_fields ms ms' i G E Li).
  split; [exists b; split; [exact M|]; split; [destruct (ex_class _ _ E) as [l ->]; rewrite app_length; lia|unfold class_name in *; now rewrite (ext_class_name ms ms' b E Lb)]|].
  split; [exact K|]. split; [exact Id|]. assert (Ids : forall n v, assoc n (ms_names ms') = Some v -> identifier n = true) by (intros n v; apply (gd_ident ms' G')).
  split; [intros f If; destruct (R f If) as (t & Ht); exists t; now apply resolve_ext with ms|].
  assert (Er : map (retype ms') (class_fields (ms_world ms) i) = map (retype ms) (class_fields (ms_world ms) i)).
  { apply map_ext_in. intros f If. destruct (R f If) as (t & Ht). unfold retype. now rewrite Ht, (resolve_ext _ _ _ _ E Ht Ids). }
  rewrite Er. clear - E F. induction F as [|p' f ps fs H F IH]; constructor; [now apply mirrors_ext with ms|exact IH].
Qed.

(** A new class. *)
Lemma fact_made rt limit O nss known x code m ms0 s p : good ms0 -> ext start ms0 -> Forall (fun n => identifier n = true) known ->
  schema_code nss known x = Ok code -> load_from rt limit O ms0 code = Ok m -> states_schema x s ->
  gz_complex (snd code) = complex_names s -> gz_tns (snd code) = sc_tns s -> gz_efd (snd code) = sc_efd s -> plain_text (sc_tns s) -> plain_text (sc_efd s) ->
  In p (sc_complexes s) -> cp_base p = None -> usable (co_attrs (cp_content p) ++ co_elems (cp_content p)) ->
  class_fact (md_state m) nss (sc_tns s) (sc_efd s) p.
Proof.
  intros G0 E0 Kn C L St Gc Gt Ge Pt Pe Ip Bp U. destruct St as (Ht & He & _ & (b2 & cts & H2 & F2) & _).
  destruct (forall2_right _ _ _ F2 p Ip) as (ct & Ic & [Hn Hc]). rewrite Bp in Hc. destruct Hc as [Lc (els & attrs & Sc & Se & Sa)].
  destruct (plain_class_from ms0 G0 E0 rt limit O nss known x code m b2 cts ct (cp_name p) (co_ind (cp_content p)) els attrs (co_elems (cp_content p)) (co_attrs (cp_content p))
    Kn C L H2 Ic Hn Se Sa U Lc Sc) as (d & Md & Mr & Kd & In_ & Mi).
  destruct (schema_executed_from _ _ _ _ _ _ L) as (ms & tops & els' & Fm & Lt & Le & _ & _ & _ & Cl).
  destruct (load_from_spec _ _ _ _ _ _ G0 L) as (ms' & Fm' & G & Gm & Ex & Ww & Wn & Wc & _ & Rc). rewrite Fm in Fm'. injection Fm' as <-.
  assert (Inn : In (capital (cp_name p)) (complex_names s)) by (unfold complex_names; apply (in_map (fun p => capital (cp_name p)) _ _ Ip)).
  destruct (Cl (capital (cp_name p))) as (Idn & i & A & Sn & _); [rewrite Gc; rewrite !in_app_iff; auto|].
  destruct (Rc (capital (cp_name p))) as (_ & i' & A' & R); [now rewrite Gc|]. rewrite A in A'. injection A' as <-.
  rewrite <- Wn in A. unfold module_class in Md. cbn [module_env e_cls] in Md. rewrite A in Md. injection Md as <-.
  unfold class_def in Mr, Kd, In_, Mi. cbn [cd_mro cd_kind cd_ind cd_fields] in Mr, Kd, In_, Mi.
  destruct (gd_names _ Gm _ _ A) as [[_ Li] Cn]. exists i. split; [exact A|]. split.
  { rewrite Gt, (plain_literal rt false _ Pt) in Lt. rewrite Ge, (plain_literal rt false _ Pe) in Le. injection Lt as Lt. injection Le as Le. rewrite Lt, Le. exact Sn. }
  assert (Mh : exists t, mro_of (md_state m) i = i :: t).
  { unfold mro_of. rewrite (gd_class _ Gm) in Li. destruct (nth_error (w_classes (ms_world (md_state m))) i) as [k|] eqn:Hk; [|apply nth_error_None in Hk; lia].
    exact (gd_mro _ Gm _ _ Hk). }
  destruct Mh as (t & Mh). rewrite Mh in Mr. destruct t as [|b [|b' t]]; try discriminate. cbn [map] in Mr. injection Mr as _ Nb.
  split; [|split; [|split; [exact In_|split; [|exact Mi]]]].
  - exists b. split; [exact Mh|]. split; [|exact Nb]. unfold class_name in Nb. destruct (Nat.lt_ge_cases b (length (ms_class (md_state m)))) as [H | H]; [exact H|].
    rewrite nth_overflow in Nb by exact H. discriminate.
  - destruct (existsb (Nat.eqb 1) (mro_of (md_state m) i)); [discriminate|reflexivity].
  - intros f If. rewrite Ww in If. exact (R f If).
Qed.
