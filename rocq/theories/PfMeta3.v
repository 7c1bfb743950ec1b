(** Declaration order in the XML; examples. *)
From Coq Require Import String Ascii List ZArith NArith Bool Lia Permutation Sorted.
From Verif Require Import PyBase Xml PyVal XsdSimple XsdComplex PySort XsdMeta SpecMeta SpecObject SpecRender PfBase PfMeta PfMeta2 PfRender PfRender2 ExEnv.
Import ListNotations.
Open Scope nat_scope.
Open Scope string_scope.
Open Scope list_scope.

Lemma forall2_concat {A B} (R : A -> B -> Prop) ls : forall bs, Forall2 R (concat ls) bs ->
  exists bss, bs = concat bss /\ Forall2 (Forall2 R) ls bss.
Proof.
  induction ls as [|l ls IH]; intros bs H; cbn in H.
  - inversion H. now exists [].
  - apply Forall2_app_inv_l in H as (b1 & b2 & H1 & H2 & ->). destruct (IH _ H2) as (bss & -> & H3). exists (b1 :: bss). split; [reflexivity|]. now constructor.
Qed.
Lemma forall2_trans {A B C} (R : A -> B -> Prop) (Q : B -> C -> Prop) l m n : Forall2 R l m -> Forall2 Q m n ->
  Forall2 (fun a c => exists b, R a b /\ Q b c) l n.
Proof. intros H. revert n. induction H; intros n K; inversion K; subst; constructor; eauto. Qed.
Lemma concat_concat {A} (l : list (list (list A))) : concat (concat l) = concat (map (@concat A) l).
Proof. induction l as [|x l IH]; cbn; [reflexivity|]. now rewrite concat_app, IH. Qed.

Lemma rendered_order es w c n O E ci di xe fs tag ns efd x :
  exec_all empty_world es = Ok w -> one_name_each w ->
  e_cls E ci = Some di -> cd_fields di = class_fields w c -> names_ok E -> ncname_ok tag = true ->
  xml_of n O E (VObj ci xe fs) tag ns efd = Ok x ->
  exists ids blocks ns1, StronglySorted lt ids /\ (forall d, In d ids <-> exists n, has_field w c n d) /\
    el_kids x = concat blocks /\
    Forall2 (fun d block => exists f entries kids, element w d f /\ has_field w c (f_name f) d /\
      flat_field E fs ns1 f entries /\ Forall2 (children O E efd) entries kids /\ block = concat kids) ids blocks.
Proof.
  intros R On Hd Hf Nm Tg X. destruct (order_kept es w c R On) as (ids & So & Ids & F).
  apply xml_of_shape in X as [_ S]; auto. inversion S; subst. cbn [el_kids].
  match goal with H : flat _ _ _ _ _ |- _ => inversion H; subst end.
  match goal with H1 : e_cls E ci = Some ?a, H2 : e_cls E ci = Some di |- _ => rewrite H2 in H1; injection H1 as <- end.
  match goal with H : Forall2 (flat_field _ _ _) _ _ |- _ => rename H into FF end.
  match goal with H : Forall2 (children _ _ _) _ _ |- _ => apply forall2_concat in H as (bss & -> & FC) end.
  exists ids, (map (@concat node) bss), ns1. split; [exact So|]. split; [exact Ids|]. split; [apply concat_concat|].
  assert (FF' : Forall2 (flat_field E fs ns1) (class_fields w c) blocks0) by congruence.
  pose proof (forall2_trans _ _ _ _ _ F (forall2_trans _ _ _ _ _ FF' FC)) as H.
  clear -H. induction H as [|d bs ids bss (f & [Hf He] & es & Fl & Ch) _ IH]; cbn; constructor; [|exact IH].
  exists f, es, bs. repeat split; auto.
Qed.

(** ** Examples *)
Definition decl (t : ftype) : field := mkField "" KElement t None (Some 1%Z) ONone false VNone None.
Definition decl_attr (t : ftype) : field := mkField "" KAttribute t None (Some 1%Z) ONone false VNone None.
(** zulu, alpha and an attribute in the base class; the subclass overrides alpha,
    hides the attribute and adds a field. *)
Definition ex_program : list event :=
  [NewElement (decl t_str); NewElement (decl t_int); NewElement (decl_attr t_str);
   DefClass [("zulu", ADesc 0); ("alpha", ADesc 1); ("mike", ADesc 2); ("SCHEMA", AOther)] [];
   NewElement (decl t_str); NewElement (decl t_int);
   DefClass [("alpha", ADesc 4); ("beta", ADesc 3); ("mike", AOther)] [0]].
Definition ex_world : world := match exec_all empty_world ex_program with Ok w => w | Err _ => empty_world end.
Definition field_names (w : world) (c : nat) : list string := map f_name (class_fields w c).
Lemma ex_world_runs : exec_all empty_world ex_program = Ok ex_world.
Proof. vm_compute. reflexivity. Qed.
Lemma ex_one_name : one_name_each ex_world.
Proof.
  intros c1 c2 n1 n2 d H1 H2. apply has_field_class in H1 as L1. apply has_field_class in H2 as L2.
  apply has_field_get in H1. apply has_field_get in H2.
  assert (D1 := mro_get_dir _ _ _ _ H1). assert (D2 := mro_get_dir _ _ _ _ H2).
  assert (C1 : c1 = 0 \/ c1 = 1) by (change (length (w_classes ex_world)) with 2 in L1; lia).
  assert (C2 : c2 = 0 \/ c2 = 1) by (change (length (w_classes ex_world)) with 2 in L2; lia).
  destruct C1 as [-> | ->], C2 as [-> | ->].
  all: match type of D1 with In _ ?l => let l' := eval vm_compute in l in change (In n1 l') in D1 end.
  all: match type of D2 with In _ ?l => let l' := eval vm_compute in l in change (In n2 l') in D2 end.
  all: cbn [In] in D1, D2.
  all: repeat destruct D1 as [<- | D1]; try contradiction; try (vm_compute in H1; discriminate H1).
  all: repeat destruct D2 as [<- | D2]; try contradiction; try (vm_compute in H2; discriminate H2); try reflexivity.
  all: vm_compute in H1, H2; congruence.
Qed.
