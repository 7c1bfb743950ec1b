(** Making a dispatcher, continued: the walk and the requests. *)
From Coq Require Import String Ascii List ZArith Bool Lia Arith.
From Verif Require Import PyBase Xml PyVal XsdSimple XsdComplex XsdSchema PyHttp Soap Client Dispatch LibClasses Py2Xsd Py2Wsdl
  SpecParse SpecSchema SpecSimple SpecHttp SpecDispatch SpecXsd SpecGenWsdl Serve SpecServe PfBase PfSchema PfServe
  PfDispatch PfDispatch2 PfDispatch3 PfNames PfRender PfXsd PfGenWsdl2.
Import ListNotations.
Open Scope nat_scope.
Open Scope string_scope.
Open Scope list_scope.

(** ** The walk, where only what it meets matters *)
Section Walk.
  Context {A : Type} (G : sgraph) (cb : nat -> res A) (Q : nat -> Prop).
  Hypothesis closed : forall s t, Q s -> imports_of G s t -> Q t.
  Hypothesis cb_ok : forall s, Q s -> exists a, cb s = Ok a.
  Notation st := (list (option string * A) * list nat)%type.
  Lemma walk_total' (L : list (option string)) (HL : forall s, Q s -> In (s_location (G s)) L) n : forall roots (x : st),
    (forall s t, In s roots -> imports_of G s t -> Q t) -> NoDup (map fst (fst x)) -> incl (map fst (fst x)) L ->
    length L + 1 <= n + length (fst x) -> exists y, walk n G cb roots x = Ok y /\ NoDup (map fst (fst y)) /\ incl (map fst (fst y)) L /\
      length (fst x) <= length (fst y).
  Proof.
    induction n as [|n IH]; intros roots x HR ND I Hn.
    { pose proof (NoDup_incl_length ND I). rewrite map_length in *. lia. }
    assert (X : exists y, walk (S n) G cb roots x = Ok y /\ (NoDup (map fst (fst y)) /\ incl (map fst (fst y)) L /\ length (fst x) <= length (fst y))).
    { cbn [walk].
      assert (OUT : forall {B} (step : st -> B -> res st) (R : list B), (forall z b, In b R -> NoDup (map fst (fst z)) -> incl (map fst (fst z)) L ->
            length (fst x) <= length (fst z) -> exists z', step z b = Ok z' /\ NoDup (map fst (fst z')) /\ incl (map fst (fst z')) L /\ length (fst z) <= length (fst z')) ->
          forall z, NoDup (map fst (fst z)) -> incl (map fst (fst z)) L -> length (fst x) <= length (fst z) ->
          exists z', foldM step z R = Ok z' /\ NoDup (map fst (fst z')) /\ incl (map fst (fst z')) L /\ length (fst z) <= length (fst z')).
      { intros B step R. induction R as [|b R IHR]; intros Hst z N1 I1 L1; cbn; [exists z; auto|].
        destruct (Hst z b (or_introl eq_refl) N1 I1 L1) as (z1 & -> & N2 & I2 & L2). cbn.
        destruct (IHR (fun z b Hb => Hst z b (or_intror Hb)) z1 N2 I2) as (z2 & -> & N3 & I3 & L3); [lia|].
        exists z2. repeat split; auto. lia. }
      apply OUT; auto. intros z s Hs N1 I1 L1. apply OUT; auto. clear z N1 I1 L1.
      intros z t Ht N1 I1 L1. cbn [fst snd]. destruct (loc_in (s_location (G t)) (fst z)) eqn:Lc; [exists z; auto|].
      apply child_in in Ht. assert (Qt : Q t) by (eapply HR; eauto).
      destruct (cb_ok t Qt) as (a & ->). cbn [bind].
      destruct (IH [t] (fst z ++ [(s_location (G t), a)], snd z ++ [t])) as (y & Y & N2 & I2 & L2).
      - intros s0 t0 [<- | []] J. exact (closed _ _ Qt J).
      - cbn. rewrite map_app. apply NoDup_app_intro; auto; [repeat constructor; auto|].
        intros l Hl [<-|[]]. apply loc_in_iff in Hl. cbn in Hl. congruence.
      - cbn. rewrite map_app. apply incl_app; auto. intros l [<-|[]]. now apply HL.
      - cbn. rewrite app_length. cbn. lia.
      - exists y. repeat split; auto. cbn in L2. rewrite app_length in L2. lia. }
    destruct X as (y & Y & N & J & Len). eauto.
  Qed.
End Walk.

Lemma below_step G roots s t : below G roots s -> imports_of G s t -> below G roots t.
Proof.
  intros (r & u & Hr & I & R) It. exists r, u. repeat split; auto. eapply reaches_trans; [exact R|]. econstructor; [exact It|constructor].
Qed.
Lemma below_first G roots s t : In s roots -> imports_of G s t -> below G roots t.
Proof. intros Hs I. exists s, t. repeat split; auto. constructor. Qed.
Lemma loc_get_in {A} l (m : list (option string * A)) a : NoDup (map fst m) -> In (l, a) m -> loc_get l m = Some a.
Proof.
  induction m as [|[l' a'] m IH]; [intros _ []|]. cbn [map fst]. intros N [H|H]; cbn [loc_get].
  - injection H as -> ->. rewrite (proj2 (loc_eqb_eq l l) eq_refl). reflexivity.
  - inversion N as [|? ? N1 N2]; subst. destruct (loc_eqb l l') eqn:Q; [|auto]. apply loc_eqb_eq in Q as <-. exfalso. apply N1. apply in_map_iff. exists (l, a). auto.
Qed.
Lemma loc_get_some {A} l (m : list (option string * A)) a : loc_get l m = Some a -> In (l, a) m.
Proof.
  induction m as [|[l' a'] m IH]; [discriminate|]. cbn [loc_get]. destruct (loc_eqb l l') eqn:Q; intros H.
  - apply loc_eqb_eq in Q as ->. injection H as ->. now left.
  - right. auto.
Qed.
Lemma Forall2_in_r {A B} (R : A -> B -> Prop) l m y : Forall2 R l m -> In y m -> exists x, In x l /\ R x y.
Proof. induction 1; intros []; subst; [eexists; split; [now left|auto]|]. destruct IHForall2 as (z & ? & ?); auto. exists z. split; auto. now right. Qed.

(** What the walk collects, when every schema met has a location of its own. *)
Lemma walk_table {A} G (cb : nat -> res A) (f : nat -> A) roots L n :
  (forall t, below G roots t -> cb t = Ok (f t)) -> (forall t, below G roots t -> In (s_location (G t)) L) -> length L < n ->
  (forall s t, below G roots s -> below G roots t -> s_location (G s) = s_location (G t) -> s = t) ->
  exists r, walk_schema_tree n G cb roots = Ok r /\
    (forall t, below G roots t -> loc_get (s_location (G t)) (fst r) = Some (f t)) /\
    (forall l a, loc_get l (fst r) = Some a -> exists t, below G roots t /\ s_location (G t) = l /\ a = f t).
Proof.
  intros Hcb HL Hn Inj. destruct (walk_total' G cb (below G roots) (below_step G roots)) with (L := L) (n := n) (roots := roots) (x := (@nil (option string * A), @nil nat)) as (r & Hr & _).
  - intros s Hs. exists (f s). auto.
  - exact HL.
  - intros s t Hs I. eapply below_first; eauto.
  - constructor.
  - intros l [].
  - cbn. lia.
  - exists r. split; [exact Hr|]. destruct (walk_spec _ _ _ _ _ Hr) as (N & F & B). rewrite Forall_forall in B. split.
    + intros t Ht. apply (walk_complete _ _ _ _ _ Hr Inj) in Ht as Hin. destruct (Forall2_in_r _ _ _ _ F Hin) as ((l & a) & Ha & E1 & E2). cbn in E1, E2.
      rewrite (Hcb t Ht) in E2. injection E2 as <-. apply loc_get_in; [exact N|]. now rewrite <- E1.
    + intros l a H. apply loc_get_some in H. destruct (Forall2_in_l _ _ _ _ F H) as (t & Ht & E1 & E2). cbn in E1, E2. exists t. split; [auto|]. split; [auto|].
      rewrite (Hcb t (B t Ht)) in E2. now injection E2.
Qed.

(** ** Queries *)
Lemma unquote_plain l : (forall c, In c ["+"%char; "%"%char] -> ~ In c l) -> unquote_l l = l.
Proof.
  induction l as [|c l IH]; intros H; [reflexivity|]. cbn [unquote_l].
  destruct (Ascii.eqb_spec c "+"); [subst; exfalso; apply (H "+"%char); cbn; auto|].
  destruct (Ascii.eqb_spec c "%"); [subst; exfalso; apply (H "%"%char); cbn; auto|].
  f_equal. apply IH. intros c' Hc' I. apply (H c' Hc'). now right.
Qed.
Lemma to_l_app s t : to_l (s ++ t)%string = to_l s ++ to_l t.
Proof. induction s as [|c s IH]; [reflexivity|]. cbn. f_equal. exact IH. Qed.
Lemma parse_query l : plain_location l -> parse_qsl (query l) = [("xsd", l)].
Proof.
  intros (_ & H). unfold parse_qsl, query. rewrite to_l_app. rewrite split_one.
  - cbn [flat_map app]. change (to_l "xsd=") with (["x"; "s"; "d"]%char ++ ["="]%char). rewrite <- app_assoc. cbn [app].
    change ("x" :: "s" :: "d" :: "=" :: to_l l)%char with (["x"; "s"; "d"]%char ++ "="%char :: to_l l).
    rewrite partition_l_app by (cbn; intuition discriminate). cbn [app].
    rewrite (unquote_plain (to_l l)); [now rewrite of_to|]. intros c Hc. apply H. cbn in *. intuition.
  - intros I. apply in_app_iff in I as [I|I]; [cbn in I; intuition discriminate|]. apply (H "&"%char); cbn; auto.
Qed.
