(** Properties C35, C36: lookup along imports and the walk over schemas. *)
From Coq Require Import String Ascii List ZArith NArith Bool Lia.
From Verif Require Import PyBase Xml PyVal XsdSimple XsdComplex XsdSchema SpecSchema PfSchema.
Import ListNotations.

(** ** C35 *)
(** When imports do not form a cycle, the lookup returns the first declaration
    in depth-first order, or None. *)
Theorem C35_first_declaration_partial :
  forall G s0 rank name n, (forall s t, reaches G s0 s -> imports_of G s t -> rank t < rank s) -> rank s0 < n ->
  exists l, depth_first G s0 l /\ (forall t, In t l <-> reaches G s0 t) /\
    get_element n G s0 name = Ok (first_declaration G name l).
Proof. exact lookup_acyclic_from. Qed.
Print Assumptions C35_first_declaration_partial.
(** On every graph, cyclic or not, an answer that is returned is right. *)
Theorem C35_answer_partial :
  forall G name n s r, get_element n G s name = Ok r ->
  match r with
  | Some e => exists t, reaches G s t /\ In (name, e) (s_elements (G t))
  | None => forall t, reaches G s t -> ~ declares G t name
  end.
Proof. exact get_element_sound. Qed.
Print Assumptions C35_answer_partial.
(** On a cyclic graph, looking up a name that is not declared never returns. *)
Theorem C35_cycle_refuted :
  forall G name n s, endless G s -> (forall t, reaches G s t -> ~ declares G t name) ->
  forall r, get_element n G s name <> Ok r.
Proof. exact endless_never. Qed.
Print Assumptions C35_cycle_refuted.

(** A diamond: 0 imports 1 and includes 2, both import 3; 2 and 3 declare "b". *)
Definition ex_el (t : string) : selement := mkSel (TComplex t) None.
Definition ex_diamond : sgraph := fun s =>
  match s with
  | 0 => mkSchema (Some "urn:a") "qualified" [("a", ex_el "A")] [1] [2] (Some "a.xsd")
  | 1 => mkSchema (Some "urn:b") "qualified" [] [3] [] (Some "b.xsd")
  | 2 => mkSchema (Some "urn:a") "qualified" [("b", ex_el "B2")] [3] [] (Some "a2.xsd")
  | 3 => mkSchema (Some "urn:c") "qualified" [("b", ex_el "B3")] [] [] (Some "c.xsd")
  | _ => mkSchema None "qualified" [] [] [] None
  end%string.
Definition ex_loop : sgraph := fun s =>
  match s with
  | 0 => mkSchema (Some "urn:a") "qualified" [("a", ex_el "A")] [1] [] (Some "a.xsd")
  | _ => mkSchema (Some "urn:b") "qualified" [("b", ex_el "B")] [] [0] (Some "b.xsd")
  end%string.
Example C35_nonvacuous :
  (forall s t, reaches ex_diamond 0 s -> imports_of ex_diamond s t -> 4 - t < 4 - s) /\
  depth_first ex_diamond 0 [0; 1; 3; 2; 3] /\
  get_element 5 ex_diamond 0 "b" = Ok (Some (ex_el "B3")) /\ get_element 5 ex_diamond 0 "z" = Ok None /\
  get_element 5 ex_loop 0 "b" = Ok (Some (ex_el "B")) /\
  endless ex_loop 0 /\ (forall t, reaches ex_loop 0 t -> ~ declares ex_loop t "z").
Proof.
  split.
  { intros s t _ [H|H]; destruct s as [|[|[|[|s]]]]; cbn in H; repeat (destruct H as [<-|H]); try destruct H; lia. }
  split.
  { assert (D3 : depth_first ex_diamond 3 [3]) by (apply (df_node ex_diamond 3 []); constructor).
    assert (D1 : depth_first ex_diamond 1 [1; 3]) by (apply (df_node ex_diamond 1 [[3]]); repeat constructor; auto).
    assert (D2 : depth_first ex_diamond 2 [2; 3]) by (apply (df_node ex_diamond 2 [[3]]); repeat constructor; auto).
    apply (df_node ex_diamond 0 [[1; 3]; [2; 3]]). repeat constructor; auto. }
  repeat (split; [reflexivity|]). split.
  { exists (fun i => if Nat.even i then 0 else 1). split; auto. intros i.
    rewrite Nat.even_succ, <- Nat.negb_even. destruct (Nat.even i); [left|right]; cbn; auto. }
  intros t _ (e & H). destruct t; cbn in H; destruct H as [H|[]]; discriminate H.
Qed.

(** ** C36 *)
(** The callback is called once per key of the result, with a schema below the
    given ones that has that location, and no location twice. *)
Theorem C36_once_partial :
  forall A G (callback : nat -> res A) n roots seen calls,
  walk_schema_tree n G callback roots = Ok (seen, calls) ->
  NoDup (map fst seen) /\ NoDup calls /\
  Forall2 (fun p s => fst p = s_location (G s) /\ callback s = Ok (snd p)) seen calls /\
  (forall t, In t calls -> below G roots t).
Proof. exact @walk_spec2. Qed.
Print Assumptions C36_once_partial.
(** When different schemas have different locations, every schema below the
    given ones is visited. *)
Theorem C36_complete_partial :
  forall A G (callback : nat -> res A) n roots y, walk_schema_tree n G callback roots = Ok y ->
  (forall s t, below G roots s -> below G roots t -> s_location (G s) = s_location (G t) -> s = t) ->
  forall t, below G roots t <-> In t (snd y).
Proof. exact @walk_complete. Qed.
Print Assumptions C36_complete_partial.
(** The walk ends on every graph, cyclic or not, with finitely many locations. *)
Theorem C36_terminates :
  forall A G (callback : nat -> res A) L n roots, (forall s, exists a, callback s = Ok a) ->
  (forall s t, imports_of G s t -> In (s_location (G t)) L) -> length L < n ->
  exists y, walk_schema_tree n G callback roots = Ok y.
Proof. exact @walk_terminates. Qed.
Print Assumptions C36_terminates.
(** Two schemas with the same location (for instance none) are not both visited. *)
Theorem C36_same_location_refuted :
  forall A G (callback : nat -> res A) n roots seen calls s t,
  walk_schema_tree n G callback roots = Ok (seen, calls) -> s <> t -> s_location (G s) = s_location (G t) ->
  ~ (In s calls /\ In t calls).
Proof. exact @walk_same_location. Qed.
Print Assumptions C36_same_location_refuted.

(** Two schemas without location: what the second one imports is lost. *)
Definition ex_unlocated : sgraph := fun s =>
  match s with
  | 0 => mkSchema (Some "urn:a") "qualified" [] [1; 2] [] (Some "a.xsd")
  | 1 => mkSchema (Some "urn:b") "qualified" [] [] [] None
  | 2 => mkSchema (Some "urn:c") "qualified" [] [3] [] None
  | _ => mkSchema (Some "urn:d") "qualified" [] [] [] (Some "d.xsd")
  end%string.
Example C36_nonvacuous :
  walk_schema_tree 5 ex_diamond (fun s => Ok s) [0] =
    Ok ([(Some "b.xsd", 1); (Some "c.xsd", 3); (Some "a2.xsd", 2)]%string, [1; 3; 2]) /\
  (forall s t, below ex_diamond [0] s -> below ex_diamond [0] t ->
     s_location (ex_diamond s) = s_location (ex_diamond t) -> s = t) /\
  walk_schema_tree 5 ex_loop (fun s => Ok s) [0] = Ok ([(Some "b.xsd", 1); (Some "a.xsd", 0)]%string, [1; 0]) /\
  walk_schema_tree 5 ex_unlocated (fun s => Ok s) [0] = Ok ([(None, 1)], [1]) /\ below ex_unlocated [0] 3.
Proof.
  split; [reflexivity|]. split.
  { assert (R : forall s t, reaches ex_diamond s t -> s < 4 -> t < 4).
    { induction 1 as [s|s t u I R IH]; auto. intros Hs. apply IH.
      destruct I as [I|I]; destruct s as [|[|[|[|s]]]]; cbn in I; repeat (destruct I as [<-|I]); try destruct I; lia. }
    assert (B : forall t, below ex_diamond [0] t -> t < 4).
    { intros t (s & u & [<-|[]] & I & Ru). apply (R u); auto.
      destruct I as [I|I]; cbn in I; repeat (destruct I as [<-|I]); try destruct I; lia. }
    intros s t Hs Ht. apply B in Hs, Ht. destruct s as [|[|[|[|s]]]]; try lia; destruct t as [|[|[|[|t]]]]; try lia; cbn; congruence. }
  split; [reflexivity|]. split; [reflexivity|].
  exists 0, 2. split; [now left|]. split; [left; cbn; auto|]. apply re_step with 3; [left; cbn; auto|constructor].
Qed.
