(** A service whose schemas import each other. *)
From Coq Require Import String Ascii List ZArith NArith Bool.
From Verif Require Import PyBase PyRe Xml PyVal XsdSimple XsdComplex XsdSchema PyHttp Soap Client Dispatch ExEnv LibClasses Py2Xsd SpecXsd SpecFacets ExXsd ExSoap
  Py2Wsdl SpecGenWsdl SpecSchema SpecHttp SpecDispatch Serve SpecServe PfServe.
Import ListNotations.
Open Scope string_scope.
Open Scope list_scope.
Open Scope nat_scope.

(** Schema 0 imports 1 and includes 2; schema 1 imports 0 and includes 2. *)
Definition v_graph (loc : string) : sgraph := fun i =>
  match i with
  | 0 => mkSchema (Some "urn:a") "qualified" [] [1] [2] (Some "a.xsd")
  | 1 => mkSchema (Some "urn:b") "qualified" [] [0] [2] (Some loc)
  | _ => mkSchema (Some "urn:a") "qualified" [] [] [] (Some "c.xsd")
  end.
Definition v_parts (i : nat) : gschema :=
  mkGs (match i with 1 => "urn:b" | _ => "urn:a" end) "qualified" [] [] [] [] [("tag", mkGel (TComplex "Item") true None)].
Definition v_service (roots : list nat) : full_service unit :=
  mkFull (mkService V11 roots [mkMethod "tag" "urn:tag" (IOName "tag") (IOName "tag") None None None] None (fun _ w _ => (w, Ok (RPay (PVal VNone)))))
    "Shop" "urn:shopping" "http://example.org/shop" (fun _ => "document").
(** Something to see of a document. *)
Definition v_show (d : xdocument) : string := String.concat " " (map snd (xd_prefixes d)).
Definition v_valid (x : node) : res unit := Ok tt.
Definition v_compile (r : string -> res xdocument) (d : xdocument) : res (node -> res unit) := Ok v_valid.

Lemma v_reach loc t : below (v_graph loc) [0] t -> t = 0 \/ t = 1 \/ t = 2.
Proof.
  assert (I : forall s u, s = 0 \/ s = 1 \/ s = 2 -> imports_of (v_graph loc) s u -> u = 0 \/ u = 1 \/ u = 2).
  { intros s u [-> | [-> | ->]] [H|H]; cbn in H; intuition. }
  assert (R : forall s u, reaches (v_graph loc) s u -> s = 0 \/ s = 1 \/ s = 2 -> u = 0 \/ u = 1 \/ u = 2).
  { induction 1; eauto. }
  intros (s & u & [<- | []] & H & Hr). apply (R u t Hr). apply (I 0 u); auto.
Qed.
Lemma v_all : forall t, t = 0 \/ t = 1 \/ t = 2 -> below (v_graph "b.xsd") [0] t.
Proof.
  intros t [-> | [-> | ->]].
  - exists 0, 1. repeat split; [now left|left; now left|]. apply re_step with 0; [left; now left|constructor].
  - exists 0, 1. repeat split; [now left|left; now left|]. constructor.
  - exists 0, 2. repeat split; [now left|right; now left|]. constructor.
Qed.
Lemma v_describable t : t = 0 \/ t = 1 \/ t = 2 -> schema_describable ex_oracle x_env x_decls (schema_object (v_graph "b.xsd") v_parts t).
Proof.
  intros [-> | [-> | ->]]; (split; [reflexivity|]; split; [now left|]; split; [|split; [|split; [constructor|split; [constructor|]]]]).
  all: cbn; repeat constructor; cbn; try discriminate; try (intros l [= <-]; reflexivity).
  all: try (eexists; split; [reflexivity|]; repeat split; try discriminate; try reflexivity).
Qed.
Lemma v_service_describable : service_describable ex_oracle x_env x_decls (service_object (v_graph "b.xsd") v_parts (v_service [0])).
Proof.
  split; [reflexivity|]. split; [reflexivity|]. split; [reflexivity|]. split; [discriminate|]. split.
  - apply Forall_cons; [|apply Forall_nil]. apply v_describable. auto.
  - apply Forall_cons; [|apply Forall_nil]. repeat (split; [first [reflexivity | split; [discriminate|reflexivity]]|]). now left.
Qed.
Lemma v_located : well_located (v_graph "b.xsd") [0].
Proof.
  split.
  - intros t H. apply v_reach in H as [-> | [-> | ->]]; (eexists; split; [reflexivity|]; split; [discriminate|]; intros c Hc I; vm_compute in I; cbn in Hc; intuition congruence).
  - intros s t Hs Ht. apply v_reach in Hs as [-> | [-> | ->]]; apply v_reach in Ht as [-> | [-> | ->]]; cbn; intros [=]; reflexivity.
Qed.
Lemma plus_lost :
  exists D, new_dispatcher 10 ex_oracle (lib_env 0) x_env x_decls (v_graph "a+b.xsd") v_parts v_show v_compile (v_service [0]) None None None None true = Ok (D, v_valid) /\
    refers_to (describe_service ex_oracle x_env x_decls (service_with_links (service_object (v_graph "a+b.xsd") v_parts (v_service [0])))) (link "a+b.xsd") /\
    exists rs, dispatch echo_P D tt (echo_get (query "a+b.xsd")) = (tt, [], Ok rs) /\ rs_content rs = Some "not_found".
Proof.
  eexists. split; [vm_compute; reflexivity|]. split.
  - apply service_refers. eexists. split; [now left|]. apply schema_refers. split; [discriminate|]. left. eexists. now left.
  - eexists. split; vm_compute; reflexivity.
Qed.
