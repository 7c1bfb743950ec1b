(** C28: separate instances share no state. *)
From Coq Require Import String Ascii List ZArith NArith Bool.
From Verif Require Import PyBase PyVal XsdSimple XsdComplex XsdHeap SpecHeap PfHeap PfHeap2 ExEnv.
Import ListNotations.
Open Scope nat_scope.
Open Scope string_scope.
Open Scope list_scope.

(** Several parties create instances and lists, each in variables of its own, and
    none gives an object to another.  Where the groups referred to have neither
    lists nor references, no statement of one party ever changes what another
    sees, at the end of any path from any of its variables. *)
Theorem C28_separate_partial :
  forall O E num, simple_groups E -> numbered E num ->
  forall n (p : list (nat * stmt)) k (st : stmt) j x path, j <> k ->
  sees (step n O E num (run_all n O E num p) k st) j x path = sees (run_all n O E num p) j x path.
Proof. exact separate. Qed.
Print Assumptions C28_separate_partial.
(** With a list in a group: what one party appends to the list of its own
    instance is then in the list of the other's. *)
Theorem C28_group_refuted :
  forall O s n, let m := run_all (4 + n) O note_env note_num note_program in
  let m' := step (4 + n) O note_env note_num m 1 (SAppend "l" (Lit (VStr s))) in
  sees m 2 "n" [Attr "text"; Attr "lines"] = Items 0 /\
  sees m' 2 "n" [Attr "text"; Attr "lines"] = Items 1 /\
  sees m' 2 "n" [Attr "text"; Attr "lines"; Index 0] = Value (VStr s).
Proof. exact shared_list. Qed.
Print Assumptions C28_group_refuted.

(** The classes of the example; the changes of party 1 took place, and party 2
    has lists and groups too. *)
Example C28_nonvacuous :
  simple_groups heap_env /\ numbered heap_env heap_num /\
  sees heap_run 1 "f" [Attr "legs"] = Items 1 /\
  sees heap_run 1 "f" [Attr "legs"; Index 0; Attr "origin"] = Value (VStr "HAM") /\
  sees heap_run 1 "f" [Attr "extra"; Attr "note"] = Value (VStr "late") /\
  sees heap_run 2 "f" [Attr "legs"] = Items 0 /\
  sees heap_run 2 "f" [Attr "extra"; Attr "note"] = Value VNone.
Proof. split; [exact heap_simple|]. split; [exact heap_numbered|]. vm_compute. repeat split. Qed.
Example C28_refuted_nonvacuous : numbered note_env note_num /\ ~ simple_groups note_env.
Proof.
  split; [exact note_numbered|]. intros H.
  destruct (H "Note" cd_note _ "Lines" cd_lines _ eq_refl (or_introl eq_refl) eq_refl eq_refl eq_refl (or_introl eq_refl)) as [A _].
  now apply A.
Qed.
