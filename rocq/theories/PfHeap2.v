(** Shared state: an example, and the counterexample with a list in a group. *)
From Coq Require Import String Ascii List ZArith NArith Bool Lia.
From Verif Require Import PyBase PyVal XsdSimple XsdComplex XsdHeap SpecHeap PfBase ExEnv.
Import ListNotations.
Open Scope nat_scope.
Open Scope string_scope.
Open Scope list_scope.

(** Flight, with a list, a group and a subclass (see ExEnv.v). *)
Definition heap_env : env :=
  mkEnv (fun c => assoc c [("Leg", cd_leg); ("Extra", cd_extra); ("Flight", cd_flight); ("Charter", cd_charter)]) 50.
(** The position of a field in its class; a subclass shares the fields it
    inherits. *)
Fixpoint position (l : list field) (n : string) : nat :=
  match l with [] => O | f :: t => if String.eqb (f_name f) n then O else S (position t n) end.
Definition heap_num (c n : string) : nat :=
  match e_cls heap_env c with
  | Some d => (if String.eqb c "Leg" then 0 else if String.eqb c "Extra" then 10 else 20) + position (cd_fields d) n
  | None => 100
  end.
Lemma heap_class c d : e_cls heap_env c = Some d -> (c, d) = ("Leg", cd_leg) \/ (c, d) = ("Extra", cd_extra) \/ (c, d) = ("Flight", cd_flight) \/ (c, d) = ("Charter", cd_charter).
Proof.
  cbn [heap_env e_cls assoc]. repeat (match goal with |- context [String.eqb ?a ?b] => destruct (String.eqb_spec a b) end; [intros [= <-]; subst; auto 6|]). discriminate.
Qed.
Lemma heap_simple : simple_groups heap_env.
Proof.
  intros c d f ct dt g Hc If K T Hd Ig.
  assert (ct = "Extra").
  { destruct (heap_class c d Hc) as [E | [E | [E | E]]]; injection E as -> ->; cbn in If;
      repeat (destruct If as [<- | If]; [cbn in K, T; (discriminate || congruence)|]); destruct If. }
  subst ct. injection Hd as <-. cbn in Ig. destruct Ig as [<- | [<- | []]]; split; discriminate.
Qed.
Lemma heap_numbered : numbered heap_env heap_num.
Proof.
  intros c d f c' d' f' Hc If Hc' If'.
  destruct (heap_class c d Hc) as [E | [E | [E | E]]]; injection E as -> ->;
  destruct (heap_class c' d' Hc') as [E | [E | [E | E]]]; injection E as -> ->; cbn in If, If';
    repeat (destruct If as [<- | If]; [repeat (destruct If' as [<- | If']; [intros H; (reflexivity || (exfalso; vm_compute in H; discriminate))|]); destruct If'|]); destruct If.
Qed.

(** Two parties, each with a flight; the first fills its own. *)
Definition heap_program : list (nat * stmt) :=
  [(1, SNew "f" "Flight"); (2, SNew "f" "Charter"); (1, SNew "leg" "Leg"); (1, SSet "leg" "origin" (Lit (VStr "HAM")));
   (1, SGet "legs" "f" "legs"); (1, SAppend "legs" (Var "leg")); (1, SGet "x" "f" "extra"); (1, SSet "x" "note" (Lit (VStr "late")))].
Definition heap_run : machine := run_all 8 ex_oracle heap_env heap_num heap_program.

(** ** A list in a group *)
(** [class Lines(Group): lines = ListElement(String, 'line')];
    [class Memo(ComplexType): text = Ref(Lines)] *)
Definition cd_lines : classdef := mkClass ["Lines"] CKGroup [ex_list "lines" "line" t_str (Some 0%Z) ONone] ISequence (Some ex_si).
Definition cd_note : classdef := mkClass ["Note"] CKPlain [ex_ref "text" (TComplex "Lines")] ISequence (Some ex_si).
Definition note_env : env := mkEnv (fun c => assoc c [("Lines", cd_lines); ("Note", cd_note)]) 50.
Definition note_num (c n : string) : nat := if String.eqb c "Lines" then 0 else 1.
Definition note_program : list (nat * stmt) :=
  [(1, SNew "n" "Note"); (2, SNew "n" "Note"); (1, SGet "t" "n" "text"); (1, SGet "l" "t" "lines")].
Lemma note_numbered : numbered note_env note_num.
Proof.
  intros c d f c' d' f'. cbn [note_env e_cls assoc].
  destruct (String.eqb_spec c "Lines") as [->|N1]; [|destruct (String.eqb_spec c "Note") as [->|N2]; [|discriminate]];
  (destruct (String.eqb_spec c' "Lines") as [->|N1']; [|destruct (String.eqb_spec c' "Note") as [->|N2']; [|discriminate]]);
  intros [= <-] [<- | []] [= <-] [<- | []] H; reflexivity || discriminate.
Qed.
Lemma shared_list O s n : let m := run_all (4 + n) O note_env note_num note_program in
  let m' := step (4 + n) O note_env note_num m 1 (SAppend "l" (Lit (VStr s))) in
  sees m 2 "n" [Attr "text"; Attr "lines"] = Items 0 /\
  sees m' 2 "n" [Attr "text"; Attr "lines"] = Items 1 /\
  sees m' 2 "n" [Attr "text"; Attr "lines"; Index 0] = Value (VStr s).
Proof. vm_compute. repeat split. Qed.
