(** The example classes have XML names. *)
From Coq Require Import String Ascii List ZArith NArith Bool.
From Verif Require Import PyBase Xml PyVal XsdSimple XsdComplex SpecRender ExEnv.
Import ListNotations.
Open Scope Z_scope.

Lemma ex_names_ok : names_ok ex_env.
Proof.
  intros c d f Hc Hf. cbn [e_cls ex_env assoc] in Hc.
  repeat (destruct (String.eqb c _) in Hc; [injection Hc as <-; cbn in Hf;
    repeat (destruct Hf as [<-|Hf]; [split; [vm_compute; reflexivity|split;
      [intros K tg [= <-]; first [discriminate K | vm_compute; reflexivity]|
       intros K; first [discriminate K | eexists; reflexivity]]]|]); destruct Hf|]).
  discriminate.
Qed.
