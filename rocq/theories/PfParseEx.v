(** The example classes meet the hypotheses of C22 and C23. *)
From Coq Require Import String Ascii List ZArith NArith Bool Permutation.
From Verif Require Import PyBase Xml PyVal XsdSimple XsdComplex SpecParse ExEnv PfParse.
Import ListNotations.
Open Scope Z_scope.

Lemma ex_flight_level c' : level ex_env "Flight" c' -> c' = "Flight"%string \/ c' = "Extra"%string.
Proof.
  intros H. inversion H as [|? d f ct ? Hc Hf G T L]; subst; auto. injection Hc as <-.
  cbn in Hf. destruct Hf as [<-|[<-|[<-|[<-|[]]]]]; try discriminate. injection T as <-.
  inversion L as [|? d f ct ? Hc Hf G2 T L2]; subst; auto. injection Hc as <-.
  cbn in Hf. destruct Hf as [<-|[<-|[]]]; discriminate.
Qed.
Lemma ex_leg_level c' : level ex_env "Leg" c' -> c' = "Leg"%string.
Proof.
  intros H. inversion H as [|? d f ct ? Hc Hf G T L]; subst; auto. injection Hc as <-.
  cbn in Hf. destruct Hf as [<-|[<-|[]]]; discriminate.
Qed.
Lemma ex_flight_ordinary : ordinary ex_env "Flight".
Proof.
  intros c' d' L Hd. apply ex_flight_level in L as [-> | ->]; injection Hd as <-; (split; [discriminate|]);
    intros f Hf G; cbn in Hf; repeat (destruct Hf as [<-|Hf]; [try discriminate; eexists; reflexivity|]);
    destruct Hf.
Qed.
Lemma ex_leg_ordinary : ordinary ex_env "Leg".
Proof.
  intros c' d' L Hd. apply ex_leg_level in L as ->; injection Hd as <-; (split; [discriminate|]);
    intros f Hf G; cbn in Hf; repeat (destruct Hf as [<-|Hf]; [discriminate|]); destruct Hf.
Qed.
Lemma ex_flight_reads f : reads ex_env "Flight" f ->
  f = ex_elem "number" t_int \/ f = ex_list "legs" "leg" (TComplex "Leg") (Some 1) (OInt 3) \/
  f = ex_elem "note" t_str.
Proof.
  intros (c' & d' & L & Hd & Hf & P). apply ex_flight_level in L as [-> | ->]; injection Hd as <-;
    cbn in Hf; repeat (destruct Hf as [<-|Hf]; [try discriminate; auto|]); destruct Hf.
Qed.
Lemma ex_flight_reads_attr name : reads_attr ex_env "Flight" name -> name = "id"%string \/ name = "lang"%string.
Proof.
  intros (c' & d' & f & L & Hd & Hf & P & <-). apply ex_flight_level in L as [-> | ->]; injection Hd as <-;
    cbn in Hf; repeat (destruct Hf as [<-|Hf]; [try discriminate; auto|]); destruct Hf.
Qed.

Definition ex_noisy : node :=
  Elem (air "flight") [("id", "F1"); ("lang", "en"); ("x", "y")]%string
   [Elem (air "number") [] [Text "7"]; Comment "hi";
    Elem (air "leg") [] [Text "  "; Elem (air "origin") [] [Text "OSL"]; Elem (air "seats") [] [Text "180"]];
    Elem (air "leg") [] [Elem (air "origin") [] [Text "LHR"]; Elem (air "seats") [(xsi_nil, "true"%string)] []];
    Elem (air "weather") [] [Text "wet"];
    Elem (air "note") [] [Text "late"]].
Lemma ex_noise : noise ex_env "Flight" ex_flight_xml ex_noisy.
Proof.
  unfold ex_flight_xml, ex_noisy, ex_flight_kids.
  set (leg1 := Elem (air "leg") [] [Elem (air "origin") [] [Text "OSL"]; Elem (air "seats") [] [Text "180"]]).
  set (leg1' := Elem (air "leg") [] [Text "  "; Elem (air "origin") [] [Text "OSL"]; Elem (air "seats") [] [Text "180"]]).
  set (leg2 := Elem (air "leg") [] [Elem (air "origin") [] [Text "LHR"]; Elem (air "seats") [(xsi_nil, "true"%string)] []]).
  set (nb := Elem (air "number") [] [Text "7"]). set (nt := Elem (air "note") [] [Text "late"]).
  set (w := Elem (air "weather") [] [Text "wet"]).
  set (t := air "flight"). set (a := [("id", "F1"); ("lang", "en")]%string).
  apply nz_trans with (Elem t a [nb; Comment "hi"; leg1; leg2; nt]).
  { apply (nz_comment ex_env "Flight" t a [nb] [leg1; leg2; nt] "hi" ex_flight_ordinary). }
  apply nz_trans with (Elem t a [nb; Comment "hi"; leg1; leg2; w; nt]).
  { apply (nz_element ex_env "Flight" t a [nb; Comment "hi"; leg1; leg2] [nt] (air "weather") [] [Text "wet"] ex_flight_ordinary).
    intros f Hf N. apply belongs_names in N. apply ex_flight_reads in Hf as [->|[-> | ->]]; vm_compute in N; discriminate. }
  apply nz_trans with (Elem t a [nb; Comment "hi"; leg1'; leg2; w; nt]).
  { apply (nz_inside ex_env "Flight" t a [nb; Comment "hi"] [leg2; w; nt] leg1 leg1' (fun _ => "Leg"%string) ex_flight_ordinary).
    - intros f Hf N. apply belongs_names in N. apply ex_flight_reads in Hf as [->|[-> | ->]]; vm_compute in N; try discriminate.
      reflexivity.
    - intros f Hf N.
      apply (nz_text ex_env "Leg" (air "leg") [] [] [Elem (air "origin") [] [Text "OSL"]; Elem (air "seats") [] [Text "180"]] "  "
        ex_leg_ordinary).
    - exists (ex_list "legs" "leg" (TComplex "Leg") (Some 1) (OInt 3)). split.
      + exists "Flight"%string, cd_flight. repeat split; [constructor|]. cbn. auto.
      + apply belongs_names. vm_compute. reflexivity. }
  apply (nz_attribute ex_env "Flight" t a [] [nb; Comment "hi"; leg1'; leg2; w; nt] "x" "y" ex_flight_ordinary).
  - intros H. apply ex_flight_reads_attr in H as [|]; discriminate.
  - discriminate.
Qed.
Definition ex_shuffled : list node :=
  [Elem (air "note") [] [Text "late"];
   Elem (air "leg") [] [Elem (air "origin") [] [Text "OSL"]; Elem (air "seats") [] [Text "180"]];
   Elem (air "number") [] [Text "7"];
   Elem (air "leg") [] [Elem (air "origin") [] [Text "LHR"]; Elem (air "seats") [(xsi_nil, "true"%string)] []]].
Lemma ex_shuffle : Permutation ex_flight_kids ex_shuffled /\
  forall f, reads ex_env "Flight" f -> filter (belongs f) ex_flight_kids = filter (belongs f) ex_shuffled.
Proof.
  split.
  - unfold ex_flight_kids, ex_shuffled.
    match goal with |- Permutation [?a; ?b; ?c; ?d] _ => 
      apply (Permutation_trans (l' := [d; a; b; c]));
      [apply Permutation_sym; apply (Permutation_cons_append [a; b; c] d)|] end.
    apply perm_skip. apply perm_swap.
  - intros f Hf. apply ex_flight_reads in Hf as [->|[-> | ->]]; reflexivity.
Qed.
Lemma ex_noisy_parse :
  res_map erase (parse_obj 6 ex_oracle ex_env "Flight" ex_noisy) = Ok ex_flight.
Proof. vm_compute. reflexivity. Qed.
