(** C102: which schema a class belongs to, over the history of a program. *)
From Coq Require Import String Ascii List ZArith NArith Bool.
From Verif Require Import PyBase PyVal Xml XsdSimple XsdComplex ExEnv SchemaHist SpecSchemaHist PfSchemaHist.
Import ListNotations.
Open Scope nat_scope.
Open Scope string_scope.
Open Scope list_scope.

(** After any sequence of Schema() calls a class belongs to the schema of the last
    call that names it or, if none does, to that of its next base; *)
Theorem C102_last : forall P given calls mro s,
  belongs P calls mro s <-> schema_at (run_calls P given calls) mro = s.
Proof. exact schema_belongs. Qed.
Print Assumptions C102_last.

(** an Element object keeps the namespace it was made with; one without gets that
    of the first schema that has it, and none before; *)
Theorem C102_element : forall P given e,
  (forall n calls, num_assoc e given = Some n -> num_assoc e (h_ns (run_calls P given calls)) = Some n) /\
  (forall before call after, num_assoc e given = None -> (forall c, In c before -> ~ has_element c e) -> has_element call e ->
     num_assoc e (h_ns (run_calls P given (before ++ call :: after))) = Some (sc_tns call)) /\
  (forall calls, num_assoc e given = None -> (forall c, In c calls -> ~ has_element c e) ->
     num_assoc e (h_ns (run_calls P given calls)) = None).
Proof. exact (fun P given e => conj (fun n calls => element_given P given calls e n) (conj (fun b c a => element_first P given b c a e) (fun calls => element_none P given calls e))). Qed.
Print Assumptions C102_element.

(** what documents are read as, and what classes make, is the same whatever
    schemas were made; *)
Theorem C102_reading : forall h h' n O E c x,
  parse_obj n O (env_now h E) c x = parse_obj n O (env_now h' E) c x.
Proof. exact reading_same. Qed.
Print Assumptions C102_reading.
Theorem C102_making : forall h h' O E c kw,
  construct O (env_now h E) c kw = construct O (env_now h' E) c kw.
Proof. exact making_same. Qed.
Print Assumptions C102_making.

(** and a schema that names none of the classes, nor of their bases, changes
    nothing of what objects are written as. *)
Theorem C102_writing_partial : forall P given calls call n O E v tag ns efd,
  (forall c d k, e_cls E c = Some d -> In k (cd_mro d) -> ~ names_class P call k) ->
  xml_of n O (env_now (run_calls P given (calls ++ [call])) E) v tag ns efd =
  xml_of n O (env_now (run_calls P given calls) E) v tag ns efd.
Proof. exact writing_same. Qed.
Print Assumptions C102_writing_partial.

(** Without that it fails: naming a class in a second schema changes what objects
    that exist are written as, while an element of that class keeps the namespace
    of the first. *)
Definition ex_call (tns : string) : schema_call := mkCall tns "qualified" [] [] [] ["Leg"] [("leg", 0)] None.
Definition ex_passed (_ : nat) : passed := PClass "Leg".
Theorem C102_writing_refuted :
  ~ (forall P given calls call n O E v tag ns efd,
       xml_of n O (env_now (run_calls P given (calls ++ [call])) E) v tag ns efd =
       xml_of n O (env_now (run_calls P given calls) E) v tag ns efd) /\
  num_assoc 0 (h_ns (run_calls ex_passed [] [ex_call "urn:a"; ex_call "urn:b"])) = Some "urn:a" /\
  xml_of 9 ex_oracle (env_now (run_calls ex_passed [] [ex_call "urn:a"; ex_call "urn:b"]) ex_env) (ex_leg "OSL" (VInt 180)) "leg" (Some "urn:a") (Some "qualified")
    = Ok (Elem "{urn:a}leg" [] [Elem "{urn:b}origin" [] [Text "OSL"]; Elem "{urn:b}seats" [] [Text "180"]]).
Proof.
  split; [intros H; discriminate (H ex_passed [] [ex_call "urn:a"] (ex_call "urn:b") 9 ex_oracle ex_env (ex_leg "OSL" (VInt 180)) "leg" None (Some "qualified"))|].
  split; vm_compute; reflexivity.
Qed.
Print Assumptions C102_writing_refuted.

(** A Schema() call that raises is not without effect: the classes it names belong
    to the schema that nobody got. *)
Theorem C102_raises_refuted : forall P given calls call e c bases,
  sc_raises call = Some e -> names_class P call c ->
  snd (make_schema P (run_calls P given calls) call) = Some e /\
  schema_at (fst (make_schema P (run_calls P given calls) call)) (c :: bases) =
    Some {| si_tns := Some (sc_tns call); si_efd := sc_efd call |}.
Proof. exact raised_takes. Qed.
Print Assumptions C102_raises_refuted.

(** A class derived from one that a schema names, an element given an instance, and
    a second schema for it only. *)
Definition ex_calls : list schema_call :=
  [mkCall "urn:a" "qualified" [] [] [] ["Flight"] [] None;
   mkCall "urn:b" "unqualified" [] [] [] [] [("charter", 1)] None;
   mkCall "urn:c" "qualified" ["Code"] [] [] ["Leg"] [("charter", 1)] (Some ValueError)].
Definition ex_given (e : nat) : passed := match e with 1 => PObject "Charter" | _ => PText "string" end.
Example C102_nonvacuous :
  schema_at (run_calls ex_given [] (firstn 1 ex_calls)) ["Charter"; "Flight"] = Some {| si_tns := Some "urn:a"; si_efd := "qualified" |} /\
  schema_at (run_calls ex_given [] (firstn 2 ex_calls)) ["Charter"; "Flight"] = Some {| si_tns := Some "urn:b"; si_efd := "unqualified" |} /\
  schema_at (run_calls ex_given [] ex_calls) ["Charter"; "Flight"] = Some {| si_tns := Some "urn:c"; si_efd := "qualified" |} /\
  schema_at (run_calls ex_given [] ex_calls) ["Flight"] = Some {| si_tns := Some "urn:a"; si_efd := "qualified" |} /\
  schema_at (run_calls ex_given [] ex_calls) ["Leg"] = Some {| si_tns := Some "urn:c"; si_efd := "qualified" |} /\
  schema_at (run_calls ex_given [] ex_calls) ["Memo"] = None /\
  num_assoc 1 (h_ns (run_calls ex_given [] ex_calls)) = Some "urn:b" /\
  num_assoc 1 (h_ns (run_calls ex_given [(1, "urn:z")] ex_calls)) = Some "urn:z" /\
  xml_of 9 ex_oracle (env_now (run_calls ex_given [] ex_calls) ex_env) (ex_leg "OSL" (VInt 180)) "leg" None (Some "qualified")
    = Ok (Elem "leg" [] [Elem "{urn:c}origin" [] [Text "OSL"]; Elem "{urn:c}seats" [] [Text "180"]]) /\
  (forall c d k, e_cls ex_env c = Some d -> In k (cd_mro d) -> ~ names_class ex_given (mkCall "urn:d" "qualified" ["Code"] [] [] ["Other"] [] None) k).
Proof.
  do 9 (split; [vm_compute; reflexivity|]). intros c d k Hd Hk N. unfold ex_env in Hd; cbn [e_cls] in Hd.
  assert (K : In k ["Leg"; "Extra"; "Flight"; "Charter"; "Booking"; "Tags"; "Tagged"; "Result"; "Order"; "Memo"]).
  { unfold assoc in Hd. repeat (destruct (String.eqb _ _) in Hd; [injection Hd as <-; cbn in Hk; cbn; intuition|]). discriminate. }
  destruct N as [[<- | []] | [[] | [[] | [[<- | []] | (x & e & [] & _)]]]]; cbn in K; intuition discriminate.
Qed.
