(** C101: what is printed of objects and errors. *)
From Coq Require Import String Ascii List ZArith NArith Bool.
From Verif Require Import PyBase PyVal XsdSimple XsdComplex ExEnv PyPrint SpecPrint PfPrint.
Import ListNotations.
Open Scope nat_scope.
Open Scope string_scope.
Open Scope list_scope.

(** str of an object returns a text, however its fields are set, if the objects in
    it are not nested deeper than the interpreter's recursion limit; *)
Theorem C101_returns : forall O E n v, at_most_deep E n v -> exists s, obj_str (S n) O E v = Ok s.
Proof. exact str_returns. Qed.
Print Assumptions C101_returns.
(** the text has every element field with the text of its value in it, *)
Theorem C101_shows :
  forall O E n c d xe fs s f x, obj_str n O E (VObj c xe fs) = Ok s -> e_cls E c = Some d ->
  In f (cd_fields d) -> element_field f -> assoc (f_name f) fs = Some x ->
  exists t, obj_str n O E x = Ok t /\ in_text (f_name f ++ "=" ++ t) s.
Proof. exact str_shows. Qed.
Print Assumptions C101_shows.
(** and nothing else of the object: XML attributes, groups and contents are not
    shown, nor is the element the object was read from. *)
Theorem C101_hides_refuted :
  forall O E n c d xe xe' fs fs', e_cls E c = Some d -> same_elements d fs fs' ->
  obj_str n O E (VObj c xe fs) = obj_str n O E (VObj c xe' fs').
Proof. exact str_same. Qed.
Print Assumptions C101_hides_refuted.
(** The text of a SOAPError tells its code, message and actor, if there is no ] in
    the code, no ; in the message and the actor is not called None. *)
Theorem C101_error_partial :
  forall code message actor code' message' actor',
  ~ In "]"%char (list_ascii_of_string code) -> ~ In "]"%char (list_ascii_of_string code') ->
  ~ In ";"%char (list_ascii_of_string message) -> ~ In ";"%char (list_ascii_of_string message') ->
  actor <> Some "None" -> actor' <> Some "None" ->
  error_str code message actor = error_str code' message' actor' -> code = code' /\ message = message' /\ actor = actor'.
Proof. exact error_read. Qed.
Print Assumptions C101_error_partial.
(** In general neither text tells what it was made from. *)
Theorem C101_ambiguous_refuted :
  (exists fs fs', fs <> fs' /\ obj_str 5 ex_oracle ex_env (VObj "Leg" None fs) = obj_str 5 ex_oracle ex_env (VObj "Leg" None fs') /\
     exists s, obj_str 5 ex_oracle ex_env (VObj "Leg" None fs) = Ok s) /\
  exists m a m', m <> m' /\ error_str "Client" m None = error_str "Client" m' (Some a).
Proof.
  split.
  - exists [("origin", VStr "OSL, seats=1"); ("seats", VStr "2")], [("origin", VStr "OSL"); ("seats", VStr "1, seats=2")].
    split; [discriminate|]. split; [reflexivity|]. eexists. reflexivity.
  - exists "no; actor=me", "me; actor=None", "no". split; [discriminate|]. reflexivity.
Qed.
Print Assumptions C101_ambiguous_refuted.

Example C101_nonvacuous :
  at_most_deep ex_env 3 (VObj "Booking" None [("flight", ex_flight)]) /\
  obj_str 3 ex_oracle ex_env (VObj "Booking" None [("flight", ex_flight)]) = Ok "<Booking: flight=<Flight: number=7, legs=>>" /\
  obj_str 2 ex_oracle ex_env (VObj "Booking" None [("flight", ex_flight)]) = Err RecursionError /\
  (exists f, In f (cd_fields cd_booking) /\ element_field f /\ assoc (f_name f) [("flight", ex_flight)] = Some ex_flight) /\
  same_elements cd_flight (ex_flight_fs (VStr "F1")) (ex_flight_fs (VStr "G2")) /\ ex_flight_fs (VStr "F1") <> ex_flight_fs (VStr "G2") /\
  error_str "Client" "no" None = "[Client] no; actor=None".
Proof.
  split; [|split; [vm_compute; reflexivity|split; [vm_compute; reflexivity|split; [|split; [|split; [discriminate|reflexivity]]]]]].
  - eapply Deep_obj; [reflexivity|]. intros name x H. cbn in H. destruct (String.eqb name "flight"); [|discriminate]. injection H as <-.
    eapply Deep_obj; [reflexivity|]. intros name' x H. cbn in H. repeat destruct (String.eqb name' _); try discriminate; injection H as <-.
    all: try (apply Deep_other; discriminate).
    eapply Deep_obj; [reflexivity|]. intros name2 x H. cbn in H. repeat destruct (String.eqb name2 _); try discriminate; injection H as <-.
    all: apply Deep_other; discriminate.
  - eexists. split; [left; reflexivity|]. split; [left; reflexivity|reflexivity].
  - intros f Hf He. cbn in Hf. repeat destruct Hf as [<- | Hf]; try reflexivity; try contradiction.
    all: destruct He as [He | [He | He]]; discriminate.
Qed.
