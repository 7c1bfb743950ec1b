(** C61: names in generated code. *)
From Coq Require Import String Ascii List ZArith NArith Bool.
From Verif Require Import PyBase Client GenNames SpecNames PfNames.
Import ListNotations.
Open Scope string_scope.
Open Scope list_scope.

(** Names that all begin with a lower case letter, or all with an upper case one,
    stay distinct as names of classes. *)
Theorem C61_distinct_partial :
  forall s t, lower_first s /\ lower_first t \/ upper_first s /\ upper_first t -> capitalize s = capitalize t -> s = t.
Proof. intros s t [[Hs Ht] | [Hs Ht]]; [exact (lower_names s t Hs Ht)|exact (upper_names s t Hs Ht)]. Qed.
Print Assumptions C61_distinct_partial.
(** Names of classes stay distinct as tags of messages. *)
Theorem C61_tags_partial :
  forall s t, upper_first s -> upper_first t -> s <> "QName" -> t <> "QName" -> uncapitalize s = uncapitalize t -> s = t.
Proof. exact upper_tags. Qed.
Print Assumptions C61_tags_partial.
(** Mangling back: a name that begins with a lower case letter is the tag made
    of the class made of it, and a class is made of the tag made of it. *)
Theorem C61_back_partial :
  (forall s, lower_first s -> s <> "qName" -> exists n, capitalize s = Ok n /\ uncapitalize n = Ok s) /\
  (forall s, upper_first s -> exists n, uncapitalize s = Ok n /\ capitalize n = Ok s).
Proof. exact (conj names_back tags_back). Qed.
Print Assumptions C61_back_partial.

(** Each name with a lower case letter has the same class as another name. *)
Theorem C61_case_refuted :
  forall s, lower_first s -> exists t, upper_first t /\ s <> t /\ capitalize s = capitalize t.
Proof. exact names_collide. Qed.
Print Assumptions C61_case_refuted.
(** No name with an upper case letter is restored, nor is "qName". *)
Theorem C61_back_refuted :
  (forall s, upper_first s -> s <> "QName" -> exists n m, capitalize s = Ok n /\ uncapitalize n = Ok m /\ m <> s) /\
  exists n, capitalize "qName" = Ok n /\ uncapitalize n = Ok "QName".
Proof. exact (conj upper_lost qname_lost). Qed.
Print Assumptions C61_back_refuted.
(** Types of the same name in two namespaces are one type in the code. *)
Theorem C61_prefix_refuted :
  forall xsd_namespaces known p q name, colon_free p -> colon_free q -> colon_free name ->
  ~ In (Some p) xsd_namespaces -> ~ In (Some q) xsd_namespaces ->
  get_type xsd_namespaces known (p ++ ":" ++ name) = get_type xsd_namespaces known (q ++ ":" ++ name).
Proof. exact prefixes_lost. Qed.
Print Assumptions C61_prefix_refuted.

Example C61_nonvacuous :
  lower_first "flight" /\ upper_first "Flight" /\ capitalize "flight" = Ok "Flight" /\ uncapitalize "Flight" = Ok "flight" /\
  get_type [Some "xs"] (Some ["Flight"]) "a:flight" = Ok "Flight" /\ get_type [Some "xs"] None "xs:dateTime" = Ok "xsd.DateTime".
Proof. repeat split; try (eexists _, _; split; [reflexivity|cbn; tauto]). Qed.
