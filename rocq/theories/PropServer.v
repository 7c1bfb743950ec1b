(** C40, C49: what a server reads from the texts of a request. *)
From Coq Require Import String Ascii List ZArith NArith Bool.
From Verif Require Import PyBase PyHttp Soap Dispatch SpecDispatch SpecServer PfServer ExEnv ExSoap.
Import ListNotations.
Open Scope string_scope.
Open Scope list_scope.

(** ** C40 *)
(** The keys and values of a query string are those that it encodes, in their
    order, whichever of the ways to write a character it uses. *)
Theorem C40_query :
  forall rq pairs, encodes_query (query_of rq) pairs ->
  (forall k, has_key rq k <-> exists v, In (k, v) pairs) /\
  (forall k v, first_value rq k v <-> exists l1 l2, pairs = l1 ++ (k, v) :: l2 /\ forall v', ~ In (k, v') l1).
Proof. exact query_keys. Qed.
Print Assumptions C40_query.

Example C40_query_nonvacuous :
  encodes_query (query_of (echo_get "%78sd=a%2Fb+c%3d=&wsdl")) [("xsd", "a/b c=="); ("wsdl", "")].
Proof.
  exists ["%78sd=a%2Fb+c%3d="; "wsdl"]. split; [reflexivity|].
  assert (Q : forall l c, existsb (Ascii.eqb c) l = false -> ~ In c l).
  { intros l c H I. assert (X : existsb (Ascii.eqb c) l = true) by (apply existsb_exists; exists c; split; [exact I|apply Ascii.eqb_refl]). congruence. }
  constructor; [|constructor; [|constructor]].
  - apply (ep_value "%78sd" "xsd" "a%2Fb+c%3d=" "a/b c==").
    + apply (en_hex _ "7" "8" 7 8); [now left|now left|repeat constructor|]. repeat (apply en_plain; [now apply Q|]). constructor.
    + apply en_plain; [now apply Q|]. apply (en_hex _ "2" "F" 2 15); [now left|now right|repeat constructor|].
      apply en_plain; [now apply Q|]. apply en_blank. apply en_plain; [now apply Q|].
      apply (en_hex _ "3" "d" 3 13); [now left|now left|repeat constructor|]. apply en_plain; [now apply Q|]. constructor.
  - apply ep_alone; [|discriminate]. repeat (apply en_plain; [now apply Q|]). constructor.
Qed.

(** ** C49 *)
(** SOAP 1.2: the action that a server sees is the last parameter 'action' of the
    content type, in any case and with or without quotes, whatever parameters
    there are besides; there is none in any other content type. *)
Theorem C49_soap12_server :
  forall env line media params a, env "CONTENT_TYPE" = Some line -> writes_type line media params ->
  determine_soap_action V12 env = Some a <-> media = "application/soap+xml" /\ action_param params a.
Proof. exact server12. Qed.
Print Assumptions C49_soap12_server.
(** SOAP 1.1: the variable SOAPACTION or, without one, ACTION; without quotes. *)
Theorem C49_soap11_server :
  forall env a,
  determine_soap_action V11 env = Some a <->
  exists s, (env "SOAPACTION" = Some s /\ s <> "" \/
             (env "SOAPACTION" = None \/ env "SOAPACTION" = Some "") /\ env "ACTION" = Some s /\ s <> "") /\ without_quotes s a.
Proof. exact server11. Qed.
Print Assumptions C49_soap11_server.

Example C49_server_nonvacuous :
  (let q := String the_quote "" in
   writes_type (" application/soap+xml; charset=utf-8 ;Action=" ++ q ++ "urn:a;b" ++ q ++ "; x=" ++ q ++ q) "application/soap+xml"
     [("charset", "utf-8"); ("Action", "urn:a;b"); ("x", "")]) /\
  action_param [("charset", "utf-8"); ("Action", "urn:a;b"); ("x", "")] "urn:a;b" /\
  without_quotes (String the_quote ("urn:a" ++ String the_quote "")) "urn:a".
Proof.
  assert (T : forall s, s <> "" -> forallb (fun c => Nat.leb 33 (nat_of_ascii c) && Nat.leb (nat_of_ascii c) 126 &&
      negb (existsb (Ascii.eqb c) [";"; "="; the_quote; the_backslash]%char)) (to_l s) = true -> token s).
  { intros s N H. split; [exact N|]. intros c I. rewrite forallb_forall in H. specialize (H c I).
    apply andb_true_iff in H as [H H3]. apply andb_true_iff in H as [H1 H2]. apply Nat.leb_le in H1, H2. split; [now split|].
    intros J. apply negb_true_iff in H3. assert (X : existsb (Ascii.eqb c) [";"; "="; the_quote; the_backslash]%char = true)
      by (apply existsb_exists; exists c; split; [exact J|apply Ascii.eqb_refl]). congruence. }
  assert (B : forall s, forallb (Ascii.eqb " ") (to_l s) = true -> blanks s).
  { intros s H c I. rewrite forallb_forall in H. left. symmetry. now apply Ascii.eqb_eq, H. }
  split; [|split].
  - exists " ", "", ["; charset=utf-8 "; ";Action=" ++ String the_quote ("urn:a;b" ++ String the_quote ""); "; x=" ++ String the_quote (String the_quote "")]%string.
    split; [now apply B|]. split; [now apply B|]. split; [now apply T|]. split; [|reflexivity]. repeat constructor.
    + apply (wp_token " " " " "charset" "utf-8"); [now apply B|now apply B|now apply T|now apply T].
    + apply (wp_quoted "" "" "Action" "urn:a;b"); [now apply B|now apply B|now apply T|].
      intros c H. cbn in H. repeat destruct H as [<- | H]; try destruct H; split; discriminate.
    + apply (wp_quoted " " "" "x" ""); [now apply B|now apply B|now apply T|intros c []].
  - exists [("charset", "utf-8")], "Action", [("x", "")]. split; [reflexivity|]. split.
    + unfold named_action. repeat constructor; cbn; tauto.
    + intros n' v' [E | []]. injection E as <- <-. intros H. inversion H as [|? ? ? ? H1 H2]. inversion H2.
  - constructor. repeat (apply wq_other; [discriminate|]). constructor. constructor.
Qed.
