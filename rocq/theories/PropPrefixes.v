(** C100: prefixes of XML Schema. *)
From Coq Require Import String Ascii List Bool.
From Verif Require Import PyBase GenNames XsdPrefixes Prefixes SpecNames SpecPrefixes PfPrefixes.
Import ListNotations.
Open Scope string_scope.
Open Scope list_scope.

(** A prefix is taken for XML Schema's if that is what it stands for in the last
    schema of the document that knows it, or else in the root. *)
Theorem C100_last :
  forall d p, doc_ok d ->
  (In p (find_xsd_namespaces (pr_root d) (pr_schemas d)) <-> exists u, xml_schema u /\ last_meaning (scopes d) p u).
Proof. exact found. Qed.
Print Assumptions C100_last.
(** With several documents it is enough that this is so in one of them. *)
Theorem C100_documents :
  forall docs p, Forall doc_ok docs ->
  (In p (all_xsd_namespaces docs) <-> exists d u, In d docs /\ xml_schema u /\ last_meaning (scopes d) p u).
Proof. exact all_found. Qed.
Print Assumptions C100_documents.
(** If no prefix has two meanings, a type name in the root or in a schema becomes a
    class of soapfish.xsd exactly if it belongs to XML Schema there. *)
Theorem C100_types_partial :
  forall docs known d m p u c t, Forall doc_ok docs -> one_meaning docs -> In d docs -> In m (scopes d) -> stands_for m p u ->
  prefix_ok p -> colon_free (String c t) ->
  let name := String (upper_char c) t in
  (xml_schema u -> printed_type docs known (qualified p (String c t)) = Ok ("xsd." ++ name)%string) /\
  (~ xml_schema u -> printed_type docs known (qualified p (String c t)) = Ok name \/
                     printed_type docs known (qualified p (String c t)) = Ok ("__name__ + '." ++ name ++ "'")%string).
Proof. exact type_printed. Qed.
Print Assumptions C100_types_partial.

(** Two schemas in one document, and a document that imports another. *)
Definition x_first : nsmap := [(Some "s", "http://www.w3.org/2001/XMLSchema"); (Some "t", "urn:types")].
Definition x_second : nsmap := [(Some "s", "urn:shop"); (Some "xs", "http://www.w3.org/2001/XMLSchema")].
Definition x_wsdl : prefixed := mkPre [(None, "http://schemas.xmlsoap.org/wsdl/")] [x_first; x_second].
Definition x_importing : prefixed := mkPre [(Some "t", "urn:types")] [].
Definition x_imported : prefixed := mkPre [(Some "t", "http://www.w3.org/2001/XMLSchema")] [].
Ltac distinct := repeat apply Forall_cons; try apply Forall_nil; unfold scope_ok; cbn [map fst];
  repeat (apply NoDup_cons; [cbn [In]; intros K; repeat (destruct K as [K | K]); try contradiction; discriminate K|]); try apply NoDup_nil.
Ltac plain := unfold colon_free; cbn; intros K; repeat (destruct K as [K | K]); try contradiction; discriminate K.
(** In general that is wrong: the first schema loses its prefix to the second, and a
    prefix of an imported document changes what the importing one says. *)
Theorem C100_refuted :
  (exists d m p u name, doc_ok d /\ In m (scopes d) /\ stands_for m (Some p) u /\ xml_schema u /\ colon_free p /\ colon_free name /\
     printed_type [d] None (qualified (Some p) name) = Ok "__name__ + '.String'") /\
  (exists d d' m p u name, doc_ok d /\ doc_ok d' /\ In m (scopes d) /\ stands_for m (Some p) u /\ ~ xml_schema u /\ colon_free p /\ colon_free name /\
     printed_type [d; d'] None (qualified (Some p) name) = Ok "xsd.Order").
Proof.
  split.
  - exists x_wsdl, x_first, "s", "http://www.w3.org/2001/XMLSchema", "string". split; [distinct|].
    split; [right; now left|]. split; [now left|]. split; [now left|]. split; [plain|]. split; [plain|vm_compute; reflexivity].
  - exists x_importing, x_imported, [(Some "t", "urn:types")], "t", "urn:types", "order". split; [distinct|].
    split; [distinct|]. split; [now left|]. split; [now left|]. split; [intros [X|X]; discriminate X|].
    split; [plain|]. split; [plain|vm_compute; reflexivity].
Qed.
Print Assumptions C100_refuted.

Definition x_plain : prefixed := mkPre [(Some "tns", "urn:shop")] [x_first; [(None, "http://www.w3.org/2000/10/XMLSchema"); (Some "tns", "urn:shop")]].
Example C100_nonvacuous :
  doc_ok x_plain /\ doc_ok (mkPre x_first []) /\ one_meaning [x_plain; mkPre x_first []] /\
  printed_type [x_plain; mkPre x_first []] (Some ["Order"]) "s:dateTime" = Ok "xsd.DateTime" /\
  printed_type [x_plain; mkPre x_first []] (Some ["Order"]) "int" = Ok "xsd.Int" /\
  printed_type [x_plain; mkPre x_first []] (Some ["Order"]) "t:order" = Ok "Order".
Proof.
  split; [distinct|]. split; [distinct|]. split; [|repeat split; vm_compute; reflexivity].
  intros d d' m m' p u u' D D' M M' A B X. cbn in D, D'.
  assert (H : forall d m p u, In d [x_plain; mkPre x_first []] -> In m (scopes d) -> stands_for m p u -> (xml_schema u <-> (p = Some "s" \/ p = None))).
  { clear. intros d m p u D M A. cbn in D. unfold stands_for in A.
    destruct D as [<- | [<- | []]]; cbn in M; repeat (destruct M as [<- | M]); try contradiction; cbn in A;
      repeat (destruct A as [A | A]); try contradiction; injection A as <- <-; unfold xml_schema; split; intros K;
      try (destruct K as [K | K]; discriminate K); auto. }
  apply (H d' m' p u' D' M' B). apply (H d m p u D M A). exact X.
Qed.
