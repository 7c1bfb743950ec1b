(** Proofs for C100. *)
From Coq Require Import String Ascii List Bool.
From Verif Require Import PyBase LibClasses GenNames XsdPrefixes Prefixes SpecNames SpecPrefixes PfBase PfNames.
Import ListNotations.
Open Scope string_scope.
Open Scope list_scope.

Lemma prefix_eqb_spec a b : prefix_eqb a b = true <-> a = b.
Proof.
  destruct a as [x|], b as [y|]; cbn; try (split; discriminate); [|easy]. rewrite String.eqb_eq. split; [now intros ->|now intros [= ->]].
Qed.
Lemma prefix_in_spec p l : prefix_in p l = true <-> In p l.
Proof.
  unfold prefix_in. rewrite existsb_exists. split.
  - intros (q & I & E). apply (prefix_eqb_spec p q) in E. now subst q.
  - intros I. exists p. split; [exact I|]. now apply (prefix_eqb_spec p p).
Qed.
Lemma set_in k v m q u : NoDup (map fst m) -> (In (q, u) (nsmap_set k v m) <-> (q = k /\ u = v) \/ (q <> k /\ In (q, u) m)).
Proof.
  induction m as [|[k' v'] m IH]; cbn [nsmap_set]; intros N.
  - cbn. split; [intros [[= <- <-] | []]; now left|]. intros [[-> ->] | [_ []]]. now left.
  - inversion_clear N as [|? ? N1 N2]. destruct (prefix_eqb k k') eqn:E.
    + apply prefix_eqb_spec in E. subst k'. cbn [In]. split.
      * intros [[= <- <-] | I]; [now left|]. right. split; [|now right]. intros ->. apply N1. apply in_map_iff. now exists (k, u).
      * intros [[-> ->] | [D [[= <- <-] | I]]]; [now left|now destruct D|now right].
    + cbn [In]. rewrite (IH N2). assert (K : k' <> k) by (intros ->; rewrite (proj2 (prefix_eqb_spec k k) eq_refl) in E; discriminate). split.
      * intros [[= <- <-] | [X | [X Y]]]; [right; split; [exact K|now left]|now left|right; split; [exact X|now right]].
      * intros [X | [X [[= <- <-] | Y]]]; [right; now left|now left|right; right; now split].
Qed.
Lemma set_keys k v m q : In q (map fst (nsmap_set k v m)) <-> q = k \/ In q (map fst m).
Proof.
  induction m as [|[k' v'] m IH]; cbn [nsmap_set map fst In]; [cbn; intuition congruence|].
  destruct (prefix_eqb k k') eqn:E; cbn [map fst In].
  - apply prefix_eqb_spec in E. subst k'. intuition congruence.
  - rewrite IH. tauto.
Qed.
Lemma set_ok k v m : scope_ok m -> scope_ok (nsmap_set k v m).
Proof.
  unfold scope_ok. induction m as [|[k' v'] m IH]; cbn [nsmap_set map fst]; intros N.
  - constructor; [easy|constructor].
  - inversion_clear N as [|? ? N1 N2]. destruct (prefix_eqb k k') eqn:E; cbn [map fst]; constructor; auto.
    rewrite set_keys. intros [-> | I]; [|contradiction]. rewrite (proj2 (prefix_eqb_spec k k) eq_refl) in E. discriminate.
Qed.
Lemma update_spec : forall other m, scope_ok m -> scope_ok other ->
  scope_ok (nsmap_update m other) /\
  forall q u, In (q, u) (nsmap_update m other) <-> In (q, u) other \/ (~ In q (map fst other) /\ In (q, u) m).
Proof.
  unfold nsmap_update. induction other as [|[k v] other IH]; intros m M N; cbn [fold_left].
  - split; [exact M|]. intros q u. cbn. tauto.
  - unfold scope_ok in N. cbn [map fst] in N. inversion_clear N as [|? ? N1 N2]. destruct (IH (nsmap_set k v m) (set_ok k v m M) N2) as [A B]. split; [exact A|].
    intros q u. cbn [fst snd]. rewrite B, (set_in k v m q u M). cbn [In map fst]. split.
    + intros [X | [X [[-> ->] | [Y Z]]]]; [left; now right|left; now left|right]. split; [intros [-> | W]; [now apply Y|now apply X]|exact Z].
    + intros [[[= <- <-] | X] | [X Y]]; [right; split; [exact N1|now left]|now left|right]. split; [tauto|]. right. split; [intros ->; tauto|exact Y].
Qed.
Lemma last_spec : forall schemas root, scope_ok root -> Forall scope_ok schemas ->
  scope_ok (fold_left nsmap_update schemas root) /\
  forall q u, In (q, u) (fold_left nsmap_update schemas root) <-> last_meaning (root :: schemas) q u.
Proof.
  intros schemas. induction schemas as [|m schemas IH] using rev_ind; intros root R F.
  - cbn. split; [exact R|]. intros q u. split.
    + intros I. exists [], root, []. repeat split; [exact I|]. intros m' u' [].
    + intros (before & m & after & E & I & _). destruct before as [|x before]; [injection E as <- _; exact I|]. destruct before; discriminate.
  - apply Forall_app in F. destruct F as [F Fm]. inversion_clear Fm as [|? ? Fm' _]. rewrite fold_left_app. cbn [fold_left].
    destruct (IH root R F) as [A B]. destruct (update_spec m _ A Fm') as [C D]. split; [exact C|]. intros q u. rewrite D, B. split.
    + intros [I | [N (before & m1 & after & E & I & L)]].
      * exists (root :: schemas), m, []. repeat split; [exact I|]. intros m' u' [].
      * exists before, m1, (after ++ [m]). split; [change (root :: schemas ++ [m]) with ((root :: schemas) ++ [m]); rewrite E, <- app_assoc; reflexivity|]. split; [exact I|].
        intros m' u' X. apply in_app_or in X. destruct X as [X | [<- | []]]; [exact (L m' u' X)|]. intros Y. apply N. apply in_map_iff. now exists (q, u').
    + intros (before & m1 & after & E & I & L). change (root :: schemas ++ [m]) with ((root :: schemas) ++ [m]) in E.
      destruct after as [|x after] using rev_ind.
      * apply app_inj_tail in E. destruct E as [_ <-]. now left.
      * clear IHafter. rewrite app_comm_cons, app_assoc in E. apply app_inj_tail in E. destruct E as [E <-]. right. split.
        -- intros X. apply in_map_iff in X. destruct X as ([q' u'] & <- & X). apply (L m u'); [apply in_or_app; right; now left|exact X].
        -- exists before, m1, after. repeat split; [exact E|exact I|]. intros m' u' X. apply L. apply in_or_app. now left.
Qed.
Lemma xsd_uri u : str_in u [ns_xsd; ns_xsd2000] = true <-> xml_schema u.
Proof. rewrite str_in_spec. unfold xml_schema. cbn. unfold ns_xsd, ns_xsd2000. intuition congruence. Qed.
Lemma found d p : doc_ok d -> (In p (find_xsd_namespaces (pr_root d) (pr_schemas d)) <-> exists u, xml_schema u /\ last_meaning (scopes d) p u).
Proof.
  intros K. inversion_clear K as [|? ? R F]. destruct (last_spec (pr_schemas d) (pr_root d) R F) as [_ B].
  unfold find_xsd_namespaces. rewrite in_map_iff. split.
  - intros ([q u] & <- & I). apply filter_In in I. destruct I as [I X]. exists u. split; [now apply xsd_uri|now apply B].
  - intros (u & X & L). exists (p, u). split; [reflexivity|]. apply filter_In. split; [now apply B|now apply xsd_uri].
Qed.
Lemma all_found docs p : Forall doc_ok docs -> (In p (all_xsd_namespaces docs) <-> exists d u, In d docs /\ xml_schema u /\ last_meaning (scopes d) p u).
Proof.
  intros F. rewrite Forall_forall in F. unfold all_xsd_namespaces. rewrite in_flat_map. split.
  - intros (d & I & X). apply (found d p (F d I)) in X. destruct X as (u & X & L). now exists d, u.
  - intros (d & u & I & X & L). exists d. split; [exact I|]. apply (found d p (F d I)). now exists u.
Qed.

(** ** The printed type *)
Lemma printed X K p name c t : prefix_ok p -> name = String c t -> colon_free name ->
  get_type X K (qualified p name) =
    Ok (if prefix_in p X then "xsd." ++ String (upper_char c) t
        else if match K with Some l => str_in (String (upper_char c) t) l | None => false end then String (upper_char c) t
        else "__name__ + '." ++ String (upper_char c) t ++ "'")%string.
Proof.
  intros P -> N. unfold get_type.
  assert (S1 : str_split ":" (qualified p (String c t)) = match p with Some p => [p; String c t] | None => [String c t] end).
  { unfold str_split. destruct p as [p|]; cbn [qualified].
    - replace (to_l (p ++ ":" ++ String c t)) with (to_l p ++ ":"%char :: to_l (String c t)).
      + rewrite split_two by assumption. cbn [map]. unfold of_l, to_l. now rewrite !string_of_list_ascii_of_string.
      + change ((":" ++ String c t)%string) with (String ":" (String c t)). unfold to_l. clear. induction p as [|a p IH]; [reflexivity|]. cbn. now rewrite IH.
    - rewrite split_one by exact N. cbn [map]. unfold of_l, to_l. now rewrite string_of_list_ascii_of_string. }
  assert (E : String.eqb (qualified p (String c t)) "" = false).
  { apply String.eqb_neq. destruct p as [p|]; cbn; [destruct p; discriminate|discriminate]. }
  rewrite E, S1. destruct p as [p|]; cbn [bind capitalize]; destruct (prefix_in _ X); try reflexivity; destruct (match K with Some l => _ | None => _ end); reflexivity.
Qed.
Lemma meaning_exists : forall l p m u, In m l -> stands_for m p u -> exists u', last_meaning l p u'.
Proof.
  induction l as [|x l IH] using rev_ind; intros p m u I St; [destruct I|].
  destruct (in_dec (fun a b : option string => ltac:(decide equality; apply string_dec)) p (map fst x)) as [D|D].
  - apply in_map_iff in D. destruct D as ([q u'] & <- & D). exists u', l, x, []. repeat split; [exact D|]. intros m' u2 [].
  - apply in_app_or in I. destruct I as [I | [<- | []]].
    + destruct (IH p m u I St) as (u' & before & m1 & after & -> & A & B). exists u', before, m1, (after ++ [x]). split; [now rewrite <- app_assoc|]. split; [exact A|].
      intros m' u2 X. apply in_app_or in X. destruct X as [X | [<- | []]]; [exact (B m' u2 X)|]. intros Y. apply D. apply in_map_iff. now exists (p, u2).
    + destruct D. apply in_map_iff. now exists (p, u).
Qed.
Lemma meaning_in l p u : last_meaning l p u -> exists m, In m l /\ stands_for m p u.
Proof. intros (before & m & after & -> & I & _). exists m. split; [|exact I]. apply in_or_app. right. now left. Qed.

Lemma agreed docs d m p u : Forall doc_ok docs -> one_meaning docs -> In d docs -> In m (scopes d) -> stands_for m p u ->
  (In p (all_xsd_namespaces docs) <-> xml_schema u).
Proof.
  intros F O D M St. rewrite (all_found docs p F). split.
  - intros (d' & u' & D' & X & L). apply meaning_in in L. destruct L as (m' & M' & St'). exact (O d' d m' m p u' u D' D M' M St' St X).
  - intros X. destruct (meaning_exists (scopes d) p m u M St) as (u' & L). exists d, u'. split; [exact D|]. split; [|exact L].
    apply meaning_in in L. destruct L as (m' & M' & St'). exact (O d d m m' p u u' D D M M' St St' X).
Qed.

Lemma type_printed docs known d m p u c t : Forall doc_ok docs -> one_meaning docs -> In d docs -> In m (scopes d) -> stands_for m p u ->
  prefix_ok p -> colon_free (String c t) ->
  let name := String (upper_char c) t in
  (xml_schema u -> printed_type docs known (qualified p (String c t)) = Ok ("xsd." ++ name)%string) /\
  (~ xml_schema u -> printed_type docs known (qualified p (String c t)) = Ok name \/
                     printed_type docs known (qualified p (String c t)) = Ok ("__name__ + '." ++ name ++ "'")%string).
Proof.
  intros F O D M St P N name. unfold printed_type. rewrite (printed _ _ p (String c t) c t P eq_refl N). fold name.
  pose proof (agreed docs d m p u F O D M St) as A. rewrite <- prefix_in_spec in A. split.
  - intros X. now rewrite (proj2 A X).
  - intros X. destruct (prefix_in p (all_xsd_namespaces docs)); [now destruct (X (proj1 A eq_refl))|]. destruct (match known with Some l => _ | None => _ end); [now left|now right].
Qed.
