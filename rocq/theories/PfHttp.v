(** HTTP headers, the served WSDL, and the WSGI adapter. *)
From Coq Require Import String Ascii List ZArith NArith Bool Lia.
From Verif Require Import PyBase PyHttp Xml PyVal XsdSimple XsdComplex XsdSchema Soap SpecSoap Dispatch SpecDispatch SpecHttp
  PfBase PfSimple PfDispatch PfDispatch2 PfDispatch3.
Import ListNotations.
Open Scope string_scope.
Open Scope list_scope.
Open Scope nat_scope.

(** ** The action in SOAP 1.2 *)
Lemma param_split_quoted l : ~ In quote_c l -> forall b, param_split b true (l ++ [quote_c]) = (l ++ [quote_c], []).
Proof.
  induction l as [|c l IH]; intros N b; cbn [app param_split].
  - rewrite andb_false_r. reflexivity.
  - rewrite andb_false_r. destruct (Ascii.eqb_spec c quote_c) as [-> | Q]; [destruct N; now left|].
    cbn [andb]. rewrite IH; auto. intros H. apply N. now right.
Qed.
Lemma replace2_absent a b r l : ~ In b l -> replace2_l a b r l = l.
Proof.
  induction l as [|x l IH]; [reflexivity|]. intros N. destruct l as [|y l]; [reflexivity|].
  change (replace2_l a b r (x :: y :: l)) with (if Ascii.eqb x a && Ascii.eqb y b then r :: replace2_l a b r l else x :: replace2_l a b r (y :: l)).
  destruct (Ascii.eqb_spec y b) as [-> | Q]; [destruct N; right; now left|]. rewrite andb_false_r.
  rewrite IH; auto. intros H. apply N. now right.
Qed.
Lemma replace2_apart a r l : (forall l1 l2, l <> l1 ++ a :: a :: l2) -> replace2_l a a r l = l.
Proof.
  induction l as [|x l IH]; [reflexivity|]. intros N. destruct l as [|y l]; [reflexivity|].
  change (replace2_l a a r (x :: y :: l)) with (if Ascii.eqb x a && Ascii.eqb y a then r :: replace2_l a a r l else x :: replace2_l a a r (y :: l)).
  destruct (Ascii.eqb_spec x a) as [-> | Q], (Ascii.eqb_spec y a) as [-> | Q']; cbn [andb].
  1: destruct (N [] l); reflexivity.
  all: rewrite IH; auto; intros l1 l2 E; match type of N with forall _ _, ?x :: _ <> _ => apply (N (x :: l1) l2) end; cbn [app]; rewrite E; reflexivity.
Qed.
Lemma unquote_quoted l : ~ In quote_c l -> (forall l1 l2, l <> l1 ++ bslash :: bslash :: l2) ->
  unquote_param (quote_c :: l ++ [quote_c]) = l.
Proof.
  intros N B. unfold unquote_param. rewrite rev_app_distr. cbn [rev app]. rewrite Ascii.eqb_refl. cbn [andb].
  rewrite rev_involutive, (replace2_apart bslash bslash l B), (replace2_absent _ _ _ _ N). reflexivity.
Qed.

Lemma strip_ends p c l d : p c = false -> p d = false -> strip_l p (c :: l ++ [d]) = c :: l ++ [d].
Proof.
  intros Hc Hd. apply strip_id; [exact Hc|]. change (c :: l ++ [d]) with ((c :: l) ++ [d]). rewrite rev_app_distr. exact Hd.
Qed.
Lemma strip_space p c l : p c = true -> strip_l p (c :: l) = strip_l p l.
Proof. intros H. unfold strip_l. cbn [lstrip_l]. now rewrite H. Qed.
Lemma action12_list l : ~ In quote_c l -> (forall l1 l2, l <> l1 ++ bslash :: bslash :: l2) ->
  parse_header (of_l (to_l "application/soap+xml; action=" ++ quote_c :: l ++ [quote_c])) =
  ("application/soap+xml", [("action", of_l l)]).
Proof.
  intros N B. unfold parse_header.
  set (n := String.length _). rewrite to_of.
  assert (P1 : param_split false false (to_l "application/soap+xml; action=" ++ quote_c :: l ++ [quote_c]) =
     (to_l "application/soap+xml", to_l "; action=" ++ quote_c :: l ++ [quote_c])).
  { vm_compute. reflexivity. }
  assert (P2 : param_split false false (to_l " action=" ++ quote_c :: l ++ [quote_c]) =
     (to_l " action=" ++ quote_c :: l ++ [quote_c], [])).
  { change (to_l " action=" ++ quote_c :: l ++ [quote_c]) with
      (to_l " action=" ++ [quote_c] ++ l ++ [quote_c]).
    cbn [app to_l list_ascii_of_string param_split]. cbn -[param_split app]. rewrite param_split_quoted by auto. reflexivity. }
  assert (n > 0) as Hn.
  { unfold n. cbn. lia. }
  destruct n as [|n']; [lia|]. cbn [parse_params]. rewrite P1. cbn [parse_params].
  change (Ascii.eqb ";" semi) with true. cbn match.
  change (to_l "; action=" ++ quote_c :: l ++ [quote_c]) with (";"%char :: to_l " action=" ++ quote_c :: l ++ [quote_c]).
  change (Ascii.eqb semi semi) with true. change (Ascii.eqb ";" semi) with true. cbn match. rewrite P2. cbn match.
  replace (parse_params n' []) with (@nil (list ascii)) by (now destruct n').
  replace (strip_l is_space (to_l "application/soap+xml")) with (to_l "application/soap+xml") by reflexivity.
  assert (S1 : strip_l is_space (to_l " action=" ++ quote_c :: l ++ [quote_c]) = to_l "action=" ++ quote_c :: l ++ [quote_c]).
  { change (to_l " action=" ++ quote_c :: l ++ [quote_c]) with (space :: "a"%char :: (to_l "ction=" ++ quote_c :: l) ++ [quote_c]).
    rewrite strip_space by reflexivity. rewrite strip_ends by reflexivity. reflexivity. }
  rewrite S1. cbn [fold_left].
  assert (P3 : param_pair (to_l "action=" ++ quote_c :: l ++ [quote_c]) = Some ("action", of_l l)).
  { unfold param_pair. cbn [partition_l to_l list_ascii_of_string app].
    repeat match goal with |- context[Ascii.eqb ?a ?b] => let v := eval vm_compute in (Ascii.eqb a b) in change (Ascii.eqb a b) with v end.
    cbn match. change (of_l (map lower_char (strip_l is_space _))) with "action".
    replace (strip_l is_space (quote_c :: l ++ [quote_c])) with (quote_c :: l ++ [quote_c]).
    - now rewrite unquote_quoted.
    - symmetry. apply strip_ends; reflexivity. }
  change (Ascii.eqb ";" semi) with true. cbn [fold_left]. rewrite P3. cbn [assoc_set]. reflexivity.
Qed.

Lemma header12_eq action :
  (content_type V12 ++ "; action=" ++ String quote_c (action ++ String quote_c ""))%string =
  of_l (to_l "application/soap+xml; action=" ++ quote_c :: to_l action ++ [quote_c]).
Proof.
  rewrite <- (of_to (_ ++ _)%string). f_equal. rewrite !to_l_app.
  change (to_l (String quote_c (action ++ String quote_c ""))) with (quote_c :: to_l (action ++ String quote_c "")).
  rewrite to_l_app. reflexivity.
Qed.
Lemma action12_of env action : ~ char_in quote_c action -> ~ double_backslash action ->
  env "CONTENT_TYPE" = Some (content_type V12 ++ "; action=" ++ String quote_c (action ++ String quote_c ""))%string ->
  determine_soap_action V12 env = Some action.
Proof.
  intros N B H. unfold determine_soap_action. rewrite H, header12_eq, action12_list; auto.
  - cbn match. change (String.eqb "application/soap+xml" (content_type V12)) with true. cbn [assoc String.eqb]. rewrite of_to. reflexivity.
  - intros l1 l2 E. apply B. exists l1, l2. exact E.
Qed.
Lemma django_ct e : e "CONTENT_TYPE" <> None -> django_environ e "CONTENT_TYPE" = e "CONTENT_TYPE".
Proof.
  unfold django_environ. change (django_key "CONTENT_TYPE") with "CONTENT_TYPE". destruct (e "CONTENT_TYPE"); [auto|congruence].
Qed.
Lemma action12 base action : ~ char_in quote_c action -> ~ double_backslash action ->
  let e := wsgi_environ base (request_headers V12 action) in
  determine_soap_action V12 e = Some action /\ determine_soap_action V12 (django_environ e) = Some action.
Proof.
  intros N B e.
  assert (E : e "CONTENT_TYPE" = Some (content_type V12 ++ "; action=" ++ String quote_c (action ++ String quote_c ""))%string) by reflexivity.
  split; apply action12_of; auto.
Qed.
Lemma remove_absent c s : ~ char_in c s -> str_remove c s = s.
Proof.
  intros N. unfold str_remove, char_in in *. rewrite <- (of_to s) at 2. f_equal.
  induction (to_l s) as [|x l IH]; [reflexivity|]. cbn [filter].
  destruct (Ascii.eqb_spec x c) as [-> | Q]; [destruct N; now left|]. cbn [negb]. f_equal. apply IH. intros H. apply N. now right.
Qed.
Lemma action11_django base action : clean_environ base -> action <> "" -> ~ char_in quote_c action ->
  determine_soap_action V11 (django_environ (wsgi_environ base (request_headers V11 action))) = Some action.
Proof.
  intros C A N. unfold determine_soap_action.
  assert (E : django_environ (wsgi_environ base (request_headers V11 action)) "SOAPACTION" = Some action).
  { unfold django_environ. change (django_key "SOAPACTION") with "SOAPACTION".
    change (wsgi_environ base (request_headers V11 action) "SOAPACTION") with (base "SOAPACTION").
    rewrite (C "SOAPACTION") by (cbn; auto). reflexivity. }
  rewrite E. destruct action as [|c s]; [congruence|]. cbn [truthy_str option_map]. now rewrite remove_absent.
Qed.
Lemma action11_wsgi base action : clean_environ base ->
  determine_soap_action V11 (wsgi_environ base (request_headers V11 action)) = None.
Proof.
  intros C. unfold determine_soap_action.
  change (wsgi_environ base (request_headers V11 action) "SOAPACTION") with (base "SOAPACTION").
  change (wsgi_environ base (request_headers V11 action) "ACTION") with (base "ACTION").
  rewrite (C "SOAPACTION"), (C "ACTION") by (cbn; auto). reflexivity.
Qed.
(** Under SOAP 1.1 quotes are dropped. *)
Lemma remove_gone c s : ~ char_in c (str_remove c s).
Proof.
  unfold char_in, str_remove. rewrite to_of, filter_In, Ascii.eqb_refl. intros [_ H]. discriminate H.
Qed.
Lemma action11_quotes base action a : char_in quote_c action ->
  determine_soap_action V11 (django_environ (wsgi_environ base (request_headers V11 action))) = Some a -> a <> action.
Proof.
  intros Q H ->. unfold determine_soap_action in H.
  destruct (truthy_str _); [|destruct (truthy_str _)]; [| |discriminate H].
  all: destruct (django_environ _ _); [|discriminate H]; injection H as H; rewrite <- H in Q; exact (remove_gone _ _ Q).
Qed.
Lemma action12_lost base :
  let bb := String bslash (String bslash "") in let b := String bslash "" in
  determine_soap_action V12 (wsgi_environ base (request_headers V12 bb)) = Some b.
Proof. reflexivity. Qed.
Lemma action12_cut base :
  determine_soap_action V12 (wsgi_environ base (request_headers V12 (String quote_c ";b"))) = Some "".
Proof. reflexivity. Qed.

(** ** The WSDL *)
Lemma subst_nil n m : subst_l n m [] = [].
Proof. now destruct n. Qed.
Lemma subst_lit m l rest : ~ In dollar l -> forall n, subst_l (length l + n) m (l ++ rest) = l ++ subst_l n m rest.
Proof.
  induction l as [|c l IH]; intros N n; [reflexivity|]. cbn [length app plus subst_l].
  destruct (Ascii.eqb_spec c dollar) as [-> | Q]; [destruct N; now left|]. f_equal. apply IH. intros H. apply N. now right.
Qed.
Lemma subst_scheme sch host n rest :
  subst_l (S n) [("scheme", sch); ("host", host)] (to_l "${scheme}" ++ rest) = to_l sch ++ subst_l n [("scheme", sch); ("host", host)] rest.
Proof. reflexivity. Qed.
Lemma subst_host sch host n rest :
  subst_l (S n) [("scheme", sch); ("host", host)] (to_l "${host}" ++ rest) = to_l host ++ subst_l n [("scheme", sch); ("host", host)] rest.
Proof. reflexivity. Qed.
Lemma to_l_concat l : to_l (String.concat "" l) = flat_map to_l l.
Proof.
  induction l as [|s l IH]; [reflexivity|]. cbn [flat_map]. destruct l as [|t l].
  - cbn. now rewrite app_nil_r.
  - change (String.concat "" (s :: t :: l)) with (s ++ "" ++ String.concat "" (t :: l))%string.
    rewrite to_l_app. cbn [append]. now rewrite IH.
Qed.
Lemma id_start_letter c : char_in c letters -> id_start c = true.
Proof.
  intros H. assert (F : forallb id_start (to_l letters) = true) by reflexivity. rewrite forallb_forall in F. exact (F c H).
Qed.
Lemma id_char_letter c : char_in c (letters ++ "0123456789") -> id_char c = true.
Proof.
  intros H. assert (F : forallb id_char (to_l (letters ++ "0123456789")) = true) by reflexivity. rewrite forallb_forall in F. exact (F c H).
Qed.
Lemma id_start_other c : ~ char_in c (letters ++ "{$") -> id_start c = false /\ Ascii.eqb c dollar = false /\ Ascii.eqb c "{" = false.
Proof.
  intros N. unfold char_in in N. rewrite to_l_app, in_app_iff in N. split; [|split].
  - destruct (id_start c) eqn:E; auto. destruct N. left.
    destruct c as [[] [] [] [] [] [] [] []]; try discriminate E; vm_compute; tauto.
  - destruct (Ascii.eqb_spec c dollar) as [-> | Q]; auto. destruct N. right. right. now left.
  - destruct (Ascii.eqb_spec c "{") as [-> | Q]; auto. destruct N. right. now left.
Qed.
Lemma span_id_app p rest : (forall c, In c p -> id_char c = true) -> match rest with c :: _ => id_char c = false | [] => True end ->
  span_id (p ++ rest) = (p, rest).
Proof.
  intros H R. induction p as [|c p IH].
  - destruct rest as [|c rest]; [reflexivity|]. cbn. now rewrite R.
  - cbn [app span_id]. rewrite (H c) by now left. rewrite IH by (intros d Hd; apply H; now right). reflexivity.
Qed.
Lemma subst_hole m name rest n : identifier name -> assoc name m = None ->
  subst_l (S n) m (to_l ("${" ++ name ++ "}") ++ rest) = to_l ("${" ++ name ++ "}") ++ subst_l n m rest.
Proof.
  intros (c & s & -> & Hc & Hs) A.
  change (to_l ("${" ++ String c s ++ "}")) with (dollar :: "{"%char :: c :: to_l (s ++ "}")). rewrite to_l_app.
  change (to_l "}") with ["}"%char]. cbn [app]. rewrite <- app_assoc. cbn [app subst_l].
  change (Ascii.eqb dollar dollar) with true. change (Ascii.eqb "{" dollar) with false. change (id_start "{") with false.
  change (Ascii.eqb "{" "{") with true. cbn iota.
  change (c :: to_l s ++ "}"%char :: rest) with ((c :: to_l s) ++ "}"%char :: rest). rewrite span_id_app.
  - change (id_start c && Ascii.eqb "}" "}") with (id_start c && true). rewrite (id_start_letter _ Hc). cbn [andb].
    change (of_l (c :: to_l s)) with (String c (of_l (to_l s))). rewrite of_to, A. rewrite app_assoc_reverse. reflexivity.
  - intros d [<- | Hd]; [unfold id_char; now rewrite (id_start_letter _ Hc)|now apply id_char_letter, Hs].
  - reflexivity.
Qed.
Lemma subst_dollar m c rest n : ~ char_in c (letters ++ "{$") ->
  subst_l (S (S n)) m (dollar :: c :: rest) = dollar :: c :: subst_l n m rest.
Proof.
  intros N. destruct (id_start_other _ N) as (A & B & C). cbn [subst_l].
  change (Ascii.eqb dollar dollar) with true. cbn iota. rewrite B, A, C. reflexivity.
Qed.
Lemma subst_chunks sch host l : Forall dollar_free l -> forall n, length (flat_map to_l (map written l)) <= n ->
  subst_l n [("scheme", sch); ("host", host)] (flat_map to_l (map written l)) = flat_map to_l (map (filled sch host) l).
Proof.
  induction 1 as [|c l Hc Hl IH]; intros n Hn; [apply subst_nil|]. cbn [map flat_map] in *. rewrite app_length in Hn.
  destruct c as [s| | |name|c]; cbn [written filled] in *.
  - replace n with (length (to_l s) + (n - length (to_l s))) by lia. rewrite (subst_lit _ (to_l s)) by exact Hc.
    rewrite IH by lia. reflexivity.
  - cbn in Hn. destruct n as [|n]; [lia|]. rewrite subst_scheme, IH by lia. reflexivity.
  - cbn in Hn. destruct n as [|n]; [lia|]. rewrite subst_host, IH by lia. reflexivity.
  - destruct Hc as (Hi & N1 & N2). rewrite to_l_app in Hn. cbn [length app to_l] in Hn. destruct n as [|n]; [cbn in Hn; lia|].
    rewrite subst_hole; auto; [|cbn [assoc]; apply String.eqb_neq in N1, N2; now rewrite ?N1, ?N2, ?(String.eqb_sym _ name), ?N1, ?N2].
    rewrite IH; [reflexivity|]. cbn in Hn. lia.
  - cbn in Hn. destruct n as [|[|n]]; [lia..|]. change (to_l (String "$" (String c "")) ++ ?r) with (dollar :: c :: r).
    rewrite subst_dollar, IH; auto; lia.
Qed.
Lemma substitute_chunks sch host l : Forall dollar_free l ->
  safe_substitute [("scheme", sch); ("host", host)] (String.concat "" (map written l)) = String.concat "" (map (filled sch host) l).
Proof.
  intros F. unfold safe_substitute. rewrite <- (of_to (String.concat "" (map (filled sch host) l))), !to_l_concat.
  rewrite subst_chunks; auto. rewrite <- to_l_concat, length_to_l. lia.
Qed.

Section D.
  Variable W : Type.
  Implicit Types (P : platform) (D : dispatcher W) (w : W).
  Lemma wsdl_filled D rq scheme host chunks :
    rq_environ rq "X_FORWARDED_PROTO" = Some scheme \/
      rq_environ rq "X_FORWARDED_PROTO" = None /\ rq_environ rq "wsgi.url_scheme" = Some scheme ->
    scheme <> "" -> rq_environ rq "HTTP_HOST" = Some host -> host <> "" ->
    d_wsdl D = String.concat "" (map written chunks) -> Forall dollar_free chunks ->
    wsdl_content D rq = String.concat "" (map (filled scheme host) chunks).
  Proof.
    intros S S0 H H0 E F. unfold wsdl_content. rewrite H, E.
    assert (X : match rq_environ rq "X_FORWARDED_PROTO" with Some s => s
                | None => match rq_environ rq "wsgi.url_scheme" with Some s => s | None => "http" end end = scheme).
    { destruct S as [-> | [-> ->]]; reflexivity. }
    rewrite X. destruct scheme as [|c1 s1]; [congruence|]. destruct host as [|c2 s2]; [congruence|]. cbn [truthy_str andb].
    apply substitute_chunks, F.
  Qed.
  Lemma wsdl_no_host D rq : rq_environ rq "HTTP_HOST" = None \/ rq_environ rq "HTTP_HOST" = Some "" -> wsdl_content D rq = d_wsdl D.
  Proof. intros [H | H]; unfold wsdl_content; rewrite H; rewrite andb_false_r; reflexivity. Qed.
  Lemma wsdl_served P D w rq scheme host chunks : no_hooks D -> request_method rq "GET" -> has_key rq "wsdl" \/ has_key rq "singleWsdl" ->
    rq_environ rq "X_FORWARDED_PROTO" = Some scheme \/
      rq_environ rq "X_FORWARDED_PROTO" = None /\ rq_environ rq "wsgi.url_scheme" = Some scheme ->
    scheme <> "" -> rq_environ rq "HTTP_HOST" = Some host -> host <> "" ->
    d_wsdl D = String.concat "" (map written chunks) -> Forall dollar_free chunks ->
    exists rs, dispatch P D w rq = (w, [], Ok rs) /\ rs_content rs = Some (String.concat "" (map (filled scheme host) chunks)).
  Proof.
    intros H R K S S0 Ho H0 E F. destruct (route_wsdl _ P D w rq H R K) as (rs & Ed & Ec & _). exists rs. split; [exact Ed|].
    rewrite Ec. f_equal. now apply wsdl_filled.
  Qed.
  Lemma wsdl_served_plain P D w rq : no_hooks D -> request_method rq "GET" -> has_key rq "wsdl" \/ has_key rq "singleWsdl" ->
    rq_environ rq "HTTP_HOST" = None \/ rq_environ rq "HTTP_HOST" = Some "" ->
    exists rs, dispatch P D w rq = (w, [], Ok rs) /\ rs_content rs = Some (d_wsdl D).
  Proof.
    intros H R K S. destruct (route_wsdl _ P D w rq H R K) as (rs & Ed & Ec & _). exists rs. split; [exact Ed|].
    rewrite Ec. f_equal. now apply wsdl_no_host.
  Qed.
  Lemma dollar_lost D rq before after host : rq_environ rq "HTTP_HOST" = Some host -> host <> "" ->
    rq_environ rq "X_FORWARDED_PROTO" = Some "https" -> ~ char_in "$" before -> ~ char_in "$" after ->
    d_wsdl D = (before ++ "$$" ++ after)%string -> wsdl_content D rq = (before ++ "$" ++ after)%string.
  Proof.
    intros H H0 X B A E. unfold wsdl_content. rewrite H, X, E. destruct host as [|c s]; [congruence|]. cbn [truthy_str andb].
    unfold safe_substitute. rewrite <- (of_to (before ++ "$" ++ after)). f_equal.
    rewrite !to_l_app. rewrite <- length_to_l, !to_l_app, !app_length.
    rewrite (subst_lit _ (to_l before)) by exact B. f_equal. change (length (to_l "$$") + length (to_l after)) with (S (S (length (to_l after)))).
    change (subst_l (S (S (length (to_l after)))) ?m (to_l "$$" ++ to_l after)) with (dollar :: subst_l (S (length (to_l after))) m (to_l after)).
    rewrite <- (app_nil_r (to_l after)) at 2. replace (S (length (to_l after))) with (length (to_l after) + 1) by lia.
    rewrite (subst_lit _ (to_l after)) by exact A. rewrite subst_nil, app_nil_r. reflexivity.
  Qed.
  Lemma django_scheme e : e "wsgi.url_scheme" = Some "https" ->
    e "X_FORWARDED_PROTO" = None -> e "HTTP_X_FORWARDED_PROTO" = None ->
    e "WSGI.URL_SCHEME" = None -> e "HTTP_WSGI.URL_SCHEME" = None ->
    forall D content host, e "HTTP_HOST" = Some host -> host <> "" -> d_wsdl D = "${scheme}" ->
    wsdl_content D (new_request (django_environ e) content) = "http".
  Proof.
    intros _ A B C E D content host Hh H0 Ew. unfold wsdl_content. cbn [rq_environ new_request].
    unfold django_environ. change (django_key "X_FORWARDED_PROTO") with "X_FORWARDED_PROTO".
    change (django_key "wsgi.url_scheme") with "WSGI.URL_SCHEME". change (django_key "HTTP_HOST") with "HTTP_HOST".
    cbn [append]. rewrite A, B, C, E, Hh, Ew. destruct host; [congruence|]. reflexivity.
  Qed.

  (** ** WSGI *)
  Lemma substring_app s t : substring 0 (String.length s) (s ++ t) = s.
  Proof. induction s as [|c s IH]; cbn; [now destruct t|]. now rewrite IH. Qed.
  Lemma wsgi_exact P D w e body rest :
    e "CONTENT_LENGTH" = Some (dec_Z (Z.of_nat (String.length body))) ->
    wsgi_app P D w e (body ++ rest) =
    let '(w', tr, r) := dispatch P D w (new_request e body) in
    (w', tr, res_map (fun rs => (status_line (rs_status rs), rs_headers rs, rs_content rs)) r).
  Proof.
    intros H. unfold wsgi_app. rewrite H.
    assert (N : String.eqb (dec_Z (Z.of_nat (String.length body))) "" = false).
    { destruct (String.eqb_spec (dec_Z (Z.of_nat (String.length body))) "") as [E|]; [|reflexivity].
      assert (X := int_of_dec_Z (Z.of_nat (String.length body))). rewrite E in X. discriminate X. }
    rewrite N, int_of_dec_Z. destruct (Z.ltb_spec (Z.of_nat (String.length body)) 0) as [L|L]; [lia|].
    rewrite Nat2Z.id, substring_app. destruct (dispatch P D w _) as [[w' tr] [rs|er]]; reflexivity.
  Qed.
  Lemma wsgi_empty P D w e input : e "CONTENT_LENGTH" = None \/ e "CONTENT_LENGTH" = Some "" ->
    wsgi_app P D w e input =
    let '(w', tr, r) := dispatch P D w (new_request e "") in
    (w', tr, res_map (fun rs => (status_line (rs_status rs), rs_headers rs, rs_content rs)) r).
  Proof.
    intros [H | H]; unfold wsgi_app; rewrite H; cbn [String.eqb Z.ltb Z.compare Z.to_nat];
    (replace (substring 0 0 input) with "" by (now destruct input));
    destruct (dispatch P D w _) as [[w' tr] [rs|er]]; reflexivity.
  Qed.
  Lemma wsgi_garbage P D w e input s : e "CONTENT_LENGTH" = Some s -> s <> "" -> (forall z, int_of_str s <> Ok z) ->
    wsgi_app P D w e input = (w, [], Err ValueError).
  Proof.
    intros H N G. unfold wsgi_app. rewrite H. destruct (String.eqb_spec s ""); [contradiction|].
    destruct (int_of_str_cases s) as [[z E]|E]; [destruct (G z E)|]. now rewrite E.
  Qed.
  Lemma wsgi_negative P D w e input z : e "CONTENT_LENGTH" = Some (dec_Z z) -> (z < 0)%Z ->
    wsgi_app P D w e input =
    let '(w', tr, r) := dispatch P D w (new_request e input) in
    (w', tr, res_map (fun rs => (status_line (rs_status rs), rs_headers rs, rs_content rs)) r).
  Proof.
    intros H L. unfold wsgi_app. rewrite H.
    assert (N : String.eqb (dec_Z z) "" = false).
    { destruct (String.eqb_spec (dec_Z z) "") as [E|]; [|reflexivity].
      assert (X := int_of_dec_Z z). rewrite E in X. discriminate X. }
    rewrite N, int_of_dec_Z. destruct (Z.ltb_spec z 0); [|lia].
    destruct (dispatch P D w _) as [[w' tr] [rs|er]]; reflexivity.
  Qed.
  Lemma adapters_agree P D w e content :
    flask_dispatch P D w e content =
    let '(w', tr, r) := dispatch P D w (new_request e content) in
    (w', tr, res_map (fun rs => (rs_status rs, rs_headers rs, rs_content rs)) r).
  Proof. unfold flask_dispatch, adapter. destruct (dispatch P D w _) as [[w' tr] [rs|er]]; reflexivity. Qed.
End D.
Lemma status_lines n : exists reason, status_line n = (dec_Z n ++ " " ++ reason)%string /\
  (n = 200%Z -> reason = "OK") /\ (n = 500%Z -> reason = "Internal Server Error").
Proof. eexists. split; [reflexivity|]. split; intros ->; reflexivity. Qed.
