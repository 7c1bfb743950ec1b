(** C49, C50, C66: HTTP headers, the served WSDL, the WSGI application. *)
From Coq Require Import String Ascii List ZArith NArith Bool.
From Verif Require Import PyBase Xml PyVal XsdSimple XsdComplex XsdSchema PyHttp Soap SpecSoap Dispatch SpecDispatch SpecHttp
  PfHttp ExEnv ExSoap.
Import ListNotations.
Open Scope string_scope.
Open Scope list_scope.

(** ** C49 *)
(** SOAP 1.2: the action of the client is the one the server determines, under
    WSGI and Flask and under Django, unless it has a quote or two backslashes
    in a row. *)
Theorem C49_soap12_partial :
  forall base action, ~ char_in quote_c action -> ~ double_backslash action ->
  let e := wsgi_environ base (request_headers V12 action) in
  determine_soap_action V12 e = Some action /\ determine_soap_action V12 (django_environ e) = Some action.
Proof. exact action12. Qed.
Print Assumptions C49_soap12_partial.
(** Two backslashes become one; after a quote a semicolon cuts the action off. *)
Theorem C49_soap12_backslash_refuted :
  forall base, let bb := String bslash (String bslash "") in let b := String bslash "" in
  determine_soap_action V12 (wsgi_environ base (request_headers V12 bb)) = Some b.
Proof. exact action12_lost. Qed.
Print Assumptions C49_soap12_backslash_refuted.
Theorem C49_soap12_quote_refuted :
  forall base,
  determine_soap_action V12 (wsgi_environ base (request_headers V12 (String quote_c ";b"))) = Some "".
Proof. exact action12_cut. Qed.
Print Assumptions C49_soap12_quote_refuted.
(** SOAP 1.1 under Django: every nonempty action without quotes. *)
Theorem C49_soap11_django_partial :
  forall base action, clean_environ base -> action <> "" -> ~ char_in quote_c action ->
  determine_soap_action V11 (django_environ (wsgi_environ base (request_headers V11 action))) = Some action.
Proof. exact action11_django. Qed.
Print Assumptions C49_soap11_django_partial.
Theorem C49_soap11_quote_refuted :
  forall base action a, char_in quote_c action ->
  determine_soap_action V11 (django_environ (wsgi_environ base (request_headers V11 action))) = Some a -> a <> action.
Proof. exact action11_quotes. Qed.
Print Assumptions C49_soap11_quote_refuted.
(** SOAP 1.1 under WSGI and Flask: the action never arrives. *)
Theorem C49_soap11_wsgi_refuted :
  forall base action, clean_environ base ->
  determine_soap_action V11 (wsgi_environ base (request_headers V11 action)) = None.
Proof. exact action11_wsgi. Qed.
Print Assumptions C49_soap11_wsgi_refuted.

Example C49_nonvacuous :
  ~ char_in quote_c "urn:a;b=c d" /\ ~ double_backslash "urn:a;b=c d" /\
  clean_environ (echo_environ [("REQUEST_METHOD", "POST"); ("HTTP_HOST", "h")]) /\
  wsgi_environ (fun _ => None) (request_headers V11 "act") "HTTP_SOAPACTION" = Some "act" /\
  wsgi_environ (fun _ => None) (request_headers V11 "act") "CONTENT_TYPE" = Some "text/xml".
Proof.
  split; [|split; [|split; [|split; reflexivity]]].
  - unfold char_in. cbn. intuition discriminate.
  - intros (l1 & l2 & H). assert (I : In bslash (to_l "urn:a;b=c d")) by (rewrite H; apply in_elt). revert I. cbn. intuition discriminate.
  - intros k H. cbn in H. repeat destruct H as [<- | H]; try reflexivity. destruct H.
Qed.

(** ** C50 *)
(** The generated document, cut into texts without '$', places for scheme and
    host, and other places and dollars, is served with the places for scheme and
    host filled in and all else as it is. *)
Theorem C50_filled_partial :
  forall W P (D : dispatcher W) w rq scheme host chunks, no_hooks D ->
  request_method rq "GET" -> has_key rq "wsdl" \/ has_key rq "singleWsdl" ->
  rq_environ rq "X_FORWARDED_PROTO" = Some scheme \/
    rq_environ rq "X_FORWARDED_PROTO" = None /\ rq_environ rq "wsgi.url_scheme" = Some scheme ->
  scheme <> "" -> rq_environ rq "HTTP_HOST" = Some host -> host <> "" ->
  d_wsdl D = String.concat "" (map written chunks) -> Forall dollar_free chunks ->
  exists rs, dispatch P D w rq = (w, [], Ok rs) /\ rs_content rs = Some (String.concat "" (map (filled scheme host) chunks)).
Proof. exact wsdl_served. Qed.
Print Assumptions C50_filled_partial.
(** Without a Host header the document is served as it is. *)
Theorem C50_no_host_partial :
  forall W P (D : dispatcher W) w rq, no_hooks D ->
  request_method rq "GET" -> has_key rq "wsdl" \/ has_key rq "singleWsdl" ->
  rq_environ rq "HTTP_HOST" = None \/ rq_environ rq "HTTP_HOST" = Some "" ->
  exists rs, dispatch P D w rq = (w, [], Ok rs) /\ rs_content rs = Some (d_wsdl D).
Proof. exact wsdl_served_plain. Qed.
Print Assumptions C50_no_host_partial.
(** But "$$" in the document (say, in a pattern) is served as "$". *)
Theorem C50_dollar_refuted :
  forall W (D : dispatcher W) rq before after host, rq_environ rq "HTTP_HOST" = Some host -> host <> "" ->
  rq_environ rq "X_FORWARDED_PROTO" = Some "https" -> ~ char_in "$" before -> ~ char_in "$" after ->
  d_wsdl D = (before ++ "$$" ++ after)%string -> wsdl_content D rq = (before ++ "$" ++ after)%string.
Proof. exact dollar_lost. Qed.
Print Assumptions C50_dollar_refuted.
(** And under Django the scheme of the server is not found: a document served
    over https says http. *)
Theorem C50_django_refuted :
  forall W e, e "wsgi.url_scheme" = Some "https" ->
  e "X_FORWARDED_PROTO" = None -> e "HTTP_X_FORWARDED_PROTO" = None ->
  e "WSGI.URL_SCHEME" = None -> e "HTTP_WSGI.URL_SCHEME" = None ->
  forall (D : dispatcher W) content host, e "HTTP_HOST" = Some host -> host <> "" -> d_wsdl D = "${scheme}" ->
  wsdl_content D (new_request (django_environ e) content) = "http".
Proof. exact django_scheme. Qed.
Print Assumptions C50_django_refuted.

Example C50_nonvacuous :
  Forall dollar_free [Lit "<a b='"; Hole "version"; Lit "' c='"; Scheme; Lit "' d='[0-9]{3}"; Dollar "'"] /\
  String.concat "" (map (filled "https" "h") [Lit "<a b='"; Hole "version"; Lit "' c='"; Scheme; Lit "' d='[0-9]{3}"; Dollar "'"]) =
    "<a b='${version}' c='https' d='[0-9]{3}$'" /\
  d_wsdl (echo_D [] []) = String.concat "" (map written [Lit "<wsdl "; Scheme; Lit "://"; Host; Lit "/>"]) /\
  Forall dollar_free [Lit "<wsdl "; Scheme; Lit "://"; Host; Lit "/>"] /\
  match dispatch echo_P (echo_D [] []) [] (echo_get "wsdl") with
  | (_, _, Ok rs) => rs_content rs = Some "<wsdl https://h/>"
  | _ => False
  end.
Proof.
  split; [|split; [reflexivity|split; [reflexivity|split; [|reflexivity]]]].
  - repeat constructor; unfold dollar_free, char_in; try discriminate; try (cbn; intuition discriminate).
    exists "v"%char, "ersion". split; [reflexivity|]. split; [vm_compute; tauto|]. intros d H. vm_compute in H. vm_compute. tauto.
  - repeat constructor; unfold dollar_free, char_in; cbn; intuition discriminate.
Qed.

(** ** C66 *)
(** The dispatcher is given exactly the CONTENT_LENGTH bytes of the body,
    whatever follows on the connection, and the status line, the headers and
    the content of its response are what the server is given. *)
Theorem C66_exact_body :
  forall W P (D : dispatcher W) w e body rest,
  e "CONTENT_LENGTH" = Some (dec_Z (Z.of_nat (String.length body))) ->
  wsgi_app P D w e (body ++ rest) =
  let '(w', tr, r) := dispatch P D w (new_request e body) in
  (w', tr, res_map (fun rs => (status_line (rs_status rs), rs_headers rs, rs_content rs)) r).
Proof. exact wsgi_exact. Qed.
Print Assumptions C66_exact_body.
Theorem C66_no_length :
  forall W P (D : dispatcher W) w e input, e "CONTENT_LENGTH" = None \/ e "CONTENT_LENGTH" = Some "" ->
  wsgi_app P D w e input =
  let '(w', tr, r) := dispatch P D w (new_request e "") in
  (w', tr, res_map (fun rs => (status_line (rs_status rs), rs_headers rs, rs_content rs)) r).
Proof. exact wsgi_empty. Qed.
Print Assumptions C66_no_length.
Theorem C66_status_line :
  forall n, exists reason, status_line n = (dec_Z n ++ " " ++ reason)%string /\
  (n = 200%Z -> reason = "OK") /\ (n = 500%Z -> reason = "Internal Server Error").
Proof. exact status_lines. Qed.
Print Assumptions C66_status_line.
(** A length that is no number raises ValueError before anything is read. *)
Theorem C66_garbage :
  forall W P (D : dispatcher W) w e input s, e "CONTENT_LENGTH" = Some s -> s <> "" -> (forall z, int_of_str s <> Ok z) ->
  wsgi_app P D w e input = (w, [], Err ValueError).
Proof. exact wsgi_garbage. Qed.
Print Assumptions C66_garbage.
(** A negative length: everything is read. *)
Theorem C66_negative_refuted :
  forall W P (D : dispatcher W) w e input z, e "CONTENT_LENGTH" = Some (dec_Z z) -> (z < 0)%Z ->
  wsgi_app P D w e input =
  let '(w', tr, r) := dispatch P D w (new_request e input) in
  (w', tr, res_map (fun rs => (status_line (rs_status rs), rs_headers rs, rs_content rs)) r).
Proof. exact wsgi_negative. Qed.
Print Assumptions C66_negative_refuted.

Example C66_nonvacuous :
  let e := echo_environ [("REQUEST_METHOD", "POST"); ("CONTENT_LENGTH", "5")] in
  dec_Z (Z.of_nat (String.length "hello")) = "5" /\
  match wsgi_app echo_P (echo_D [] []) [] e "helloGET / HTTP/1.1" with
  | (w, _, Ok (st, _, _)) => w = ["hello"] /\ st = "200 OK"
  | _ => False
  end /\
  (forall z, int_of_str "five" <> Ok z).
Proof. repeat split. discriminate. Qed.
