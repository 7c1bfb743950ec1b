(** Addresses: urllib.parse.urlsplit, urlparse, urlunparse and urlunsplit of the
    standard library (3.11), the template filters url_template and url_component
    (/repo/soapfish/utils.py:98-111) and the location of a stub
    (/repo/soapfish/soap.py:80-101).

    Simplifications:
    - what the standard library checks about a host in brackets (an IPv6 address)
      and about a host with letters beyond ASCII (whether it would hold a
      delimiter after normalisation) is a parameter, [checked];
    - of the attributes of a parsed address only the six components are there
      (not hostname, port, username and password, which the templates do not use). *)
From Coq Require Import String Ascii List ZArith NArith Bool.
From Verif Require Import PyBase PyHttp.
Import ListNotations.
Open Scope string_scope.
Open Scope list_scope.

Record url := mkUrl {
  u_scheme : string;
  u_netloc : string;
  u_path : string;
  u_params : string;
  u_query : string;
  u_fragment : string }.

Definition is_alpha (c : ascii) : bool := in_range 65 90 c || in_range 97 122 c.
(** urllib.parse.scheme_chars *)
Definition scheme_char (c : ascii) : bool := is_alpha c || is_digit c || char_in c "+-.".
(** _WHATWG_C0_CONTROL_OR_SPACE and _UNSAFE_URL_BYTES_TO_REMOVE *)
Definition c0_or_space (c : ascii) : bool := in_range 0 32 c.
Definition unsafe_byte (c : ascii) : bool := in_range 9 10 c || in_range 13 13 c.
Definition is_ascii (c : ascii) : bool := in_range 0 127 c.
(** uses_params and uses_netloc *)
Definition uses_params : list string :=
  [""; "ftp"; "hdl"; "prospero"; "http"; "imap"; "https"; "shttp"; "rtsp"; "rtsps"; "rtspu"; "sip"; "sips"; "mms"; "sftp"; "tel"].
Definition uses_netloc : list string :=
  [""; "ftp"; "http"; "gopher"; "nntp"; "telnet"; "imap"; "wais"; "file"; "mms"; "https"; "shttp"; "snews"; "prospero"; "rtsp";
   "rtsps"; "rtspu"; "rsync"; "svn"; "svn+ssh"; "sftp"; "nfs"; "git"; "git+ssh"; "ws"; "wss"].

(** The scheme and the rest. *)
Definition split_scheme (l : list ascii) : list ascii * list ascii :=
  match partition_l ":" l with
  | ((c :: _) as p, Some r) =>
      if is_alpha c && forallb scheme_char p then (map lower_char p, r) else ([], l)
  | _ => ([], l)
  end.
(** _splitnetloc: up to the first of the delimiters. *)
Definition delimiter (c : ascii) : bool := char_in c "/?#".
Fixpoint until (p : ascii -> bool) (l : list ascii) : list ascii * list ascii :=
  match l with
  | [] => ([], [])
  | c :: t => if p c then ([], l) else let '(a, b) := until p t in (c :: a, b)
  end.
Definition split_netloc (l : list ascii) : list ascii * list ascii :=
  match l with
  | a :: b :: t => if Ascii.eqb a "/" && Ascii.eqb b "/" then until delimiter t else ([], l)
  | _ => ([], l)
  end.
(** The checks on the host part. *)
Definition netloc_ok (checked : string -> bool) (l : list ascii) : bool :=
  let opens := existsb (Ascii.eqb "[") l in
  let closes := existsb (Ascii.eqb "]") l in
  if Bool.eqb opens closes then
    if opens || negb (forallb is_ascii l) then checked (of_l l) else true
  else false.
(** [url.split(c, 1)] when [c] is there. *)
Definition cut (c : ascii) (l : list ascii) : list ascii * list ascii :=
  match partition_l c l with (a, Some b) => (a, b) | (a, None) => (l, []) end.

(** _splitparams: the first semicolon after the last slash. *)
Fixpoint last_slash (l : list ascii) : option (list ascii * list ascii) :=
  match l with
  | [] => None
  | c :: t =>
      match last_slash t with
      | Some (a, b) => Some (c :: a, b)
      | None => if Ascii.eqb c "/" then Some ([c], t) else None
      end
  end.
Definition split_params (l : list ascii) : list ascii * list ascii :=
  let '(a, b) := match last_slash l with Some p => p | None => ([], l) end in
  let '(c, d) := cut ";" b in (a ++ c, d).

(** urlsplit and urlparse *)
Definition urlparse (checked : string -> bool) (s : string) : res url :=
  let l := filter (fun c => negb (unsafe_byte c)) (lstrip_l c0_or_space (to_l s)) in
  let '(scheme, l) := split_scheme l in
  let '(netloc, l) := split_netloc l in
  if negb (netloc_ok checked netloc) then Err ValueError
  else
    let '(l, fragment) := cut "#" l in
    let '(l, query) := cut "?" l in
    let '(path, params) :=
      if str_in (of_l scheme) uses_params && existsb (Ascii.eqb ";") l then split_params l else (l, []) in
    Ok (mkUrl (of_l scheme) (of_l netloc) (of_l path) (of_l params) (of_l query) (of_l fragment)).

(** urlunparse and urlunsplit *)
Definition urlunparse (u : url) : string :=
  let url := if String.eqb (u_params u) "" then u_path u else (u_path u ++ ";" ++ u_params u)%string in
  let url :=
    if negb (String.eqb (u_netloc u) "") || (negb (String.eqb (u_scheme u) "") && str_in (u_scheme u) uses_netloc) ||
       String.prefix "//" url
    then
      let url := if negb (String.eqb url "") && negb (String.prefix "/" url) then ("/" ++ url)%string else url in
      ("//" ++ u_netloc u ++ url)%string
    else url in
  let url := if String.eqb (u_scheme u) "" then url else (u_scheme u ++ ":" ++ url)%string in
  let url := if String.eqb (u_query u) "" then url else (url ++ "?" ++ u_query u)%string in
  if String.eqb (u_fragment u) "" then url else (url ++ "#" ++ u_fragment u)%string.

(** url_template, utils.py:108-111 *)
Definition url_template (checked : string -> bool) (s : string) : res string :=
  u <- urlparse checked s ;;
  Ok (urlunparse (mkUrl "${scheme}" "${host}" (u_path u) (u_params u) (u_query u) (u_fragment u))).
(** url_component, utils.py:101-106 *)
Definition url_component (checked : string -> bool) (s item : string) : res string :=
  u <- urlparse checked s ;;
  match assoc item [("scheme", u_scheme u); ("netloc", u_netloc u); ("path", u_path u); ("params", u_params u);
                    ("query", u_query u); ("fragment", u_fragment u)] with
  | Some v => Ok v
  | None => Err ValueError
  end.

(** Stub.__init__, soap.py:87-101: what a stub posts to.  [template] is the location
    of the service, [scheme] and [host] are the class attributes SCHEME and HOST. *)
Inductive location_arg :=
| LNone
| LText (s : string)
| LCall (f : string -> list (string * string) -> res string)
| LOther.
Definition stub_location (template scheme host : string) (location : location_arg) : res string :=
  let context := [("scheme", scheme); ("host", host)] in
  match location with
  | LNone => Ok (safe_substitute context template)
  | LCall f => f template context
  | LText s => Ok s
  | LOther => Err TypeError
  end.
