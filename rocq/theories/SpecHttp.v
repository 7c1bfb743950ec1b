(** Vocabulary for what travels in HTTP headers and texts. *)
From Coq Require Import String Ascii List ZArith NArith Bool.
From Verif Require Import PyBase PyHttp PyVal Soap Dispatch.
Import ListNotations.
Open Scope string_scope.
Open Scope list_scope.

Definition char_in (c : ascii) (s : string) : Prop := In c (to_l s).
(** Two backslashes in a row. *)
Definition double_backslash (s : string) : Prop :=
  exists l1 l2, to_l s = l1 ++ bslash :: bslash :: l2.

(** The variables a server sets besides those for HTTP headers. *)
Definition clean_environ (base : environ) : Prop :=
  forall k, In k ["SOAPACTION"; "HTTP_SOAPACTION"; "ACTION"; "HTTP_ACTION"; "CONTENT_TYPE"; "HTTP_CONTENT_TYPE"] -> base k = None.

(** A document with places for the scheme and the host.  There may be others,
    ${name}, and dollars before characters that begin no name. *)
Inductive chunk := Lit (s : string) | Scheme | Host | Hole (name : string) | Dollar (c : ascii).
Definition letters : string := "ABCDEFGHIJKLMNOPQRSTUVWXYZabcdefghijklmnopqrstuvwxyz_".
Definition identifier (name : string) : Prop :=
  exists c s, name = String c s /\ char_in c letters /\ forall d, char_in d s -> char_in d (letters ++ "0123456789").
Definition written (c : chunk) : string :=
  match c with Lit s => s | Scheme => "${scheme}" | Host => "${host}" | Hole name => "${" ++ name ++ "}" | Dollar c => String "$" (String c "") end.
(** Only those for scheme and host are filled in. *)
Definition filled (scheme host : string) (c : chunk) : string :=
  match c with Scheme => scheme | Host => host | _ => written c end.
Definition dollar_free (c : chunk) : Prop :=
  match c with
  | Lit s => ~ char_in "$" s
  | Hole name => identifier name /\ name <> "scheme" /\ name <> "host"
  | Dollar c => ~ char_in c (letters ++ "{$")
  | _ => True
  end.

(** The status line for a status code: code and reason phrase. *)
Definition status_line (n : Z) : string := http_status_text (mkResp (PVal VNone) VNone n [] None).
