(** Vocabulary for what a server reads from the texts of a request. *)
From Coq Require Import String Ascii List ZArith NArith Bool.
From Verif Require Import PyBase.
Import ListNotations.
Open Scope string_scope.
Open Scope list_scope.

(** ** Query strings *)
(** [d] is a hexadecimal digit for [n]. *)
Definition hex_digit (d : ascii) (n : nat) : Prop :=
  nth_error (to_l "0123456789abcdef") n = Some d \/ nth_error (to_l "0123456789ABCDEF") n = Some d.
(** [w] is a way to write [s]: characters other than those in [special] may stand
    for themselves, '+' is a blank, and '%xy' is the ASCII character of that number. *)
Inductive encodes (special : list ascii) : string -> string -> Prop :=
| en_nil : encodes special "" ""
| en_plain c w s : ~ In c ("+" :: "%" :: special)%char -> encodes special w s -> encodes special (String c w) (String c s)
| en_blank w s : encodes special w s -> encodes special (String "+" w) (String " " s)
| en_hex a b x y w s : hex_digit a x -> hex_digit b y -> x < 8 -> encodes special w s ->
    encodes special (String "%" (String a (String b w))) (String (ascii_of_nat (16 * x + y)) s).
(** A name with a value, or alone. *)
Inductive encodes_pair : string -> string * string -> Prop :=
| ep_value wn n wv v : encodes ["&"; "="]%char wn n -> encodes ["&"]%char wv v -> encodes_pair (wn ++ "=" ++ wv)%string (n, v)
| ep_alone wn n : encodes ["&"; "="]%char wn n -> wn <> "" -> encodes_pair wn (n, "").
Definition encodes_query (q : string) (pairs : list (string * string)) : Prop :=
  exists ws, q = String.concat "&" ws /\ Forall2 encodes_pair ws pairs.

(** ** Content types *)
Definition the_quote : ascii := ascii_of_nat 34.
Definition the_tab : ascii := ascii_of_nat 9.
Definition the_backslash : ascii := ascii_of_nat 92.
Definition blanks (s : string) : Prop := forall c, In c (to_l s) -> c = " "%char \/ c = the_tab.
(** Printable ASCII characters without blanks, ';', '=', quotes and backslashes. *)
Definition token (s : string) : Prop :=
  s <> "" /\ forall c, In c (to_l s) -> 33 <= nat_of_ascii c <= 126 /\ ~ In c [";"; "="; the_quote; the_backslash]%char.
(** What may be between quotes. *)
Definition quotable (s : string) : Prop := forall c, In c (to_l s) -> c <> the_quote /\ c <> the_backslash.
(** A parameter of a content type: ; name=value or ; name="value" *)
Inductive writes_param : string -> string * string -> Prop :=
| wp_token b1 b2 n v : blanks b1 -> blanks b2 -> token n -> token v ->
    writes_param (";" ++ b1 ++ n ++ "=" ++ v ++ b2)%string (n, v)
| wp_quoted b1 b2 n v : blanks b1 -> blanks b2 -> token n -> quotable v ->
    writes_param (";" ++ b1 ++ n ++ "=" ++ String the_quote v ++ String the_quote b2)%string (n, v).
Definition writes_type (line media : string) (params : list (string * string)) : Prop :=
  exists b1 b2 ws, blanks b1 /\ blanks b2 /\ token media /\ Forall2 writes_param ws params /\
    line = (b1 ++ media ++ b2 ++ String.concat "" ws)%string.
(** 'action', in any mixture of cases. *)
Definition named_action (n : string) : Prop :=
  Forall2 (fun c two => In c (to_l two)) (to_l n) ["aA"; "cC"; "tT"; "iI"; "oO"; "nN"].
(** The value of the last parameter of that name. *)
Definition action_param (params : list (string * string)) (a : string) : Prop :=
  exists l1 n l2, params = l1 ++ (n, a) :: l2 /\ named_action n /\ forall n' v', In (n', v') l2 -> ~ named_action n'.

(** [a] is [s] without its quotes. *)
Inductive without_quotes : string -> string -> Prop :=
| wq_nil : without_quotes "" ""
| wq_quote s a : without_quotes s a -> without_quotes (String the_quote s) a
| wq_other c s a : c <> the_quote -> without_quotes s a -> without_quotes (String c s) (String c a).
