(** Addresses of web services as they are written (RFC 3986, section 3). *)
From Coq Require Import String Ascii List NArith Bool.
From Verif Require Import PyBase.
Import ListNotations.
Open Scope string_scope.
Open Scope list_scope.

Record address := mkAddr {
  a_scheme : string;
  a_authority : string;
  a_path : string;
  a_query : option string;
  a_fragment : option string }.
(** What follows the host. *)
Definition resource (a : address) : string :=
  a_path a ++ (match a_query a with Some q => "?" ++ q | None => "" end) ++
  (match a_fragment a with Some f => "#" ++ f | None => "" end).
(** The address at another scheme and host. *)
Definition at_host (scheme host : string) (a : address) : string := scheme ++ "://" ++ host ++ resource a.
Definition written (a : address) : string := at_host (a_scheme a) (a_authority a) a.

Definition holds (s : string) (c : ascii) : Prop := In c (to_l s).
(** None of the characters of [l] is in [s]. *)
Definition without (l s : string) : Prop := forall c, holds l c -> ~ holds s c.

Definition lower_letter (c : ascii) : Prop := (97 <= code c <= 122)%N.
Definition digit (c : ascii) : Prop := (48 <= code c <= 57)%N.
(** An absolute address with a host. *)
Definition absolute (a : address) : Prop :=
  (exists c t, a_scheme a = String c t /\ lower_letter c) /\
  (forall c, holds (a_scheme a) c -> lower_letter c \/ digit c \/ holds "+-." c) /\
  a_authority a <> "" /\ without "/?#[]" (a_authority a) /\ (forall c, holds (a_authority a) c -> (code c < 128)%N) /\
  (a_path a = "" \/ exists t, a_path a = String "/" t) /\ without "?#" (a_path a) /\
  (forall q, a_query a = Some q -> without "#" q) /\
  (forall c, holds (written a) c -> ~ In (code c) [9; 10; 13]%N).
(** No part that is there is empty. *)
Definition no_empty_part (a : address) : Prop :=
  a_query a <> Some "" /\ a_fragment a <> Some "" /\ (forall s, a_path a <> s ++ ";")%string.
