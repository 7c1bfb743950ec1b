(** Vocabulary for names in generated code. *)
From Coq Require Import String Ascii List.
From Verif Require Import PyBase.

(** The name begins with a lower case (an upper case) letter; both are the
    letters of ASCII. *)
Definition lower_first (s : string) : Prop := exists c t, s = String c t /\ In c (list_ascii_of_string "abcdefghijklmnopqrstuvwxyz").
Definition upper_first (s : string) : Prop := exists c t, s = String c t /\ In c (list_ascii_of_string "ABCDEFGHIJKLMNOPQRSTUVWXYZ").
Definition colon_free (s : string) : Prop := ~ In ":"%char (list_ascii_of_string s).
