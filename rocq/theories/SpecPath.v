(** What paths denote: a file or directory is the list of names leading to it
    from the root. *)
From Coq Require Import String Ascii List.
From Verif Require Import PyBase.
Import ListNotations.
Open Scope string_scope.
Open Scope list_scope.

(** The pieces of a path between its slashes. *)
Definition pieces (p : string) : list string := str_split "/"%char p.
(** Following a relative path from a directory. *)
Fixpoint walk (dir : list string) (l : list string) : list string :=
  match l with
  | [] => dir
  | c :: t =>
      if String.eqb c "" then walk dir t
      else if String.eqb c "." then walk dir t
      else if String.eqb c ".." then walk (removelast dir) t
      else walk (dir ++ [c]) t
  end.
(** What a path denotes when the current directory is [dir]. *)
Definition denotes (dir : list string) (p : string) : list string :=
  match p with
  | String "/"%char _ => walk [] (pieces p)
  | _ => walk dir (pieces p)
  end.
(** The names that may occur in a path that denotes something. *)
Definition proper (c : string) : Prop := c <> "" /\ c <> "." /\ c <> ".." /\ ~ In "/"%char (list_ascii_of_string c).
(** The directory of a file. *)
Definition directory (f : list string) : list string := removelast f.
