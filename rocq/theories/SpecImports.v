(** Vocabulary for following imports. *)
From Coq Require Import String Ascii List.
From Verif Require Import PyBase SpecPath GenImports.
Import ListNotations.
Open Scope string_scope.
Open Scope list_scope.

(** A location with "://" in it is a URL, everything else is a path. *)
Definition remote (s : string) : Prop := exists a b, s = (a ++ "://" ++ b)%string.
(** The path of a directory: "/" or "/a/b". *)
Definition path_of (dir : list string) : string :=
  match dir with [] => "/" | _ => String.concat "" (map (append "/") dir) end.
(** The directory of the document opened as [by_]; [base] is that of the document
    the program started with. *)
Definition dir_of (base : list string) (by_ : option string) : list string :=
  match by_ with None => base | Some p => directory (denotes [] p) end.
Definition local (by_ : option string) : Prop := match by_ with None => True | Some p => ~ remote p end.
(** No directory on the way from the root to [base] can be read as a document. *)
Definition reads_files {D} (open : string -> res D) (base : list string) : Prop :=
  forall p d, ~ remote p -> open p = Ok d -> ~ exists rest, base = denotes [] p ++ rest.
(** Only the given files and URLs can be read. *)
Definition reads_only {D} (open : string -> res D) (files : list (list string)) (urls : list string) : Prop :=
  forall p, (forall d, open p = Ok d -> (remote p -> In p urls) /\ (~ remote p -> In (denotes [] p) files)) /\
            open p <> Err RecursionError.
(** The locations under which code is written. *)
Fixpoint written (l : list event) : list string :=
  match l with
  | [] => []
  | Emitted (Some s) _ :: t => s :: written t
  | _ :: t => written t
  end.
(** The location [l], relative to [base], stands for the document [path]. *)
Definition stands_for (base : list string) (l path : string) : Prop :=
  l = path \/ ~ remote l /\ ~ remote path /\ denotes base l = denotes [] path.
(** Imports of a WSDL document given by mere names of files. *)
Definition plain_imports (d : wdoc) : Prop := Forall proper (wd_imports d).
(** [P] holds of the document [doc] or of one that was read. *)
Definition some_document (P : wdoc -> Prop) (open : string -> res wdoc) (doc : wdoc) (ev : list (option string * string * string)) : Prop :=
  P doc \/ exists by_ location path d, In (by_, location, path) ev /\ open path = Ok d /\ P d.
