(** What C99 says in its own words. *)
From Coq Require Import String Ascii List ZArith NArith Bool.
From Verif Require Import PyBase PyPath Cli.
Import ListNotations.
Open Scope nat_scope.
Open Scope string_scope.
Open Scope list_scope.

(** The arguments that are not options. *)
Definition words (args : list arg) : list string :=
  flat_map (fun a => match a with Pos s => [s] | Flag _ => [] end) args.
Definition flags (args : list arg) : list flag :=
  flat_map (fun a => match a with Pos _ => [] | Flag f => [f] end) args.
(** A run that is not interrupted ends in this state in this way. *)
Definition ends (run : list world * outcome) (w : world) (o : outcome) : Prop := exists past, run = (past ++ [w], o).
(** A state in which the run may be interrupted. *)
Definition passes (run : list world * outcome) (w : world) : Prop := In w (fst run).
(** The file has the new text, nothing else is different. *)
Definition only_changes (w w' : world) (name text : string) : Prop :=
  w_files w' name = Some text /\ (forall p, p <> name -> w_files w' p = w_files w p) /\ w_out w' = w_out w.
Definition no_file_changes (w w' : world) : Prop := forall p, w_files w' p = w_files w p.
(** The files once the output has been opened. *)
Definition emptied (files : string -> option string) (name : string) : string -> option string :=
  fun p => if String.eqb p name then Some "" else files p.

(** The document an input argument means. *)
Inductive document (real : string -> string) (can_read : string -> bool) (stdin : string) (fetch : string -> res string)
    (files : string -> option string) : string -> string -> Prop :=
| doc_stdin : document real can_read stdin fetch files "-" stdin
| doc_url : forall path xml, path <> "-" -> is_url path = true -> fetch path = Ok xml ->
    document real can_read stdin fetch files path xml
| doc_file : forall path xml, path <> "-" -> is_url path = false -> can_read (real path) = true -> files (real path) = Some xml ->
    document real can_read stdin fetch files path xml.

(** Options that wsdl2py accepts: one of the targets, and perhaps -w. *)
Definition chooses (fs : list flag) (target : flag) (wsa : bool) : Prop :=
  (target = Client \/ target = Server) /\ In target fs /\ (forall f, In f fs -> f = target \/ f = UseWsa) /\
  (wsa = true <-> In UseWsa fs).
(** An accepted command line with an output file. *)
Definition line_to (t : tool) (args : list arg) (input output : string) (target : option flag) (wsa : bool) : Prop :=
  exists fs gs, args = map Flag fs ++ [Pos input; Pos output] ++ map Flag gs /\
    match t with
    | Wsdl2py => exists tg, target = Some tg /\ chooses (fs ++ gs) tg wsa
    | _ => fs = [] /\ gs = [] /\ target = None /\ wsa = false
    end.

(** The text without the white space around it. *)
Definition white (c : ascii) : Prop := In (nat_of_ascii c) [9; 10; 11; 12; 13; 32].
Definition stripped (code text : string) : Prop :=
  exists before after, list_ascii_of_string code = before ++ list_ascii_of_string text ++ after /\ Forall white before /\ Forall white after /\
    (forall c l, list_ascii_of_string text = c :: l -> ~ white c) /\ (forall l c, list_ascii_of_string text = l ++ [c] -> ~ white c).
(** The directory other documents are looked for in. *)
Definition folder (getcwd path : string) : string := dirname (if is_url path then path else abspath getcwd path).
