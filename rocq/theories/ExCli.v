(** A case for C99. *)
From Coq Require Import String Ascii List ZArith NArith Bool.
From Verif Require Import PyBase PyPath Cli SpecCli.
Import ListNotations.
Open Scope nat_scope.
Open Scope string_scope.
Open Scope list_scope.

(** Two files and nothing else; paths may begin with "./". *)
Definition e_files : string -> option string :=
  fun p => if String.eqb p "shop.wsdl" then Some "<definitions/>"
           else if String.eqb p "shop.py" then Some "# written by hand" else None.
Definition e_world : world := mkW e_files "".
Definition e_real (p : string) : string := if String.prefix "./" p then substring 2 (String.length p - 2) p else p.
Definition e_writable (p : string) : bool := negb (String.eqb p "").
Definition e_readable (p : string) : bool := true.
Definition e_fetch (url : string) : res string := Err OSError.
(** Code for every text but the empty one. *)
Definition e_xsd (files : string -> option string) (xml cwd : string) : res string :=
  if String.eqb xml "" then Err (Exn EXMLSyntaxError "") else Ok ("# XSD " ++ xml ++ " in " ++ cwd ++ " ")%string.
Definition e_wsdl (files : string -> option string) (xml : string) (target : option flag) (wsa : bool) (cwd : string) : res string :=
  if String.eqb xml "" then Err (Exn EXMLSyntaxError "")
  else Ok ((match target with Some Client => "# client" | _ => "# server" end) ++ (if wsa then " wsa" else "") ++ " ")%string.
Definition e_module (files : string -> option string) (path : string) : res string :=
  match files path with Some _ => Ok "<xml/>" | None => Err OSError end.
Definition e_main := main e_real e_writable e_readable "/home" "" e_fetch "usage" e_xsd e_wsdl e_module e_module.
(** What the files hold at the end, and the end. *)
Definition e_end (r : list world * outcome) : option string * option string * string * outcome :=
  let w := last (fst r) e_world in (w_files w "shop.wsdl", w_files w "shop.py", w_out w, snd r).
