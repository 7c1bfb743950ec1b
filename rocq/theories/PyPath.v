(** Paths of Python's posixpath, as far as the generators use them
    (/repo/soapfish/utils.py:19-26, /repo/soapfish/xsd2py.py:19-37).  Strings are
    sequences of characters up to 255, as everywhere in the model. *)
From Coq Require Import String Ascii List ZArith NArith Bool.
From Verif Require Import PyBase.
Import ListNotations.
Open Scope string_scope.
Open Scope list_scope.

Definition slash : ascii := "/"%char.
Definition is_slash (c : ascii) : bool := Ascii.eqb c slash.

(** [sep.join(l)] *)
Fixpoint join_with (sep : string) (l : list string) : string :=
  match l with
  | [] => ""
  | [s] => s
  | s :: t => (s ++ sep ++ join_with sep t)%string
  end.

Definition starts_slash (p : string) : bool := match p with String c _ => is_slash c | "" => false end.
Definition ends_slash (p : string) : bool := match rev (to_l p) with c :: _ => is_slash c | [] => false end.

(** os.path.join of two paths. *)
Definition path_join (a b : string) : string :=
  if starts_slash b then b
  else if String.eqb a "" || ends_slash a then (a ++ b)%string
  else (a ++ "/" ++ b)%string.

(** os.path.dirname: up to the last slash, without trailing slashes unless there
    is nothing else. *)
Definition dirname (p : string) : string :=
  let head := lstrip_l (fun c => negb (is_slash c)) (rev (to_l p)) in
  match lstrip_l is_slash head with
  | [] => of_l (rev head)
  | h => of_l (rev h)
  end.

(** os.path.normpath; [acc] is new_comps, reversed. *)
Definition norm_step (absolute : bool) (acc : list string) (comp : string) : list string :=
  if String.eqb comp "" || String.eqb comp "." then acc
  else if negb (String.eqb comp "..")
          || match acc with [] => negb absolute | last :: _ => String.eqb last ".." end
  then comp :: acc
  else match acc with [] => [] | _ :: acc' => acc' end.
Definition initial_slashes (p : string) : string :=
  match to_l p with
  | a :: b :: c :: _ => if is_slash a then (if is_slash b && negb (is_slash c) then "//" else "/") else ""
  | [a; b] => if is_slash a then (if is_slash b then "//" else "/") else ""
  | [a] => if is_slash a then "/" else ""
  | [] => ""
  end.
Definition normpath (p : string) : string :=
  if String.eqb p "" then "."
  else
    let comps := rev (fold_left (norm_step (starts_slash p)) (str_split slash p) []) in
    let r := (initial_slashes p ++ join_with "/" comps)%string in
    if String.eqb r "" then "." else r.

(** os.path.abspath *)
Definition abspath (getcwd p : string) : string :=
  normpath (if starts_slash p then p else path_join getcwd p).

(** The common prefix of two lists, taken off both. *)
Fixpoint strip_common (a b : list string) : list string * list string :=
  match a, b with
  | x :: a', y :: b' => if String.eqb x y then strip_common a' b' else (a, b)
  | _, _ => (a, b)
  end.
(** os.path.relpath *)
Definition relpath (getcwd path start : string) : res string :=
  if String.eqb path "" then Err ValueError
  else
    let pieces p := filter (fun x => negb (String.eqb x "")) (str_split slash (abspath getcwd p)) in
    let (s, p) := strip_common (pieces start) (pieces path) in
    match map (fun _ => "..") s ++ p with
    | [] => Ok "."
    | rel => Ok (join_with "/" rel)
    end.

(** ['://' in s] *)
Fixpoint is_url (s : string) : bool :=
  prefix "://" s || match s with String _ t => is_url t | "" => false end.

(** utils.resolve_location, utils.py:19-26: the path, the new cwd and the
    location. *)
Definition resolve_location (getcwd path cwd : string) : res (string * string * string) :=
  if is_url path then Ok (path, cwd, path)
  else
    let path := path_join cwd path in
    location <- relpath getcwd path cwd ;;
    Ok (path, dirname path, location).
