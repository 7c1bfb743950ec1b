(** What print and logging show of objects and errors: ComplexType.__str__
    (/repo/soapfish/xsd.py:888-891) and SOAPError.__str__
    (/repo/soapfish/core.py:13-14).

    Simplifications:
    - what str makes of lists, dates, NIL and other objects is taken from the
      interpreter ([o_str]); for lists this is the repr of the items;
    - values are trees, so an object that contains itself is not here;
    - the name of a class is the name it has in the environment. *)
From Coq Require Import String Ascii List ZArith NArith Bool.
From Verif Require Import PyBase PyVal XsdSimple XsdComplex.
Import ListNotations.
Open Scope nat_scope.
Open Scope string_scope.
Open Scope list_scope.

(** [', '.join(l)] *)
Fixpoint comma_join (l : list string) : string :=
  match l with
  | [] => ""
  | [s] => s
  | s :: t => (s ++ ", " ++ comma_join t)%string
  end.

(** The dictionary comprehension, xsd.py:889: [_meta.fields] are the fields that
    are neither attributes nor groups; a name keeps its first place. *)
Definition shown_values (d : classdef) (fs : list (string * pyval)) : list (string * pyval) :=
  fold_left (fun acc f => assoc_set (f_name f) (match assoc (f_name f) fs with Some v => v | None => VStr "<UNKNOWN FIELD>" end) acc)
    (filter is_plain (cd_fields d)) [].

(** [str(v)], xsd.py:888-891; [n] is what is left of the recursion limit. *)
Fixpoint obj_str (n : nat) (O : oracle) (E : env) (v : pyval) : res string :=
  match n with
  | 0 => Err RecursionError
  | S n' =>
      match v with
      | VObj c _ fs =>
          d <- get_class E c ;;
          items <- mapM (fun p => s <- obj_str n' O E (snd p) ;; Ok (fst p ++ "=" ++ s)%string) (shown_values d fs) ;;
          Ok ("<" ++ c ++ ": " ++ comma_join items ++ ">")%string
      | _ => Ok (py_str O v)
      end
  end.

(** [str(error)], core.py:13-14; code and message are texts, the actor may be None. *)
Definition error_str (code message : string) (actor : option string) : string :=
  ("[" ++ code ++ "] " ++ message ++ "; actor=" ++ match actor with Some a => a | None => "None" end)%string.
