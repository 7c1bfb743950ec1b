(** The names in generated code: capitalize, remove_namespace and get_type of
    /repo/soapfish/utils.py:40-41, 86-87, 115-143.  For uncapitalize see
    Client.v. *)
From Coq Require Import String Ascii List ZArith NArith Bool.
From Verif Require Import PyBase.
Import ListNotations.
Open Scope string_scope.
Open Scope list_scope.

(** capitalize, utils.py:86-87 *)
Definition capitalize (value : string) : res string :=
  match value with
  | "" => Err IndexError
  | String c t => Ok (String (upper_char c) t)
  end.

(** remove_namespace, utils.py:40-41 *)
Definition remove_namespace (qname : option string) : option string :=
  match qname with
  | None | Some "" => None
  | Some q => Some (last (str_split ":"%char q) "")
  end.

(** [ns in xsd_namespaces]: prefixes of the XSD namespace, None for the default
    namespace. *)
Definition prefix_in (p : option string) (l : list (option string)) : bool :=
  existsb (fun q => match p, q with None, None => true | Some a, Some b => String.eqb a b | _, _ => false end) l.

(** get_type of a string, utils.py:126-143: the Python expression for the type
    with this qualified name. *)
Definition get_type (xsd_namespaces : list (option string)) (known_types : option (list string)) (qname : string) : res string :=
  if String.eqb qname "" then Err ValueError
  else
    p <- match str_split ":"%char qname with
         | [name] => Ok (None, name)
         | [ns; name] => Ok (Some ns, name)
         | _ => Err ValueError
         end ;;
    let (ns, name) := p : option string * string in
    name <- capitalize name ;;
    if prefix_in ns xsd_namespaces then Ok ("xsd." ++ name)%string
    else if match known_types with Some l => str_in name l | None => false end then Ok name
    else Ok ("__name__ + '." ++ name ++ "'")%string.
