(** Generated services in use: the objects of PyService.v as the dispatcher
    (Dispatch.v) and the client (Client.v) see them. *)
From Coq Require Import String Ascii List ZArith NArith Bool.
From Verif Require Import PyBase Xml PyVal XsdComplex Dispatch Wsdl2Py PyLoad PyService.
Import ListNotations.
Open Scope string_scope.
Open Scope list_scope.

(** xsd.Method, xsd.py:1164-1184: [cls] gives the names of the header classes; a
    function is known by its name. *)
Definition as_method (cls : nat -> string) (m : gmethod) : method :=
  mkMethod (gm_op m) (gm_action m) (gm_in m) (gm_out m) (option_map cls (gm_ih m)) (option_map cls (gm_oh m)) (option_map fn_name (gm_fn m)).
(** soap.Service, soap.py:39-59, without [input_header]: the generated code gives
    none.  [schemas] are the numbers of its Schema objects, [fns] the functions of
    the module with the code put in by the user. *)
Definition as_service {W} (s : gservice) (schemas : list nat) (cls : nat -> string) (fns : string -> handler W) : service W :=
  mkService (gv_version s) schemas (map (as_method cls) (gv_methods s)) None fns.
