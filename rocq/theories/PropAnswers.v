(** C51 and C66, continued: simple outputs, and what Flask and Django hand on. *)
From Coq Require Import String Ascii List ZArith NArith Bool.
From Verif Require Import PyBase Xml PyVal XsdSimple XsdComplex XsdSchema PyHttp Soap Dispatch Client
  SpecParse SpecRender SpecRound SpecSoap SpecDispatch SpecHttp SpecClient PfClient3 ExEnv ExSoap PfAnswers.
Import ListNotations.
Open Scope nat_scope.
Open Scope string_scope.
Open Scope list_scope.

(** Where the output of a method is an element of a simple type, no answer
    whatsoever makes the client return a result. *)
Theorem C51_simple_output_refuted : forall W P (S : service W) m name e s content r h,
  m_out m = IOName name -> find_element_by_name (pf_gn P) (pf_G P) (sv_schemas S) name = Ok (Some e) -> se_type e = TSimple s ->
  handle_response P S m content <> Ok (CReturned r h).
Proof. exact @simple_output_named. Qed.
Print Assumptions C51_simple_output_refuted.

(** Under Flask and Django status, headers and content of the answer are handed
    on as they are. *)
Theorem C66_frameworks : forall W P (D : dispatcher W) w e content,
  (flask_dispatch P D w e content =
   let '(w', tr, r) := dispatch P D w (new_request e content) in
   (w', tr, res_map (fun rs => (rs_status rs, rs_headers rs, rs_content rs)) r)) /\
  (django_dispatch P D w e content =
   let '(w', tr, r) := dispatch P D w (new_request (django_environ e) content) in
   (w', tr, res_map (fun rs => (rs_status rs, rs_headers rs, rs_content rs)) r)).
Proof. exact @frameworks. Qed.
Print Assumptions C66_frameworks.

Definition number_G : sgraph := fun _ =>
  mkSchema (Some "urn:echo") qualified [("number", mkSel (TSimple (SInteger CInt no_dfacets)) None)] [] [] None.
Definition number_P : platform :=
  mkPlat ex_oracle (soap_env echo_U 10%nat) 10%nat number_G 10%nat echo_parse show echo_valid (fun _ => Ok tt) (fun _ => "Traceback").
Example C51_simple_output_nonvacuous :
  find_element_by_name (pf_gn number_P) (pf_G number_P) (sv_schemas echo_service) "number" = Ok (Some (mkSel (TSimple (SInteger CInt no_dfacets)) None)) /\
  exists x, echo_parse "hello" = Ok x /\
    handle_response number_P echo_service (mkMethod "Echo" "" (IOName "number") (IOName "number") None None None) "hello" = Err TypeError.
Proof. split; [reflexivity|]. eexists. split; vm_compute; reflexivity. Qed.
Example C66_frameworks_nonvacuous :
  match flask_dispatch echo_P (echo_D [] []) [] (echo_environ [("REQUEST_METHOD", "POST")]) "boom" with
  | (_, _, Ok (st, _, _)) => st = 500%Z | _ => False end.
Proof. vm_compute. reflexivity. Qed.
