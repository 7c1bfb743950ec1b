(** Proofs for C51 and C66, continued. *)
From Coq Require Import String Ascii List ZArith Bool.
From Verif Require Import PyBase Xml PyVal XsdSimple XsdComplex XsdSchema PyHttp Soap Dispatch Client PfBase.
Import ListNotations.

Lemma simple_output {W} P (S : service W) m s content r h :
  output_type P S m = Ok (TSimple s) -> handle_response P S m content <> Ok (CReturned r h).
Proof.
  intros T H. unfold handle_response in H. apply bind_ok in H as (doc & _ & H). apply bind_ok in H as (e & _ & H).
  apply bind_ok in H as (hd & _ & H). apply bind_ok in H as (h' & _ & H). apply bind_ok in H as (b & _ & H). apply bind_ok in H as (f & _ & H).
  rewrite T in H. cbn [bind parse_output] in H.
  destruct f; try (apply bind_ok in H as (((? & ?) & ?) & _ & H); discriminate H).
  apply bind_ok in H as (x & Hx & _). apply bind_ok in Hx as (y & _ & Hx). discriminate Hx.
Qed.
Lemma frameworks {W} P (D : dispatcher W) w e content :
  (flask_dispatch P D w e content =
   let '(w', tr, r) := dispatch P D w (new_request e content) in
   (w', tr, res_map (fun rs => (rs_status rs, rs_headers rs, rs_content rs)) r)) /\
  (django_dispatch P D w e content =
   let '(w', tr, r) := dispatch P D w (new_request (django_environ e) content) in
   (w', tr, res_map (fun rs => (rs_status rs, rs_headers rs, rs_content rs)) r)).
Proof.
  split; [unfold flask_dispatch | unfold django_dispatch]; unfold adapter; destruct (dispatch P D w _) as [[w' tr] [rs|er]]; reflexivity.
Qed.
Lemma simple_output_named {W} P (S : service W) m name e s content r h :
  m_out m = IOName name -> find_element_by_name (pf_gn P) (pf_G P) (sv_schemas S) name = Ok (Some e) -> se_type e = TSimple s ->
  handle_response P S m content <> Ok (CReturned r h).
Proof. intros M F T. apply simple_output with s. unfold output_type. rewrite M, F. cbn [bind]. now rewrite T. Qed.
