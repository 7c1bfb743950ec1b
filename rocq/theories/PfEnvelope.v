(** Proofs for C93. *)
From Coq Require Import String Ascii List ZArith NArith Bool Lia.
From Verif Require Import PyBase Xml PyVal XsdSimple XsdComplex XsdSchema PyHttp Soap Dispatch Client SpecParse SpecSoap SpecDispatch SpecEnvelope
  PfBase PfParse PfSoap PfSoap2 PfPin.
Import ListNotations.
Open Scope nat_scope.
Open Scope string_scope.
Open Scope list_scope.

Lemma no_pi_test x : no_instructions x -> existsb is_pi (el_kids x) = false.
Proof.
  intros N. destruct (existsb is_pi (el_kids x)) eqn:E; auto. apply existsb_exists in E as (y & I & Y). destruct y; try discriminate Y.
  destruct (N _ I).
Qed.
Lemma sub_called f x l : no_instructions x -> f_tag f = None -> children_called (f_name f) x l -> find_sub f (el_children x) = Ok l.
Proof.
  intros N T C. rewrite find_sub_kids, (no_pi_test _ N). f_equal. rewrite <- C. apply filter_ext. intros [t a k| | |]; cbn [belongs called]; auto.
  rewrite T. apply orb_false_r.
Qed.
Lemma given_not_nil x : given x -> not_nil x.
Proof. auto. Qed.

Section P.
  Variable O : oracle.
  Variable U : string -> option classdef.
  Variable lim : nat.
  Notation E := (soap_env U lim).

  Lemma read_envelope n v doc header body fs : envelope_of doc header body ->
    parse_obj (S n) O E (body_cls v) body = Ok (VObj (body_cls v) (Some body) fs) ->
    parse_obj (S (S n)) O E (envelope_cls v) doc =
    Ok (VObj (envelope_cls v) (Some doc)
          [("Header", match header with Some y => VObj (header_cls v) (Some y) [] | None => VNone end);
           ("Body", VObj (body_cls v) (Some body) fs)]).
  Proof.
    intros (N & H & B & Gb & Gh) Hb. rewrite parse_envelope_eq.
    rewrite (sub_called (header_field v) doc _ N eq_refl H). cbn [bind].
    replace (foldM (fun fs0 s => parse_field O E (parse_obj (S n) O E) (envelope_fields v) (header_field v) fs0 s)
      [("Header", VNone); ("Body", VNone)] (match header with Some y => [y] | None => [] end))
      with (@Ok (list (string * pyval)) [("Header", match header with Some y => VObj (header_cls v) (Some y) [] | None => VNone end); ("Body", VNone)]).
    2:{ destruct header as [y|]; [|reflexivity]. cbn [foldM]. rewrite parse_field_header by exact (Gh y eq_refl). reflexivity. }
    cbn [bind]. rewrite (sub_called (body_field v) doc _ N eq_refl B). cbn [bind foldM].
    rewrite (parse_field_body _ _ _ _ _ _ _ _ _ Gb Hb). reflexivity.
  Qed.
  Lemma read_message n v body x : message_of body x ->
    parse_obj (S n) O E (body_cls v) body = Ok (VObj (body_cls v) (Some body) [("message", VNone); ("Fault", VNone)]).
  Proof.
    intros (N & M & F & _). apply parse_plain_body; [exact (sub_called message_field _ _ N eq_refl M)|exact (sub_called (fault_field v) _ _ N eq_refl F)].
  Qed.
  Lemma first_child body x v fs : message_of body x -> body_content (VObj (body_cls v) (Some body) fs) = Ok x.
  Proof.
    intros (_ & _ & _ & (t & a & k & ->) & texts & rest & K). unfold body_content. cbn [py_xmlelement bind]. unfold el_children. rewrite K.
    assert (Z : filter (fun n : node => negb (is_text n)) (map Text texts) = []) by (clear; induction texts as [|s l IH]; [reflexivity|exact IH]).
    rewrite filter_app, Z. reflexivity.
  Qed.

  (** A class with three element fields. *)
  Lemma parse_three n c mro k f1 f2 f3 sch fs0 x :
    get_class E c = Ok (mkClass mro k [f1; f2; f3] ISequence sch) -> new_instance O E c = Ok fs0 ->
    is_plain f1 = true -> is_plain f2 = true -> is_plain f3 = true ->
    parse_obj (S n) O E c x =
    (subs1 <- find_sub f1 (el_children x) ;;
     fs1 <- foldM (fun fs s => parse_field O E (parse_obj n O E) [f1; f2; f3] f1 fs s) fs0 subs1 ;;
     subs2 <- find_sub f2 (el_children x) ;;
     fs2 <- foldM (fun fs s => parse_field O E (parse_obj n O E) [f1; f2; f3] f2 fs s) fs1 subs2 ;;
     subs3 <- find_sub f3 (el_children x) ;;
     fs3 <- foldM (fun fs s => parse_field O E (parse_obj n O E) [f1; f2; f3] f3 fs s) fs2 subs3 ;;
     Ok (VObj c (Some x) fs3)).
  Proof.
    intros G N P1 P2 P3. cbn [parse_obj]. rewrite G. cbn [bind cd_fields cd_ind]. rewrite N. cbn [bind].
    assert (A : forall f, is_plain f = true -> is_attr f = false /\ is_group f = false).
    { unfold is_plain. intros f. destruct (is_attr f), (is_group f); auto. }
    destruct (A _ P1) as [A1 B1], (A _ P2) as [A2 B2], (A _ P3) as [A3 B3].
    cbn [filter]. rewrite A1, A2, A3, B1, B2, B3, P1, P2, P3. cbn [foldM bind].
    destruct (find_sub f1 _) as [s1|]; cbn [bind]; auto.
    destruct (foldM _ fs0 s1) as [fs1|]; cbn [bind]; auto.
    destruct (find_sub f2 _) as [s2|]; cbn [bind]; auto.
    destruct (foldM _ fs1 s2) as [fs2|]; cbn [bind]; auto.
    destruct (find_sub f3 _) as [s3|]; cbn [bind]; auto.
    destruct (foldM _ fs2 s3) as [fs3|]; cbn [bind]; auto.
  Qed.
  Lemma parse_one n c mro k f1 sch fs0 x :
    get_class E c = Ok (mkClass mro k [f1] ISequence sch) -> new_instance O E c = Ok fs0 -> is_plain f1 = true ->
    parse_obj (S n) O E c x =
    (subs1 <- find_sub f1 (el_children x) ;;
     fs1 <- foldM (fun fs s => parse_field O E (parse_obj n O E) [f1] f1 fs s) fs0 subs1 ;;
     Ok (VObj c (Some x) fs1)).
  Proof.
    intros G N P1. cbn [parse_obj]. rewrite G. cbn [bind cd_fields cd_ind]. rewrite N. cbn [bind].
    assert (A : is_attr f1 = false /\ is_group f1 = false).
    { revert P1. unfold is_plain. destruct (is_attr f1), (is_group f1); auto. }
    destruct A as [A1 B1]. cbn [filter]. rewrite A1, B1, P1. cbn [foldM bind].
    destruct (find_sub f1 _) as [s1|]; cbn [bind]; auto.
    destruct (foldM _ fs0 s1) as [fs1|]; cbn [bind]; auto.
  Qed.

  Lemma nil_false a : assoc xsi_nil a <> Some "true" -> match assoc xsi_nil a with Some s => String.eqb s "true" | None => false end = false.
  Proof. destruct (assoc xsi_nil a) as [s|]; auto. intros H. apply String.eqb_neq. congruence. Qed.
  (** An element with a text. *)
  Lemma parse_text F f rec t a s fs st : f_kind f = KElement -> f_type f = TSimple st -> st_pythonvalue O st (VStr s) = Ok (VStr s) ->
    assoc xsi_nil a <> Some "true" ->
    parse_field O E rec F f fs (Elem t a [Text s]) = setattr O E F fs (f_name f) (VStr s).
  Proof.
    intros K T V N. unfold parse_field. rewrite K. unfold el_get. cbn [el_attrs]. rewrite (nil_false _ N), T.
    cbn [parse_type el_text el_kids lead_text]. rewrite V. reflexivity.
  Qed.
  Lemma parse_child F f rec x c o fs : f_kind f = KElement -> f_type f = TComplex c -> rec c x = Ok o -> given x ->
    parse_field O E rec F f fs x = setattr O E F fs (f_name f) o.
  Proof.
    intros K T V N. unfold parse_field. rewrite K. unfold el_get. rewrite (nil_false _ N), T. cbn [parse_type]. rewrite V. reflexivity.
  Qed.
  Definition str_field (name : string) (mn : Z) (ns : option string) : field := s_elem name string_type mn false ns.

  Lemma read_fault11 n f code message actor : fault_says V11 f code message actor ->
    parse_obj (S n) O E "soap11.Fault" f =
    Ok (VObj "soap11.Fault" (Some f) [("faultcode", VStr code); ("faultstring", VStr message); ("faultactor", opt_str actor)]).
  Proof.
    intros (N & (N1 & t1 & a1 & C1 & G1) & (N2 & t2 & a2 & C2 & G2) & A).
    rewrite (parse_three n "soap11.Fault" ["soap11.Fault"; "ComplexType"] CKPlain (str_field "faultcode" 1 (Some "")) (str_field "faultstring" 1 (Some ""))
      (str_field "faultactor" 0 (Some "")) (Some (env_si V11)) [("faultcode", VNone); ("faultstring", VNone); ("faultactor", VNone)]) by reflexivity.
    rewrite (sub_called (str_field "faultcode" 1 (Some "")) f _ N eq_refl C1). cbn [bind foldM].
    rewrite (parse_text _ (str_field "faultcode" 1 (Some "")) _ _ _ _ _ (SString "String" no_sfacets) eq_refl eq_refl) by (auto; reflexivity).
    replace (setattr O E _ _ _ (VStr code)) with (@Ok (list (string * pyval)) [("faultcode", VStr code); ("faultstring", VNone); ("faultactor", VNone)]) by reflexivity.
    cbn [bind].
    rewrite (sub_called (str_field "faultstring" 1 (Some "")) f _ N eq_refl C2). cbn [bind foldM].
    rewrite (parse_text _ (str_field "faultstring" 1 (Some "")) _ _ _ _ _ (SString "String" no_sfacets) eq_refl eq_refl) by (auto; reflexivity).
    replace (setattr O E _ _ _ (VStr message)) with (@Ok (list (string * pyval)) [("faultcode", VStr code); ("faultstring", VStr message); ("faultactor", VNone)]) by reflexivity.
    cbn [bind]. destruct actor as [a|].
    - destruct A as (N3 & t3 & a3 & C3 & G3). rewrite (sub_called (str_field "faultactor" 0 (Some "")) f _ N eq_refl C3). cbn [bind foldM].
      rewrite (parse_text _ (str_field "faultactor" 0 (Some "")) _ _ _ _ _ (SString "String" no_sfacets) eq_refl eq_refl) by (auto; reflexivity).
      reflexivity.
    - rewrite (sub_called (str_field "faultactor" 0 (Some "")) f _ N eq_refl A). reflexivity.
  Qed.
  Lemma read_code n c code : no_instructions c -> child_text "Value" c code ->
    parse_obj (S n) O E "soap12.Code" c = Ok (VObj "soap12.Code" (Some c) [("Value", VStr code)]).
  Proof.
    intros N (N1 & t1 & a1 & C1 & G1).
    rewrite (parse_one n "soap12.Code" ["soap12.Code"; "ComplexType"] CKPlain (str_field "Value" 1 None) (Some (env_si V12)) [("Value", VNone)]) by reflexivity.
    rewrite (sub_called (str_field "Value" 1 None) c _ N eq_refl C1). cbn [bind foldM].
    rewrite (parse_text _ (str_field "Value" 1 None) _ _ _ _ _ (SString "String" no_sfacets) eq_refl eq_refl) by (auto; reflexivity). reflexivity.
  Qed.
  Definition text_field : field := s_elem "Text" (TSimple (SLang no_sfacets)) 1 false None.
  Lemma read_reason n c s : no_instructions c -> child_text "Text" c s ->
    parse_obj (S n) O E "soap12.Reason" c = Ok (VObj "soap12.Reason" (Some c) [("Text", VStr s)]).
  Proof.
    intros N (N1 & t1 & a1 & C1 & G1).
    rewrite (parse_one n "soap12.Reason" ["soap12.Reason"; "ComplexType"] CKPlain text_field (Some (env_si V12)) [("Text", VNone)]) by reflexivity.
    rewrite (sub_called text_field c _ N eq_refl C1). cbn [bind foldM].
    rewrite (parse_text _ text_field _ _ _ _ _ (SLang no_sfacets) eq_refl eq_refl) by (auto; reflexivity). reflexivity.
  Qed.
  Definition code_field : field := s_elem "Code" (TComplex "soap12.Code") 1 false None.
  Definition reason_field : field := s_elem "Reason" (TComplex "soap12.Reason") 1 false None.
  Lemma read_fault12 n f code message actor : fault_says V12 f code message actor ->
    exists c r, parse_obj (S (S n)) O E "soap12.Fault" f =
    Ok (VObj "soap12.Fault" (Some f) [("Code", VObj "soap12.Code" (Some c) [("Value", VStr code)]);
      ("Reason", VObj "soap12.Reason" (Some r) [("Text", VStr message)]); ("Role", opt_str actor)]).
  Proof.
    intros (N & (c & C1 & G1 & Nc & T1) & (r & C2 & G2 & Nr & T2) & A). exists c, r.
    rewrite (parse_three (S n) "soap12.Fault" ["soap12.Fault"; "ComplexType"] CKPlain code_field reason_field
      (str_field "Role" 0 None) (Some (env_si V12)) [("Code", VNone); ("Reason", VNone); ("Role", VNone)]) by reflexivity.
    rewrite (sub_called code_field f _ N eq_refl C1). cbn [bind foldM].
    rewrite (parse_child _ code_field _ _ "soap12.Code" _ _ eq_refl eq_refl (read_code n c code Nc T1) G1).
    replace (setattr O E _ _ _ (VObj "soap12.Code" _ _)) with
      (@Ok (list (string * pyval)) [("Code", VObj "soap12.Code" (Some c) [("Value", VStr code)]); ("Reason", VNone); ("Role", VNone)]) by reflexivity.
    cbn [bind].
    rewrite (sub_called reason_field f _ N eq_refl C2). cbn [bind foldM].
    rewrite (parse_child _ reason_field _ _ "soap12.Reason" _ _ eq_refl eq_refl (read_reason n r message Nr T2) G2).
    replace (setattr O E _ _ _ (VObj "soap12.Reason" _ _)) with
      (@Ok (list (string * pyval)) [("Code", VObj "soap12.Code" (Some c) [("Value", VStr code)]);
        ("Reason", VObj "soap12.Reason" (Some r) [("Text", VStr message)]); ("Role", VNone)]) by reflexivity.
    cbn [bind]. destruct actor as [a|].
    - destruct A as (N3 & t3 & a3 & C3 & G3). rewrite (sub_called (str_field "Role" 0 None) f _ N eq_refl C3). cbn [bind foldM].
      rewrite (parse_text _ (str_field "Role" 0 None) _ _ _ _ _ (SString "String" no_sfacets) eq_refl eq_refl) by (auto; reflexivity).
      reflexivity.
    - rewrite (sub_called (str_field "Role" 0 None) f _ N eq_refl A). reflexivity.
  Qed.
  Lemma read_fault n v body code message actor : fault_in v body code message actor ->
    exists f, parse_obj (S (S (S n))) O E (body_cls v) body = Ok (VObj (body_cls v) (Some body) [("message", VNone); ("Fault", f)]) /\
      parse_fault_message v f = Ok (VStr code, VStr message, opt_str actor) /\ f <> VNone.
  Proof.
    intros (N & M & f & F & G & Sf).
    assert (X : exists o, parse_obj (S (S n)) O E (fault_cls v) f = Ok o /\ parse_fault_message v o = Ok (VStr code, VStr message, opt_str actor) /\
      exists fs, o = VObj (fault_cls v) (Some f) fs).
    { destruct v.
      - eexists. split; [exact (read_fault11 (S n) f code message actor Sf)|]. split; [reflexivity|]. eexists. reflexivity.
      - destruct (read_fault12 n f code message actor Sf) as (c & r & R). eexists. split; [exact R|]. split; [reflexivity|]. eexists. reflexivity. }
    destruct X as (o & R & P1 & fs & ->). eexists. split; [|split; [exact P1|discriminate]].
    rewrite parse_body_eq. rewrite (sub_called message_field _ _ N eq_refl M). cbn [bind foldM].
    rewrite (sub_called (fault_field v) _ _ N eq_refl F). cbn [bind foldM].
    rewrite (parse_child _ (fault_field v) _ _ (fault_cls v) _ _ eq_refl eq_refl R G). destruct v; reflexivity.
  Qed.
End P.
