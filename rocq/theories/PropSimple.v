(** Properties C01-C10 and C16: simple types. *)
From Coq Require Import String Ascii List ZArith NArith Bool QArith.
From Verif Require Import PyBase PyRe Xml PyVal XsdDate XsdSimple SpecSimple PfRe PfSimple.
Import ListNotations.
Open Scope Z_scope.

(** ** C01 *)
Theorem C01_string_accepts_exactly_its_facets :
  forall O cls f v r, facets_proper f ->
  st_accept O (SString cls f) v = r <->
  match r with
  | Ok w => (v = VNone /\ w = VNone) \/
            (exists s s', v = VStr s /\ w = VStr s' /\ ws_normal (sf_ws f) s s' /\ facets_sat f s')
  | Err e => e = ValueError /\ v <> VNone /\
             ~ (exists s s', v = VStr s /\ ws_normal (sf_ws f) s s' /\ facets_sat f s')
  end.
Proof. exact string_accept_full. Qed.
Print Assumptions C01_string_accepts_exactly_its_facets.

Definition ex_facets : sfacets :=
  {| sf_enum := Some ["a b"; "cd"]%string; sf_pattern := Some (RStar (RSet (fun _ => true)));
     sf_length := None; sf_minLength := Some 2; sf_maxLength := Some 3; sf_ws := Some "collapse"%string |}.
Example C01_nonvacuous : facets_proper ex_facets /\
  forall O, st_accept O (SString "String" ex_facets) (VStr (String "a" (String "009" (String " " "b"))))
            = Ok (VStr "a b").
Proof.
  split; [|reflexivity]. repeat split; try discriminate. cbn. intros r [= <-]. reflexivity.
Qed.

(** ** C02: false of the code; a zero facet is not enforced at all *)
Theorem C02_zero_facets_refuted :
  forall O cls s,
  st_accept O (SString cls {| sf_enum := None; sf_pattern := None; sf_length := Some 0;
     sf_minLength := None; sf_maxLength := None; sf_ws := None |}) (VStr s) = Ok (VStr s) /\
  st_accept O (SString cls {| sf_enum := None; sf_pattern := None; sf_length := None;
     sf_minLength := None; sf_maxLength := Some 0; sf_ws := None |}) (VStr s) = Ok (VStr s) /\
  st_accept O (SString cls {| sf_enum := Some []; sf_pattern := None; sf_length := None;
     sf_minLength := None; sf_maxLength := None; sf_ws := None |}) (VStr s) = Ok (VStr s).
Proof. exact zero_facets. Qed.
Print Assumptions C02_zero_facets_refuted.

(** ** C03 *)
(** Missing: patterns with a top-level alternation (refuted below), and the
    final newline that Python's [$] lets through. *)
Theorem C03_string_pattern_whole_partial :
  forall O cls f r s s', sf_pattern f = Some r -> no_top_alt r = true ->
  st_accept O (SString cls f) (VStr s) = Ok (VStr s') ->
  full_match r (to_l s') \/ full_match_nl r (to_l s').
Proof. exact pattern_whole. Qed.
Print Assumptions C03_string_pattern_whole_partial.

Theorem C03_number_pattern_whole_partial :
  forall O cls f r v w, df_pattern f = Some r -> no_top_alt r = true -> v <> VNone ->
  st_accept O (SDecimal cls f) v = Ok w ->
  full_match r (to_l (py_str O w)) \/ full_match_nl r (to_l (py_str O w)).
Proof. exact pattern_whole_num. Qed.
Print Assumptions C03_number_pattern_whole_partial.

(** With top-level alternatives, all but the last are matched as prefixes. *)
Theorem C03_alternation_accepts_prefixes :
  forall O cls f r s, sf_pattern f = Some r -> sf_ws f = None ->
  sf_enum f = None -> sf_length f = None -> sf_minLength f = None -> sf_maxLength f = None ->
  st_accept O (SString cls f) (VStr s) = Ok (VStr s) <->
  (exists a s', In a (removelast (alts r)) /\ rm a (true, to_l s) s')
  \/ full_match (last (alts r) REps) (to_l s) \/ full_match_nl (last (alts r) REps) (to_l s).
Proof. exact pattern_alts. Qed.
Print Assumptions C03_alternation_accepts_prefixes.

Definition pat (r : re) : sfacets :=
  {| sf_enum := None; sf_pattern := Some r; sf_length := None; sf_minLength := None;
     sf_maxLength := None; sf_ws := None |}.
Theorem C03_whole_value_refuted : exists r s,
  (forall O, st_accept O (SString "String" (pat r)) (VStr s) = Ok (VStr s)) /\
  ~ full_match r (to_l s) /\ ~ full_match_nl r (to_l s).
Proof. exact pattern_whole_refuted. Qed.
Print Assumptions C03_whole_value_refuted.

Example C03_nonvacuous : forall O,
  st_accept O (SString "String" (pat (r_plus r_digit))) (VStr "2024") = Ok (VStr "2024") /\
  st_accept O (SString "String" (pat (r_plus r_digit))) (VStr "2024x") = Err ValueError.
Proof. split; reflexivity. Qed.

(** ** C04 *)
Theorem C04_whitespace :
  forall ws s s', clean_ws ws s = s' ->
  ws_normal ws s s' /\ ws_normal ws s' s' /\ nonws (to_l s') = nonws (to_l s) /\
  (ws = Some "replace"%string -> slen s' = slen s) /\
  (ws = Some "replace"%string \/ ws = Some "collapse"%string ->
     forall c, In c (to_l s') -> is_space c = true -> c = space) /\
  (ws = Some "collapse"%string -> no_double (to_l s')) /\
  (ws <> Some "replace"%string -> ws <> Some "collapse"%string -> s' = s).
Proof. exact whitespace_all. Qed.
Print Assumptions C04_whitespace.
Example C04_nonvacuous :
  clean_ws (Some "collapse"%string) (String "009" (String "a" (String "010" (String " " "b"))))
  = " a b"%string.
Proof. reflexivity. Qed.

(** ** C05 *)
Theorem C05_integer_ranges :
  forall O c z,
  (in_int_range c z -> st_accept O (SInteger c no_dfacets) (VInt z) = Ok (VInt z)) /\
  (~ in_int_range c z -> st_accept O (SInteger c no_dfacets) (VInt z) = Err ValueError).
Proof. exact integer_ranges. Qed.
Print Assumptions C05_integer_ranges.

Theorem C05_integer_rejects_other_values :
  forall O c v, match v with VNone | VInt _ | VStr _ => False | _ => True end ->
  st_accept O (SInteger c no_dfacets) v = Err ValueError.
Proof. exact integer_accept_other. Qed.
Print Assumptions C05_integer_rejects_other_values.
Example C05_nonvacuous : in_int_range CByte (-128) /\ ~ in_int_range CByte 128.
Proof.
  split; [split; intros b [= <-]; discriminate|]. intros [_ H]. specialize (H 127 eq_refl). now destruct H.
Qed.

(** ** C06 *)
Theorem C06_integer_roundtrip :
  forall O c z, in_int_range c z ->
  exists text, st_xmlvalue O (SInteger c no_dfacets) (VInt z) = Ok (VStr text) /\
    st_pythonvalue O (SInteger c no_dfacets) (VStr text) = Ok (VInt z).
Proof. exact integer_roundtrip. Qed.
Print Assumptions C06_integer_roundtrip.

Theorem C06_integer_texts :
  forall O c s v,
  st_pythonvalue O (SInteger c no_dfacets) (VStr s) = Ok v <->
  (s = "nil"%string /\ v = VNone) \/ (exists z, int_text s z /\ in_int_range c z /\ v = VInt z).
Proof. exact integer_text_ok. Qed.
Print Assumptions C06_integer_texts.

Theorem C06_integer_bad_texts :
  forall O c s e, st_pythonvalue O (SInteger c no_dfacets) (VStr s) = Err e -> e = ValueError.
Proof. exact integer_text_err. Qed.
Print Assumptions C06_integer_bad_texts.
Example C06_nonvacuous : forall O,
  st_pythonvalue O (SInteger CShort no_dfacets) (VStr " -1_0 ") = Ok (VInt (-10)) /\
  st_pythonvalue O (SInteger CShort no_dfacets) (VStr "32768") = Err ValueError.
Proof. split; reflexivity. Qed.

(** ** C07 *)
(** Missing: maxInclusive/minInclusive on types that have such a bound
    themselves, and pattern (refuted below). *)
Theorem C07_user_facets_partial :
  forall O c u z,
  (int_hi c <> None -> df_maxIn u = None) -> (int_lo c <> None -> df_minIn u = None) ->
  bounds_numeric u ->
  let ok := in_int_range c z /\ enum_sat u (NFin (inject_Z z)) /\ bounds_sat u (NFin (inject_Z z))
            /\ (forall n, df_total u = Some n -> total_ok (dec_Z z) n) in
  exists b : bool, st_accept O (SInteger c u) (VInt z) = (if b then Ok (VInt z) else Err ValueError)
    /\ (b = true <-> ok).
Proof. exact integer_user. Qed.
Print Assumptions C07_user_facets_partial.
Example C07_nonvacuous : forall O,
  let u := {| df_enum := None; df_fraction := None; df_maxEx := Some (VInt 10); df_maxIn := None;
     df_minEx := None; df_minIn := None; df_pattern := None; df_total := None |} in
  bounds_numeric u /\ st_accept O (SInteger CByte u) (VInt 9) = Ok (VInt 9)
  /\ st_accept O (SInteger CByte u) (VInt 10) = Err ValueError.
Proof.
  intros O u. repeat split; try discriminate. intros b [= <-]. eexists. split; [reflexivity|discriminate].
Qed.

(** The user's maxInclusive, minInclusive and pattern have no effect. *)
Theorem C07_maxInclusive_refuted :
  forall O c u b v, int_hi c <> None ->
  st_accept O (SInteger c (with_maxIn b u)) v = st_accept O (SInteger c u) v.
Proof. exact integer_maxIn_ignored. Qed.
Print Assumptions C07_maxInclusive_refuted.
Theorem C07_minInclusive_refuted :
  forall O c u b v, int_lo c <> None ->
  st_accept O (SInteger c (with_minIn b u)) v = st_accept O (SInteger c u) v.
Proof. exact integer_minIn_ignored. Qed.
Print Assumptions C07_minInclusive_refuted.
Theorem C07_pattern_refuted :
  forall O c u r v, st_accept O (SInteger c (with_pattern r u)) v = st_accept O (SInteger c u) v.
Proof. exact integer_pattern_ignored. Qed.
Print Assumptions C07_pattern_refuted.
Example C07_refuted_witness : forall O,
  st_accept O (SInteger CByte (with_maxIn (Some (VInt 10)) no_dfacets)) (VInt 100) = Ok (VInt 100).
Proof. reflexivity. Qed.

(** ** C08 *)
Theorem C08_decimal_facets :
  forall O cls f v x, num_of v = Some x -> x <> NNaN ->
  match v with VDec _ => False | _ => True end ->
  bounds_numeric f -> pattern_proper f ->
  exists b : bool, st_accept O (SDecimal cls f) v = (if b then Ok v else Err ValueError) /\
    (b = true <-> dfacets_sat f x (py_str O v)).
Proof. exact (fun O cls => decimal_num O). Qed.
Print Assumptions C08_decimal_facets.
Definition ex_dfacets : dfacets :=
  {| df_enum := None; df_fraction := Some 1; df_maxEx := Some (VInt 10); df_maxIn := None;
     df_minEx := None; df_minIn := Some (VInt (-10)); df_pattern := None; df_total := Some 3 |}.
Example C08_nonvacuous : forall O,
  let x := {| fl_repr := "9.5"; fl_val := NFin (19 # 2) |} in
  bounds_numeric ex_dfacets /\ pattern_proper ex_dfacets /\
  st_accept O (SDecimal "Decimal" ex_dfacets) (VFloat x) = Ok (VFloat x) /\
  st_accept O (SDecimal "Decimal" ex_dfacets) (VInt 9) = Err ValueError.
Proof.
  intros O x. repeat split; try discriminate; intros b [= <-]; eexists; (split; [reflexivity|discriminate]).
Qed.

(** NaN passes every numeric bound. *)
Theorem C08_nan_passes_bounds :
  forall O cls f fl, fl_val fl = NNaN -> bounds_numeric f ->
  df_enum f = None -> df_fraction f = None -> df_pattern f = None -> df_total f = None ->
  st_accept O (SDecimal cls f) (VFloat fl) = Ok (VFloat fl).
Proof. exact (fun O cls => decimal_nan O). Qed.
Print Assumptions C08_nan_passes_bounds.

(** ** C09: false of the code *)
Theorem C09_bounded_decimal_refuted :
  forall O cls f d, has_numeric_bound f -> forall v, st_accept O (SDecimal cls f) (VDec d) <> Ok v.
Proof. exact (fun O cls => decimal_dec_bounded O). Qed.
Print Assumptions C09_bounded_decimal_refuted.
Theorem C09_bounded_decimal_type_error :
  forall O cls f d, has_numeric_bound f -> bounds_numeric f ->
  df_enum f = None -> df_fraction f = None ->
  st_accept O (SDecimal cls f) (VDec d) = Err TypeError.
Proof. exact (fun O cls => decimal_dec_bounded_exn O). Qed.
Print Assumptions C09_bounded_decimal_type_error.
(** Without facets the number is kept, as a text denoting it exactly (but the
    stored str does not compare equal to the Decimal). *)
Theorem C09_unbounded_decimal_partial :
  forall O cls neg c e, exists s,
  st_accept O (SDecimal cls no_dfacets) (VDec (DecFin neg c e)) = Ok (VStr s) /\
  py_eqb (VStr s) (VDec (DecFin neg c e)) = false /\
  exists q, dec_val (DecFin neg c e) = NFin q /\ decimal_text s q.
Proof. exact decimal_dec_text. Qed.
Print Assumptions C09_unbounded_decimal_partial.
Example C09_nonvacuous : has_numeric_bound ex_dfacets.
Proof. exists (VInt 10). split; [eexists; split; [reflexivity|discriminate] | auto]. Qed.
Example C09_text : dec_str (DecFin true 12345 (-3)) = "-12.345"%string /\
  dec_str (DecFin false 1 5) = "1E+5"%string /\ dec_str (DecFin false 5 (-9)) = "5E-9"%string.
Proof. repeat split. Qed.

(** ** C10 *)
(** Everything accepted can be written: false for numbers equal to 0 or 1. *)
Theorem C10_boolean_accepts :
  forall O v, st_accept O SBoolean v = Ok v <->
  v = VNone \/ exists x, num_of v = Some x /\ (num_eqb x (NFin 0) = true \/ num_eqb x (NFin 1) = true).
Proof. exact (fun O => bool_accept_iff). Qed.
Print Assumptions C10_boolean_accepts.
Theorem C10_accepted_not_renderable_refuted :
  forall O v, st_accept O SBoolean v = Ok v ->
  ~ (v = VNone \/ exists b, v = VBool b) -> st_xmlvalue O SBoolean v = Err ValueError.
Proof. exact bool_not_renderable. Qed.
Print Assumptions C10_accepted_not_renderable_refuted.
Example C10_witness : forall O, st_accept O SBoolean (VInt 1) = Ok (VInt 1)
  /\ st_xmlvalue O SBoolean (VInt 1) = Err ValueError.
Proof. split; reflexivity. Qed.
(** Missing: rendering of accepted numbers. *)
Theorem C10_boolean_roundtrip_partial :
  forall O v, (v = VNone \/ exists b, v = VBool b) ->
  st_accept O SBoolean v = Ok v /\
  exists text, st_xmlvalue O SBoolean v = Ok (VStr text) /\ st_pythonvalue O SBoolean (VStr text) = Ok v.
Proof. exact bool_roundtrip. Qed.
Print Assumptions C10_boolean_roundtrip_partial.
Theorem C10_boolean_texts :
  forall O s,
  (s = "true"%string -> st_pythonvalue O SBoolean (VStr s) = Ok (VBool true)) /\
  (s = "false"%string -> st_pythonvalue O SBoolean (VStr s) = Ok (VBool false)) /\
  (s = "nil"%string -> st_pythonvalue O SBoolean (VStr s) = Ok VNone) /\
  (~ In s ["true"; "false"; "nil"]%string -> st_pythonvalue O SBoolean (VStr s) = Err ValueError).
Proof. exact bool_texts. Qed.
Print Assumptions C10_boolean_texts.

(** ** C16 *)
Theorem C16_maxoccurs_roundtrip :
  forall O v, v = UNBOUNDED \/ (exists z, v = VInt z) ->
  st_accept O SMaxOccurs v = Ok v /\
  exists text, st_xmlvalue O SMaxOccurs v = Ok (VStr text) /\
    st_pythonvalue O SMaxOccurs (VStr text) = Ok v.
Proof. exact maxoccurs_roundtrip. Qed.
Print Assumptions C16_maxoccurs_roundtrip.
Example C16_nonvacuous : forall O,
  st_xmlvalue O SMaxOccurs UNBOUNDED = Ok (VStr "unbounded") /\
  st_xmlvalue O SMaxOccurs (VInt 12) = Ok (VStr "12").
Proof. split; reflexivity. Qed.
