(** Schemas and documents for the theorems about reading valid documents. *)
From Coq Require Import String Ascii List ZArith NArith Bool Lia QArith Permutation.
From Verif Require Import PyBase PyRe Xml PyVal XsdSimple XsdComplex ExEnv LibClasses Py2Xsd SpecXsd SpecFacets SpecSimple SpecDate SpecRound SpecRender SpecGenWsdl SpecLoadable SpecTotal SpecValid SpecGiven SpecRead
  PfBase PfRe PfValid PfValid2 PfValid3 ExGenCode ExLoadable ExReclass ExValid.
From Verif Require PfValid4.
Import ListNotations.
Open Scope nat_scope.
Open Scope string_scope.
Open Scope list_scope.

(** An oracle whose float reads every text. *)
Definition r_float (s : string) : pyfloat := {| fl_val := NFin (5 # 2); fl_repr := s |}.
Definition r_oracle : oracle := {| o_float := fun s => Ok (r_float s); o_year_pad := false; o_iso := fun _ => Err ValueError; o_str := fun _ => "" |}.
Lemma r_numbers : reads_numbers r_oracle.
Proof. intros s q _. now exists (r_float s). Qed.
(** [Integer(minInclusive=1, maxExclusive=100)] *)
Definition r_count : ftype :=
  TSimple (SInteger CInteger {| df_enum := None; df_fraction := None; df_maxEx := Some (VInt 100); df_maxIn := None; df_minEx := None;
                                df_minIn := Some (VInt 1); df_pattern := None; df_total := None |}).
(** [class Line(ComplexType): name = Element(String(pattern=r'\w*')); count = Element(Integer(...), minOccurs=0); code = Element(Code)] *)
Definition r_line : classdef := mkClass ["Line"] CKPlain [ex_elem "name" v_word; v_opt "count" r_count; ex_elem "code" (TSimple v_code_type)] ISequence (Some v_info).
(** [class Sheet(ComplexType): lines = ListElement(Line, 'line', minOccurs=1, maxOccurs=UNBOUNDED); dates = Element(Dates); weight = Element(Decimal)] *)
Definition r_sheet : classdef :=
  mkClass ["Sheet"] CKPlain [ex_list "lines" "line" (TComplex "Line") (Some 1%Z) OUnbounded; ex_elem "dates" (TComplex "Dates");
    ex_elem "weight" (TSimple (SDecimal "Decimal" no_dfacets))] ISequence (Some v_info).
Definition r_env : env := mkEnv (fun c => assoc c [("Line", r_line); ("Dates", v_dates); ("Sheet", r_sheet)]) 20.
Definition r_schema : gschema :=
  mkGs "urn:shop" "qualified" [] [] [v_code] ["Sheet"; "Line"; "Dates"] [("sheet", mkGel (TComplex "Sheet") true None); ("dates", mkGel (TComplex "Dates") false None)].

Lemma r_describable : schema_describable r_oracle r_env v_decls r_schema.
Proof.
  split; [reflexivity|]. split; [now left|]. split; [constructor|]. split; [constructor|]. split; [|split].
  - apply Forall_cons; [|apply Forall_nil]. split; [split; [discriminate|reflexivity]|]. split; [split; [discriminate|reflexivity]|].
    split; [repeat constructor; eexists; split; reflexivity|]. split; [now left|]. right. eexists; split; reflexivity.
  - apply Forall_cons; [v_class|apply Forall_cons; [v_class|apply Forall_cons; [v_class|apply Forall_nil]]].
  - apply Forall_cons; [|apply Forall_cons; [|apply Forall_nil]]; (split; [reflexivity|]; split; [discriminate|]); cbn [snd ge_class ge_type].
    + split; [discriminate|reflexivity].
    + exists "Dates". split; [reflexivity|v_class].
Qed.
Lemma r_count_ok f : r_count = TSimple (SInteger CInteger f) -> restricted v_mean v_decls (SInteger CInteger f).
Proof.
  intros [= <-]. split; [reflexivity|]. split; [intros r [= <-]; reflexivity|]. split; [intros r [= <-]; reflexivity|].
  intros b H. cbn in H. repeat (destruct H as [H | H]; [first [discriminate H | injection H as <-; exact I]|]). destruct H.
Qed.
Ltac r_type := first [ v_type | eexists; split; [reflexivity|]; apply r_count_ok; reflexivity ].
Ltac r_ok := eexists; split; [reflexivity|]; split; [discriminate|]; split; [intros si [= <-]; reflexivity|];
  cbn [cd_fields cd_ind r_line v_dates r_sheet]; repeat (apply Forall_cons; [split; [reflexivity|]; split; [now left|]; split; [v_occurs|r_type]|]); apply Forall_nil.
Lemma r_schema_ok : schema_ok v_mean r_env v_decls r_schema.
Proof.
  split; [discriminate|]. split; [split; repeat constructor; vm_compute; intuition discriminate|].
  assert (Ho : class_ok v_mean r_env v_decls r_schema "Sheet") by r_ok.
  assert (Hi : class_ok v_mean r_env v_decls r_schema "Line") by r_ok.
  assert (Hd : class_ok v_mean r_env v_decls r_schema "Dates") by r_ok.
  split; [repeat (apply Forall_cons; [assumption|]); apply Forall_nil|].
  apply Forall_cons; [|apply Forall_cons; [|apply Forall_nil]]; cbn [snd ge_type ge_class]; intros c [= <-]; [now left|exact Hd].
Qed.

Ltac r_plain := first [ exact I | reflexivity
  | repeat split; reflexivity
  | repeat split; intros b Hb; cbn in Hb; repeat (destruct Hb as [Hb | Hb]; [first [discriminate Hb | injection Hb as <-; eexists; split; [reflexivity|discriminate]]|]); destruct Hb ].
Ltac r_shown := intros H; first [ discriminate H | exact I | split; [intros C; now destruct C|]; intros r [= <-]; discriminate ].
Ltac r_apart := intros f g Hf Hg H; cbn in Hf, Hg; repeat destruct Hf as [<- | Hf]; try destruct Hf; repeat destruct Hg as [<- | Hg]; try destruct Hg; try reflexivity;
  destruct H as [H | H]; discriminate H.
Ltac r_readable := eexists; split; [reflexivity|]; split; [discriminate|]; split; [now left|]; split; [cbn; repeat (constructor; [cbn; intuition discriminate|]); constructor|]; split; [r_apart|];
  split; [eexists; vm_compute; reflexivity|]; cbn [cd_fields r_line v_dates r_sheet]; repeat (apply Forall_cons; [split; [reflexivity|]; intros u Hu; first [discriminate Hu | injection Hu as <-; split; [r_plain|r_shown]]|]); apply Forall_nil.
Lemma r_schema_readable : schema_readable r_oracle r_env v_decls r_schema.
Proof.
  split; [discriminate|]. split; [cbn; intuition discriminate|].
  assert (Ho : class_readable r_oracle r_env v_decls "Sheet") by r_readable.
  assert (Hi : class_readable r_oracle r_env v_decls "Line") by r_readable.
  assert (Hd : class_readable r_oracle r_env v_decls "Dates") by r_readable.
  split; repeat (apply Forall_cons; [first [assumption | intros c [= <-]; assumption]|]); apply Forall_nil.
Qed.

(** ** Documents that are valid and not read *)
Definition q_bounds (enum : option (list pyval)) (fraction : option Z) (low : option pyval) : dfacets :=
  {| df_enum := enum; df_fraction := fraction; df_maxEx := None; df_maxIn := None; df_minEx := None; df_minIn := low; df_pattern := None; df_total := None |}.
Definition q_short : sfacets := {| sf_enum := None; sf_pattern := None; sf_length := None; sf_minLength := None; sf_maxLength := Some 3%Z; sf_ws := None |}.
Definition q_class (c : string) (u : stype) : string * classdef := (c, mkClass [c] CKPlain [ex_elem "value" (TSimple u)] ISequence (Some v_info)).
Definition q_env : env :=
  mkEnv (fun c => assoc c [q_class "Flag" SBoolean; q_class "Stock" (SInteger CInteger (q_bounds None None (Some (VInt 0)))); q_class "Word" (SString "String" q_short);
     q_class "Price" (SDecimal "Decimal" (q_bounds None (Some 2%Z) None)); q_class "Grade" (SInteger CInteger (q_bounds (Some [VInt 1; VInt 2]) None None)); ("Contact", v_contact)]) 20.
Definition q_decls : decls := {| dc_class := fun c _ => str_in c ["Flag"; "Contact"]; dc_use := dc_use v_decls; dc_re := dc_re v_decls |}.
Definition q_schema : gschema :=
  mkGs "urn:shop" "qualified" [] [] [] ["Flag"; "Stock"; "Word"; "Price"; "Grade"; "Contact"]
    (map (fun p => (fst p, mkGel (TComplex (snd p)) true None)) [("flag", "Flag"); ("stock", "Stock"); ("word", "Word"); ("price", "Price"); ("grade", "Grade"); ("contact", "Contact")]).

Definition q_doc : xdocument := the_doc r_oracle q_env q_decls q_schema.
Section Valid.
  Variable mean : string -> re.
  Lemma q_distinct : distinct_names q_schema.
  Proof. split; repeat constructor; vm_compute; intuition discriminate. Qed.
  Lemma q_generated : generate_xsd 8 r_oracle (lib_env 0) q_env q_decls q_schema = Ok q_doc.
  Proof. vm_compute. reflexivity. Qed.
  Lemma q_valid c d f t : In (type_name c, mkGel (TComplex c) true None) (gs_elements q_schema) -> In c (gs_complex q_schema) -> e_cls q_env c = Some d ->
    In f (cd_fields d) -> f_kind f = KElement -> f_min f = Some 1%Z -> cd_fields d = [f] \/ cd_ind d = IChoice -> cd_ind d <> IAll ->
    text_fits mean q_doc (describe_element r_oracle q_decls c f) t -> valid mean q_doc (Elem (w_tag (type_name c)) [] [w_text (tag_or_name f) t]).
  Proof.
    intros Hin Hc Ed Hf Hk Hm Hone Ha Ht. exists "urn:shop", (type_name c), (describe_toplevel r_oracle q_env q_decls (type_name c, mkGel (TComplex c) true None)).
    split; [reflexivity|]. split; [exact (element_found r_oracle q_env q_decls q_schema mean q_distinct _ _ Hin)|]. split; [reflexivity|].
    apply (ft_children _ _ _ _ (describe_class r_oracle q_decls true c (class_of q_env c)) _ [w_text (tag_or_name f) t]).
    - split; [reflexivity|]. left. exists ("sns:" ++ type_name c)%string, "urn:shop", (type_name c). split; [reflexivity|]. split; [reflexivity|].
      split; [exact (doc_sns r_oracle q_env q_decls q_schema (type_name c))|]. exact (class_found r_oracle q_env q_decls q_schema mean q_distinct c Hc).
    - split; [reflexivity|]. intros s [C | []]; discriminate C.
    - assert (Ho : SpecValid.occurs mean q_doc (describe_element r_oracle q_decls c f) [w_text (tag_or_name f) t]).
      { apply oc_run with (tag_or_name f); [reflexivity|reflexivity| | |].
        - unfold at_least. rewrite (decl_min r_oracle q_decls), Hm. cbn [option_map]. exists 1%Z. split; [apply (dec_Z_whole 1)|]. cbn. lia.
        - unfold at_most. rewrite (decl_max r_oracle q_decls), Hk. cbn. lia.
        - apply Forall_cons; [|apply Forall_nil]. split; [exists "urn:shop"; split; reflexivity|]. apply ft_text with t; [now right|exact Ht]. }
      assert (Ec : class_of q_env c = d) by (unfold class_of; now rewrite Ed). rewrite Ec.
      assert (Hp : is_plain f = true) by (unfold is_plain, is_attr, is_group; now rewrite Hk).
      destruct (cd_ind d) eqn:Ei; [| |now destruct Ha].
      + destruct Hone as [Hone | Hone]; [|discriminate Hone]. apply co_sequence with [describe_element r_oracle q_decls c f] [[w_text (tag_or_name f) t]].
        * exists []. unfold describe_class. rewrite Ei, Hone. cbn [filter]. rewrite Hp. reflexivity.
        * apply Forall2_cons; [exact Ho|apply Forall2_nil].
        * reflexivity.
      + apply co_choice with (map (describe_element r_oracle q_decls c) (filter is_plain (cd_fields d))) (describe_element r_oracle q_decls c f).
        * exists []. unfold describe_class. rewrite Ei. reflexivity.
        * apply in_map. apply filter_In. split; assumption.
        * exact Ho.
  Qed.
End Valid.

Definition q_xml (name t : string) : node := Elem (w_tag name) [] [w_text "value" t].
Definition q_read (c : string) (x : node) : res pyval := parse_obj 3 r_oracle q_env c x.
Ltac q_in := cbn; tauto.
Ltac q_facets := intros b x Hx F; cbn in Hx; repeat (destruct Hx as [<- | Hx]; [destruct F as (T & V); first [discriminate T | cbn in V; injection V as <-]|]); try (destruct Hx; fail).
Lemma q_value c u t : In (type_name c, mkGel (TComplex c) true None) (gs_elements q_schema) -> In c (gs_complex q_schema) -> e_cls q_env c = Some (snd (q_class c u)) ->
  text_fits v_mean q_doc (describe_element r_oracle q_decls c (ex_elem "value" (TSimple u))) t -> valid v_mean q_doc (q_xml (type_name c) t).
Proof.
  intros Hin Hc Ed Ht. apply (q_valid v_mean c _ (ex_elem "value" (TSimple u)) t Hin Hc Ed); [now left|reflexivity|reflexivity|now left|discriminate|exact Ht].
Qed.
Lemma q_full r l : In (false, []) (ends r (true, l)) -> full_match r l.
Proof. intros H. exists false. now apply ends_sound. Qed.
Ltac q_known := intros x Hx; cbn in Hx; repeat (destruct Hx as [<- | Hx]; [eexists _, _; split; [|split; reflexivity]; cbn; tauto|]); destruct Hx.
Ltac q_meets := split; [q_known|]; split; [left; q_facets|].
Lemma q_whole s z : whole s z -> text_of v_mean q_doc "xsd:integer" s.
Proof. intros H. apply tx_builtin with "integer"; [exists "xsd"; split; reflexivity|]. apply (lx_integer "integer" None None s z); [q_in|exact H|split; discriminate]. Qed.
Lemma q_integer s z : whole s z -> In (false, []) (ends int_pattern (true, to_l s)) -> meets v_mean [facet "pattern" "[-+]?[0-9]+"] s.
Proof.
  intros Hz Hr. q_meets. split; [right; exists "[-+]?[0-9]+", (facet "pattern" "[-+]?[0-9]+"); split; [now left|]; split; [split; reflexivity|exact (q_full _ _ Hr)]|].
  split; [q_facets|]. split; [q_facets|]. split; [q_facets|]. split; [q_facets|]. split; q_facets.
Qed.
Lemma q_flag : valid v_mean q_doc (q_xml "flag" "1").
Proof.
  apply (q_value "Flag" SBoolean "1"); [q_in|q_in|reflexivity|]. left. exists "xsd:boolean". split; [reflexivity|]. apply tx_builtin with "boolean"; [exists "xsd"; split; reflexivity|]. apply lx_boolean. q_in.
Qed.
Ltac q_inline := right; eexists _, _, _; split; [reflexivity|]; split; [reflexivity|]; split; [eexists _, _; split; reflexivity|].
Lemma q_stock : valid v_mean q_doc (q_xml "stock" "-1").
Proof.
  apply (q_value "Stock" (SInteger CInteger (q_bounds None None (Some (VInt 0)))) "-1"); [q_in|q_in|reflexivity|]. q_inline.
  assert (H : whole "-1" (-1)) by apply (dec_Z_whole (-1)). split; [exact (q_whole _ _ H)|]. apply (q_integer _ _ H). vm_compute. tauto.
Qed.
Lemma q_grade : valid v_mean q_doc (q_xml "grade" "3").
Proof.
  apply (q_value "Grade" (SInteger CInteger (q_bounds (Some [VInt 1; VInt 2]) None None)) "3"); [q_in|q_in|reflexivity|]. q_inline.
  assert (H : whole "3" 3) by apply (dec_Z_whole 3). split; [exact (q_whole _ _ H)|]. apply (q_integer _ _ H). vm_compute. tauto.
Qed.
Lemma q_word : valid v_mean q_doc (q_xml "word" "four").
Proof.
  apply (q_value "Word" (SString "String" q_short) "four"); [q_in|q_in|reflexivity|]. q_inline. split; [apply tx_builtin with "string"; [exists "xsd"; split; reflexivity|constructor]|].
  q_meets. split; [left; q_facets|]. split; [q_facets|]. split; [q_facets|]. split; [q_facets|]. split; [q_facets|]. split; q_facets.
Qed.
Lemma q_decimal : decimal "2.5" 25 1.
Proof.
  exists [], 1%Z, ["2"%char], ["."%char], ["5"%char]. split; [reflexivity|]. split; [now left|]. split; [reflexivity|]. split; [reflexivity|]. split; [now right|]. split; [discriminate|]. split; reflexivity.
Qed.
Lemma q_price : valid v_mean q_doc (q_xml "price" "2.5").
Proof.
  assert (H : SpecValid.number "2.5" (tenths 25 1)) by (exists 25%Z, 1; split; [exact q_decimal|reflexivity]).
  apply (q_value "Price" (SDecimal "Decimal" (q_bounds None (Some 2%Z) None)) "2.5"); [q_in|q_in|reflexivity|]. q_inline. split; [apply tx_builtin with "decimal"; [exists "xsd"; split; reflexivity|apply (lx_decimal _ _ _ (or_introl eq_refl) H)]|].
  q_meets. split; [left; q_facets|]. split; [q_facets|]. split; [q_facets|]. split; [q_facets|]. split; [q_facets|]. split; [q_facets|q_facets].
  exists 2%Z, 25%Z, 1. split; [apply (dec_Z_whole 2)|]. split; [exact H|lia].
Qed.
Definition q_contact : node := Elem (w_tag "contact") [] [w_text "phone" "1234"].
Lemma q_contact_valid : valid v_mean q_doc q_contact.
Proof.
  apply (q_valid v_mean "Contact" v_contact (ex_elem "phone" t_str) "1234"); [q_in|q_in|reflexivity|now left|reflexivity|reflexivity|now right|discriminate|].
  left. exists "xsd:string". split; [reflexivity|]. apply tx_builtin with "string"; [exists "xsd"; split; reflexivity|constructor].
Qed.

(** ** A document that another program may have written *)
Definition r_doc : xdocument := the_doc r_oracle r_env v_decls r_schema.
Definition r_row (k : list node) : node := Elem (w_tag "line") [] k.
Definition r_dates : node := Elem (w_tag "dates") [] [w_text "gift" "false"; w_text "day" "2024-02-29+02:00"; w_text "sent" "2024-02-29T10:05:00.25Z"].
Definition r_xml : node :=
  Elem (w_tag "sheet") [] [Text "  "; r_row [w_text "name" "nut"; w_text "count" "+07"; w_text "code" "A1"]; r_row [w_text "name" "bolt"; w_text "code" "B2"]; r_dates; w_text "weight" "2.5"].
Definition r_value : pyval :=
  let line x n k c := VObj "Line" (Some x) [("name", VStr n); ("count", k); ("code", VStr c)] in
  VObj "Sheet" (Some r_xml)
    [("lines", VList true [line (r_row [w_text "name" "nut"; w_text "count" "+07"; w_text "code" "A1"]) "nut" (VInt 7) "A1"; line (r_row [w_text "name" "bolt"; w_text "code" "B2"]) "bolt" VNone "B2"]);
     ("dates", VObj "Dates" (Some r_dates) [("day", VXSDDate 2024 2 29 (Some (7200 * 1000000)%Z));
        ("sent", VDateTime {| dt_year := 2024; dt_month := 2; dt_day := 29; dt_hour := 10; dt_min := 5; dt_sec := 0; dt_us := 250000; dt_tz := Some 0%Z |}); ("gift", VBool false)]);
     ("weight", VFloat (r_float "2.5"))].
Lemma r_reads : parse_obj 20 r_oracle r_env "Sheet" r_xml = Ok r_value.
Proof. vm_compute. reflexivity. Qed.

Lemma r_element c f x : f_kind f = KElement -> f_min f = Some 1%Z \/ f_min f = Some 0%Z -> el_tag x = w_tag (tag_or_name f) ->
  fits v_mean r_doc (describe_element r_oracle v_decls c f) x -> SpecValid.occurs v_mean r_doc (describe_element r_oracle v_decls c f) [x].
Proof.
  intros Hk Hm Ht Hx. apply oc_run with (tag_or_name f); [reflexivity|reflexivity| | |].
  - unfold at_least. rewrite (decl_min r_oracle v_decls). destruct Hm as [-> | ->]; cbn [option_map]; eexists; (split; [apply dec_Z_whole|cbn; lia]).
  - unfold at_most. rewrite (decl_max r_oracle v_decls), Hk. cbn. lia.
  - apply Forall_cons; [|apply Forall_nil]. split; [exists "urn:shop"; split; [reflexivity|exact Ht]|exact Hx].
Qed.
Lemma r_absent c f : f_kind f = KElement -> f_min f = Some 0%Z -> SpecValid.occurs v_mean r_doc (describe_element r_oracle v_decls c f) [].
Proof.
  intros Hk Hm. apply oc_run with (tag_or_name f); [reflexivity|reflexivity| | |apply Forall_nil].
  - unfold at_least. rewrite (decl_min r_oracle v_decls), Hm. cbn [option_map]; eexists; (split; [apply dec_Z_whole|cbn; lia]).
  - unfold at_most. rewrite (decl_max r_oracle v_decls), Hk. cbn. lia.
Qed.
Lemma r_text c f n t : text_fits v_mean r_doc (describe_element r_oracle v_decls c f) t -> fits v_mean r_doc (describe_element r_oracle v_decls c f) (w_text n t).
Proof. intros H. apply ft_text with t; [now right|exact H]. Qed.
Lemma r_builtin c f n t : dc_class v_decls c f = true -> type_ref (f_type f) = ("xsd:" ++ n)%string -> lexical n t -> text_fits v_mean r_doc (describe_element r_oracle v_decls c f) t.
Proof.
  intros Hc Ht Hl. left. exists ("xsd:" ++ n)%string. rewrite (decl_type r_oracle v_decls), Hc, Ht. split; [reflexivity|]. apply tx_builtin with n; [exact (doc_xsd r_oracle r_env v_decls r_schema n)|exact Hl].
Qed.
Lemma r_complex c f d' k k' c' : dc_class v_decls c f = true -> f_type f = TComplex c' -> e_cls r_env c' = Some d' -> In c' (gs_complex r_schema) ->
  elements k k' -> content v_mean r_doc (describe_class r_oracle v_decls true c' d') k' -> forall t, fits v_mean r_doc (describe_element r_oracle v_decls c f) (Elem t [] k).
Proof.
  intros Hc Ht Ed Hin He Hk t. apply ft_children with (describe_class r_oracle v_decls true c' d') k'; [|exact He|exact Hk].
  split; [reflexivity|]. left. exists ("sns:" ++ type_name c')%string, "urn:shop", (type_name c'). rewrite (decl_type r_oracle v_decls), Hc, Ht. split; [reflexivity|]. split; [reflexivity|].
  split; [exact (doc_sns r_oracle r_env v_decls r_schema (type_name c'))|].
  pose proof (class_found r_oracle r_env v_decls r_schema v_mean (proj1 (proj2 r_schema_ok)) c' Hin) as H. unfold class_of in H. rewrite Ed in H. exact H.
Qed.
Lemma r_word_fits t : In (false, []) (ends (g_re "\w*") (true, to_l t)) -> text_fits v_mean r_doc (describe_element r_oracle v_decls "Line" (ex_elem "name" v_word)) t.
Proof.
  intros H. q_inline. split; [apply tx_builtin with "string"; [exists "xsd"; split; reflexivity|constructor]|].
  q_meets. split; [right; exists "\w*", (facet "pattern" "\w*"); split; [now left|]; split; [split; reflexivity|exact (q_full _ _ H)]|].
  split; [q_facets|]. split; [q_facets|]. split; [q_facets|]. split; [q_facets|]. split; q_facets.
Qed.
Lemma r_code_fits t : In t ["A1"; "B2"] -> text_fits v_mean r_doc (describe_element r_oracle v_decls "Line" (ex_elem "code" (TSimple v_code_type))) t.
Proof.
  intros H. left. exists "sns:code". split; [reflexivity|]. eapply (tx_own v_mean r_doc "sns:code" "urn:shop" "code" (describe_simple v_code) "xsd:string"); [reflexivity|exists "sns"; split; reflexivity| | | |].
  - exact (simple_found r_oracle r_env v_decls r_schema v_mean (proj1 (proj2 r_schema_ok)) v_code (or_introl eq_refl)).
  - eexists _, _. split; reflexivity.
  - apply tx_builtin with "string"; [exists "xsd"; split; reflexivity|constructor].
  - split; [q_known|]. split; [right; exists (facet "enumeration" t); split; [destruct H as [<- | [<- | []]]; cbn; tauto|split; reflexivity]|].
    split; [right; exists "\w*", (facet "pattern" "\w*"); split; [cbn; tauto|]; split; [split; reflexivity|]|].
    + apply q_full. destruct H as [<- | [<- | []]]; vm_compute; tauto.
    + split; [q_facets|]. split; [q_facets|]. split; [q_facets|]. split; [q_facets|]. split; q_facets.
Qed.
Lemma r_seven : whole "+07" 7.
Proof. exists ["+"%char], 1%Z, ["0"%char; "7"%char]. split; [reflexivity|]. split; [right; now left|]. split; [reflexivity|]. split; [discriminate|reflexivity]. Qed.
Lemma r_bound (P : Q -> Q -> Prop) s z b : whole s z -> P (tenths z 0) (tenths b 0) -> bound P s (dec_Z b).
Proof. intros Hz HP. exists (tenths z 0), (tenths b 0). split; [exists z, 0; split; [now apply whole_decimal|reflexivity]|]. split; [exists b, 0; split; [apply whole_decimal, dec_Z_whole|reflexivity]|exact HP]. Qed.
Lemma r_count_fits : text_fits v_mean r_doc (describe_element r_oracle v_decls "Line" (v_opt "count" r_count)) "+07".
Proof.
  q_inline. split; [apply tx_builtin with "integer"; [exists "xsd"; split; reflexivity|]; apply (lx_integer "integer" None None _ 7); [q_in|exact r_seven|split; discriminate]|].
  q_meets. split; [right; exists "[-+]?[0-9]+", (facet "pattern" "[-+]?[0-9]+"); split; [now left|]; split; [split; reflexivity|apply q_full; vm_compute; tauto]|].
  split; [q_facets; apply (r_bound _ _ 7 1 r_seven); discriminate|]. split; [q_facets|]. split; [q_facets|]. split; [q_facets; apply (r_bound _ _ 7 100 r_seven); reflexivity|]. split; q_facets.
Qed.
Lemma r_row_fits n k c t : In n ["nut"; "bolt"] -> (k = [] \/ k = [w_text "count" "+07"]) -> In c ["A1"; "B2"] ->
  fits v_mean r_doc (describe_element r_oracle v_decls "Sheet" (ex_list "lines" "line" (TComplex "Line") (Some 1%Z) OUnbounded)) (Elem t [] (w_text "name" n :: k ++ [w_text "code" c])).
Proof.
  intros Hn Hk Hc. apply (r_complex "Sheet" _ r_line _ (w_text "name" n :: k ++ [w_text "code" c]) "Line"); [reflexivity|reflexivity|reflexivity|q_in| |].
  - split; [destruct Hk as [-> | ->]; reflexivity|]. intros s Hs. destruct Hk as [-> | ->]; cbn in Hs; intuition discriminate.
  - apply co_sequence with (map (describe_element r_oracle v_decls "Line") (cd_fields r_line)) [[w_text "name" n]; k; [w_text "code" c]].
    + eexists. reflexivity.
    + apply Forall2_cons; [|apply Forall2_cons; [|apply Forall2_cons; [|apply Forall2_nil]]].
      * apply r_element; [reflexivity|now left|reflexivity|]. apply r_text, r_word_fits. destruct Hn as [<- | [<- | []]]; vm_compute; tauto.
      * destruct Hk as [-> | ->]; [apply r_absent; reflexivity|]. apply r_element; [reflexivity|now right|reflexivity|]. apply r_text, r_count_fits.
      * apply r_element; [reflexivity|now left|reflexivity|]. now apply r_text, r_code_fits.
    + reflexivity.
Qed.
Lemma r_day : day_text (to_l "2024-02-29").
Proof. exists (to_l "2024"), "0"%char, "2"%char, "2"%char, "9"%char. split; [reflexivity|]. split; [reflexivity|]. split; [reflexivity|]. split; [reflexivity|]. vm_compute. intuition discriminate. Qed.
Lemma r_dates_fits t : fits v_mean r_doc (describe_element r_oracle v_decls "Sheet" (ex_elem "dates" (TComplex "Dates"))) (Elem t [] (el_kids r_dates)).
Proof.
  apply (r_complex "Sheet" _ v_dates _ (el_kids r_dates) "Dates"); [reflexivity|reflexivity|reflexivity|q_in| |].
  - split; [reflexivity|]. intros s Hs. cbn in Hs. intuition discriminate.
  - apply co_all with (map (describe_element r_oracle v_decls "Dates") (cd_fields v_dates)) [[w_text "day" "2024-02-29+02:00"]; [w_text "sent" "2024-02-29T10:05:00.25Z"]; [w_text "gift" "false"]].
    + eexists. reflexivity.
    + repeat (apply Forall_cons; [left; reflexivity|]). apply Forall_nil.
    + apply Forall2_cons; [|apply Forall2_cons; [|apply Forall2_cons; [|apply Forall2_nil]]].
      * apply r_element; [reflexivity|now left|reflexivity|]. apply r_text, (r_builtin _ _ "date"); [reflexivity|reflexivity|].
        apply lx_date with (to_l "2024-02-29") (to_l "+02:00"); [reflexivity|exact r_day|]. right. right. exists 120%Z. split; [|lia].
        exists "+"%char, "0"%char, "2"%char, "0"%char, "0"%char. split; [reflexivity|]. split; [reflexivity|]. vm_compute. intuition.
      * apply r_element; [reflexivity|now left|reflexivity|]. apply r_text, (r_builtin _ _ "dateTime"); [reflexivity|reflexivity|].
        apply lx_dateTime with (to_l "2024-02-29") (to_l "10:05:00.25") (to_l "Z"); [reflexivity|exact r_day| |right; now left].
        exists "1"%char, "0"%char, "0"%char, "5"%char, "0"%char, "0"%char, (to_l ".25"). split; [reflexivity|]. split; [reflexivity|]. split; [reflexivity|]. split; [reflexivity|]. split; [reflexivity|].
        right. exists (to_l "25"). split; [reflexivity|]. split; [reflexivity|discriminate].
      * apply r_element; [reflexivity|now right|reflexivity|]. apply r_text, (r_builtin _ _ "boolean"); [reflexivity|reflexivity|]. apply lx_boolean. q_in.
    + cbn [concat app]. symmetry. apply (Permutation_cons_append [w_text "day" "2024-02-29+02:00"; w_text "sent" "2024-02-29T10:05:00.25Z"]).
Qed.
Lemma r_valid : valid v_mean r_doc r_xml.
Proof.
  exists "urn:shop", "sheet", (describe_toplevel r_oracle r_env v_decls ("sheet", mkGel (TComplex "Sheet") true None)). split; [reflexivity|].
  split; [exact (element_found r_oracle r_env v_decls r_schema v_mean (proj1 (proj2 r_schema_ok)) "sheet" _ (or_introl eq_refl))|]. split; [reflexivity|].
  apply ft_children with (describe_class r_oracle v_decls true "Sheet" r_sheet) (tl (el_kids r_xml)).
  - split; [reflexivity|]. left. exists "sns:sheet", "urn:shop", "sheet". split; [reflexivity|]. split; [reflexivity|]. split; [exact (doc_sns r_oracle r_env v_decls r_schema "sheet")|].
    exact (class_found r_oracle r_env v_decls r_schema v_mean (proj1 (proj2 r_schema_ok)) "Sheet" ltac:(q_in)).
  - split; [reflexivity|]. intros s Hs. cbn in Hs. destruct Hs as [[= <-] | Hs]; [|intuition discriminate]. repeat (apply Forall_cons; [now left|]). apply Forall_nil.
  - apply co_sequence with (map (describe_element r_oracle v_decls "Sheet") (cd_fields r_sheet))
      [[r_row [w_text "name" "nut"; w_text "count" "+07"; w_text "code" "A1"]; r_row [w_text "name" "bolt"; w_text "code" "B2"]]; [r_dates]; [w_text "weight" "2.5"]].
    + eexists. reflexivity.
    + apply Forall2_cons; [|apply Forall2_cons; [|apply Forall2_cons; [|apply Forall2_nil]]].
      * apply oc_run with "line"; [reflexivity|reflexivity| |now left|].
        -- exists 1%Z. split; [apply (dec_Z_whole 1)|]. cbn. lia.
        -- apply Forall_cons; [|apply Forall_cons; [|apply Forall_nil]]; (split; [exists "urn:shop"; split; reflexivity|]).
           ++ apply (r_row_fits "nut" [w_text "count" "+07"] "A1"); [q_in|now right|q_in].
           ++ apply (r_row_fits "bolt" [] "B2"); [q_in|now left|q_in].
      * apply r_element; [reflexivity|now left|reflexivity|]. apply r_dates_fits.
      * apply r_element; [reflexivity|now left|reflexivity|]. apply r_text, (r_builtin _ _ "decimal"); [reflexivity|reflexivity|].
        apply (lx_decimal _ _ (tenths 25 1)); [now left|]. exists 25%Z, 1. split; [exact q_decimal|reflexivity].
    + reflexivity.
Qed.
Lemma r_spelled : spelled r_env r_schema (TComplex "Sheet") r_xml.
Proof.
  apply sl_object with r_sheet; [reflexivity|]. intros f y Hf Hy. cbn in Hf. repeat destruct Hf as [<- | Hf]; [..|destruct Hf]; vm_compute in Hy.
  - apply sl_object with r_line; [reflexivity|]. intros g z Hg Hz. cbn in Hg. repeat destruct Hg as [<- | Hg]; [..|destruct Hg]; apply sl_text; discriminate.
  - destruct Hy as [<- | []]. apply sl_object with v_dates; [reflexivity|]. intros g z Hg Hz. cbn in Hg. repeat destruct Hg as [<- | Hg]; [..|destruct Hg]; apply sl_text; try discriminate.
    vm_compute in Hz. destruct Hz as [<- | []]. intros _ t [[= <-] | []]. split; discriminate.
  - apply sl_text; discriminate.
Qed.
