(** Schemas and objects for the theorems about validity. *)
From Coq Require Import String Ascii List ZArith NArith Bool Lia QArith.
From Verif Require Import PyBase PyRe Xml PyVal XsdSimple XsdComplex ExEnv LibClasses Py2Xsd SpecXsd SpecFacets SpecSimple SpecDate SpecRound SpecRender SpecGenWsdl SpecLoadable SpecValid SpecGiven
  PfBase PfValid PfValid2 PfValid3 PfValid4 ExGenCode ExLoadable ExReclass.
Import ListNotations.
Open Scope nat_scope.
Open Scope string_scope.
Open Scope list_scope.

Definition v_info : sinfo := {| si_tns := Some "urn:shop"; si_efd := "qualified" |}.
Definition v_facets (enum : option (list string)) (pattern : option re) : sfacets :=
  {| sf_enum := enum; sf_pattern := pattern; sf_length := None; sf_minLength := None; sf_maxLength := None; sf_ws := None |}.
(** The two patterns. *)
Definition v_mean (text : string) : re := if String.eqb text "\w*" then g_re "\w*" else int_pattern.
(** [class Code(String): pattern = r'\w*'; enumeration = ['A1', 'B2']] *)
Definition v_code : stclass := mkSt "Code" (SString "String" no_sfacets) [VStr "A1"; VStr "B2"] VNone (VStr "\w*").
Definition v_code_type : stype := SString "Code" (v_facets (Some ["A1"; "B2"]) (Some (g_re "\w*"))).
(** [String(pattern=r'\w*')] and [Integer(minInclusive=0, maxExclusive=100)] *)
Definition v_word : ftype := TSimple (SString "String" (v_facets None (Some (g_re "\w*")))).
Definition v_count : ftype :=
  TSimple (SInteger CInteger {| df_enum := None; df_fraction := None; df_maxEx := Some (VInt 100); df_maxIn := None; df_minEx := None;
                                df_minIn := Some (VInt 0); df_pattern := None; df_total := Some 2%Z |}).
Definition v_opt (name : string) (t : ftype) : field := mkField name KElement t None (Some 0%Z) ONone false VNone None.
(** [class Item(ComplexType): name = Element(String(pattern=r'\w*')); count = Element(Integer(...), minOccurs=0); code = Element(Code)] *)
Definition v_item : classdef := mkClass ["Item"] CKPlain [ex_elem "name" v_word; v_opt "count" v_count; ex_elem "code" (TSimple v_code_type)] ISequence (Some v_info).
(** [class Contact(ComplexType): INDICATOR = Choice; phone = Element(String); mail = Element(AnyURI)] *)
Definition v_contact : classdef := mkClass ["Contact"] CKPlain [ex_elem "phone" t_str; ex_elem "mail" (TSimple (SString "AnyURI" no_sfacets))] IChoice (Some v_info).
(** [class Dates(ComplexType): INDICATOR = All; day = Element(Date); sent = Element(DateTime, nillable=True); gift = Element(Boolean, minOccurs=0)] *)
Definition v_dates : classdef := mkClass ["Dates"] CKPlain [ex_elem "day" (TSimple SDate); ex_nil "sent" (TSimple SDateTime); v_opt "gift" (TSimple SBoolean)] IAll (Some v_info).
(** [class Order(ComplexType): items = ListElement(Item, 'item', minOccurs=1, maxOccurs=UNBOUNDED); contact = Element(Contact); dates = Element(Dates);
    weight = Element(Decimal)] *)
Definition v_order : classdef :=
  mkClass ["Order"] CKPlain [ex_list "items" "item" (TComplex "Item") (Some 1%Z) OUnbounded; ex_elem "contact" (TComplex "Contact"); ex_elem "dates" (TComplex "Dates");
    ex_elem "weight" (TSimple (SDecimal "Decimal" no_dfacets))] ISequence (Some v_info).
(** Classes that are described otherwise than they are written:
    [class Basket(ComplexType): note = Element(String); items = ListElement(String, 'item')] *)
Definition v_basket : classdef := mkClass ["Basket"] CKPlain [ex_elem "note" t_str; ex_list "items" "item" t_str None ONone] ISequence (Some v_info).
(** [class Parcel(ComplexType): weight = Element(Decimal)] *)
Definition v_parcel : classdef := mkClass ["Parcel"] CKPlain [ex_elem "weight" (TSimple (SDecimal "Decimal" no_dfacets))] ISequence (Some v_info).
Definition v_env : env :=
  mkEnv (fun c => assoc c [("Item", v_item); ("Contact", v_contact); ("Dates", v_dates); ("Order", v_order); ("Basket", v_basket); ("Parcel", v_parcel)]) 20.
Definition v_decls : decls :=
  {| dc_class := fun _ f => negb (str_in (f_name f) ["name"; "count"]); dc_use := fun _ _ => "required"; dc_re := fun r => match r with RStar _ => "\w*" | _ => "[-+]?[0-9]+" end |}.
Definition v_schema : gschema :=
  mkGs "urn:shop" "qualified" [] [] [v_code] ["Order"; "Item"; "Contact"; "Dates"] [("order", mkGel (TComplex "Order") true None); ("dates", mkGel (TComplex "Dates") false None)].

Ltac v_field := intros f Hf _; cbn in Hf; repeat destruct Hf as [<- |Hf]; try destruct Hf;
    (split; [reflexivity|]; split; [split; [discriminate|reflexivity]|]; intros G; try discriminate);
    repeat split; try discriminate; try (intros; repeat constructor; eexists; split; reflexivity);
    try (intros v E; injection E as <-; reflexivity).
Ltac v_class := eexists; split; [reflexivity|]; split; [split; [discriminate|reflexivity]|]; split; [repeat constructor|v_field].
Lemma v_describable : schema_describable ex_oracle v_env v_decls v_schema.
Proof.
  split; [reflexivity|]. split; [now left|]. split; [constructor|]. split; [constructor|]. split; [|split].
  - apply Forall_cons; [|apply Forall_nil]. split; [split; [discriminate|reflexivity]|]. split; [split; [discriminate|reflexivity]|].
    split; [repeat constructor; eexists; split; reflexivity|]. split; [now left|]. right. eexists; split; reflexivity.
  - apply Forall_cons; [v_class|apply Forall_cons; [v_class|apply Forall_cons; [v_class|apply Forall_cons; [v_class|apply Forall_nil]]]].
  - apply Forall_cons; [|apply Forall_cons; [|apply Forall_nil]]; (split; [reflexivity|]; split; [discriminate|]); cbn [snd ge_class ge_type].
    + split; [discriminate|reflexivity].
    + exists "Dates". split; [reflexivity|v_class].
Qed.

Lemma v_own : own_string v_mean v_code v_code_type.
Proof.
  exists "String", (v_facets (Some ["A1"; "B2"]) (Some (g_re "\w*"))). split; [now left|]. split; [reflexivity|]. split; [reflexivity|]. split; [reflexivity|]. split; [reflexivity|].
  split; [|split; reflexivity]. repeat split; try discriminate. intros r [= <-]. reflexivity.
Qed.
Lemma v_word_ok : restricted v_mean v_decls (SString "String" (v_facets None (Some (g_re "\w*")))).
Proof.
  split; [now left|]. split.
  - repeat split; try discriminate. intros r [= <-]. reflexivity.
  - intros r [= <-]. reflexivity.
Qed.
Lemma v_count_ok f : v_count = TSimple (SInteger CInteger f) -> restricted v_mean v_decls (SInteger CInteger f).
Proof.
  intros [= <-]. split; [reflexivity|]. split; [intros r [= <-]; reflexivity|]. split; [intros r [= <-]; reflexivity|].
  intros b H. cbn in H. repeat (destruct H as [H | H]; [first [discriminate H | injection H as <-; exact I]|]). destruct H.
Qed.
Ltac v_type := first
  [ left; repeat split; first [now left | right; now left | reflexivity]
  | right; exists v_code; split; [now left|exact v_own]
  | cbn; tauto
  | eexists; split; [reflexivity|]; first [exact v_word_ok | apply v_count_ok; reflexivity] ].
Ltac v_occurs := first [now left | now right | split; [eexists; reflexivity|]; split; [discriminate|]; split; [discriminate|]; split; [discriminate|]; eexists; split; [reflexivity|discriminate]].
Ltac v_good := split; [reflexivity|]; split; [now left|]; split; [v_occurs|v_type].
Ltac v_ok := eexists; split; [reflexivity|]; split; [discriminate|]; split; [intros si [= <-]; reflexivity|];
  cbn [cd_fields cd_ind v_item v_contact v_dates v_order]; repeat (apply Forall_cons; [v_good|]); apply Forall_nil.
Lemma v_schema_ok : schema_ok v_mean v_env v_decls v_schema.
Proof.
  split; [discriminate|]. split; [split; repeat constructor; vm_compute; intuition discriminate|].
  assert (Ho : class_ok v_mean v_env v_decls v_schema "Order") by v_ok.
  assert (Hi : class_ok v_mean v_env v_decls v_schema "Item") by v_ok.
  assert (Hc : class_ok v_mean v_env v_decls v_schema "Contact") by v_ok.
  assert (Hd : class_ok v_mean v_env v_decls v_schema "Dates") by v_ok.
  split; [repeat (apply Forall_cons; [assumption|]); apply Forall_nil|].
  apply Forall_cons; [|apply Forall_cons; [|apply Forall_nil]]; cbn [snd ge_type ge_class]; intros c [= <-]; [now left|exact Hd].
Qed.

(** ** Objects *)
Definition v_piece (n : string) (k : pyval) (c : string) : pyval := VObj "Item" None [("name", VStr n); ("count", k); ("code", VStr c)].
Definition v_weight : pyfloat := {| fl_val := NFin (5 # 2); fl_repr := "2.5" |}.
Definition v_when (tz : option Z) : pyval := VObj "Dates" None [("day", VXSDDate 2024 2 29 tz); ("sent", VNil); ("gift", VBool true)].
Definition v_value : pyval :=
  VObj "Order" None [("items", VList true [v_piece "nut" (VInt 12) "A1"; v_piece "bolt" VNone "B2"]);
    ("contact", VObj "Contact" None [("phone", VNone); ("mail", VStr "mailto:a@b.c")]);
    ("dates", v_when (Some (7200 * 1000000)%Z)); ("weight", VFloat v_weight)].

Ltac v_get := intros ? Hf; cbn in Hf; repeat destruct Hf as [<- | Hf]; [..|try destruct Hf]; try (eexists; split; [reflexivity|]).
Ltac v_leaf := apply gv_value; [reflexivity|discriminate|discriminate|]; apply cp_simple; [vm_compute; reflexivity|].
Lemma v_when_complete : complete ex_oracle v_env (TComplex "Dates") (v_when (Some (7200 * 1000000)%Z)).
Proof.
  unfold v_when. apply cp_object with v_dates; [reflexivity|discriminate|]. v_get.
  - v_leaf. cbn [ordinary]. split; [vm_compute; intuition discriminate|]. split; [left; lia|]. intros off [= <-]. vm_compute. split; discriminate.
  - now apply gv_nil.
  - v_leaf. exact I.
Qed.
Lemma v_piece_complete n k c : In n ["nut"; "bolt"] -> k = VNone \/ k = VInt 12 -> In c ["A1"; "B2"] -> complete ex_oracle v_env (TComplex "Item") (v_piece n k c).
Proof.
  intros Hn Hk Hc. unfold v_piece. apply cp_object with v_item; [reflexivity|discriminate|]. v_get.
  - destruct Hn as [<- | [<- | []]]; v_leaf; cbn [ordinary]; intros _ t C; repeat (destruct t as [|? t]; [discriminate C|cbn in C; injection C as _ C]); destruct t; discriminate C.
  - destruct Hk as [-> | ->]; [now apply gv_left_out|]. v_leaf. exact I.
  - destruct Hc as [<- | [<- | []]]; v_leaf; cbn [ordinary]; intros _ t C; repeat (destruct t as [|? t]; [discriminate C|cbn in C; injection C as _ C]); destruct t; discriminate C.
Qed.
Lemma v_complete : complete ex_oracle v_env (TComplex "Order") v_value.
Proof.
  unfold v_value. apply cp_object with v_order; [reflexivity|discriminate|]. v_get.
  - apply gv_list; [reflexivity|]. apply Forall_cons; [|apply Forall_cons; [|apply Forall_nil]]; right; (split; [discriminate|]); apply v_piece_complete; cbn; tauto.
  - apply gv_value; [reflexivity|discriminate|discriminate|]. apply (cp_choice ex_oracle v_env "Contact" v_contact None _ [ex_elem "phone" t_str] (ex_elem "mail" (TSimple (SString "AnyURI" no_sfacets))) [] (VStr "mailto:a@b.c"));
      [reflexivity|reflexivity|reflexivity|reflexivity| |].
    + v_leaf. cbn [ordinary]. intros C. now destruct C.
    + v_get. now left.
  - apply gv_value; [reflexivity|discriminate|discriminate|]. exact v_when_complete.
  - v_leaf. cbn [ordinary plain_number]. exists (5 # 2)%Q. split; [reflexivity|]. exists 25%Z, 1. split; [|reflexivity].
    exists [], 1%Z, ["2"%char], ["."%char], ["5"%char]. split; [reflexivity|]. split; [now left|]. split; [reflexivity|]. split; [reflexivity|]. split; [now right|]. split; [discriminate|]. split; reflexivity.
Qed.

(** ** Objects that are written otherwise than described *)
Definition w_schema : gschema :=
  mkGs "urn:shop" "qualified" [] [] [] ["Basket"; "Contact"; "Dates"; "Parcel"]
    [("basket", mkGel (TComplex "Basket") true None); ("contact", mkGel (TComplex "Contact") true None); ("dates", mkGel (TComplex "Dates") true None); ("parcel", mkGel (TComplex "Parcel") true None)].
Definition w_doc : xdocument := the_doc ex_oracle v_env v_decls w_schema.
Definition w_xml (v : pyval) (name : string) : res node := xml_of 2 ex_oracle v_env v name (Some "urn:shop") (Some "qualified").
Definition w_basket (note : pyval) (items : list string) : pyval := VObj "Basket" None [("note", note); ("items", VList true (map VStr items))].
Definition w_contact : pyval := VObj "Contact" None [("phone", VStr "1234"); ("mail", VStr "mailto:a@b.c")].
Definition w_parcel (v : pyval) : pyval := VObj "Parcel" None [("weight", v)].
Definition w_tiny : pyval := VFloat {| fl_repr := "1e-07"; fl_val := NFin (1 # 10000000) |}.
Lemma w_distinct : distinct_names w_schema.
Proof. split; repeat constructor; vm_compute; intuition discriminate. Qed.
Lemma w_generated : generate_xsd 8 ex_oracle (lib_env 0) v_env v_decls w_schema = Ok w_doc.
Proof. vm_compute. reflexivity. Qed.

Definition w_tag (n : string) : string := ("{urn:shop}" ++ n)%string.
Definition w_text (n t : string) : node := Elem (w_tag n) [] [Text t].
Section Any.
  Variable mean : string -> re.
  Notation invalid x := (~ valid mean w_doc x).
  (** The children of a root, by the fields of its class. *)
  Lemma w_fields name c d k : In (name, mkGel (TComplex c) true None) (gs_elements w_schema) -> In c (gs_complex w_schema) -> e_cls v_env c = Some d -> cd_ind d <> IChoice ->
    NoDup (map tag_or_name (filter is_plain (cd_fields d))) -> (exists y, In y k /\ is_text y = false) -> (forall y, In y k -> is_text y = false) -> valid mean w_doc (Elem (w_tag name) [] k) ->
    forall f, In f (cd_fields d) -> is_plain f = true -> SpecValid.occurs mean w_doc (describe_element ex_oracle v_decls c f) (called w_schema (tag_or_name f) k).
  Proof.
    intros Hin Hc Ed Hi Hd Hk Hkt Hv f Hf Hp.
    destruct (valid_fields ex_oracle v_env v_decls w_schema mean w_distinct name _ c d (w_tag name) [] k Hin eq_refl eq_refl (fun _ => Hc) Ed Hi Hd Hk Hv) as (k' & (Hk' & _) & Ho).
    assert (X : k' = k).
    { rewrite Hk'. clear - Hkt. induction k as [|y k IH]; [reflexivity|]. cbn [filter]. rewrite (Hkt y (or_introl eq_refl)). cbn [negb]. f_equal. apply IH. intros z Hz. apply Hkt. now right. }
    rewrite <- X. apply Ho; assumption.
  Qed.
  Lemma w_basket_invalid k : (exists y, In y k /\ is_text y = false) -> (forall y, In y k -> is_text y = false) ->
    length (called w_schema "note" k) <> 1 \/ length (called w_schema "item" k) <> 1 -> invalid (Elem (w_tag "basket") [] k).
  Proof.
    intros Hk Hkt Hn Hv.
    assert (X : forall f, In f (cd_fields v_basket) -> is_plain f = true -> length (called w_schema (tag_or_name f) k) = 1).
    { intros f Hf Hp. pose proof (w_fields "basket" "Basket" v_basket k ltac:(cbn; tauto) ltac:(cbn; tauto) eq_refl ltac:(discriminate)
        ltac:(repeat constructor; cbn; intuition discriminate) Hk Hkt Hv f Hf Hp) as Ho.
      inversion Ho as [d n k0 _ _ Hl Hm _]; subst. unfold at_least, at_most in Hl, Hm.
      destruct Hf as [<- | [<- | []]]; cbn [assoc] in Hl, Hm.
      - rewrite (decl_min ex_oracle v_decls) in Hl. rewrite (decl_max ex_oracle v_decls) in Hm. cbn [f_min f_kind f_max ex_elem option_map] in Hl, Hm.
        destruct Hl as (z & Hz & Hl). assert (z = 1%Z) by (apply (whole_unique "1"); [exact Hz | apply (dec_Z_whole 1)]). lia.
      - rewrite (decl_min ex_oracle v_decls) in Hl. rewrite (decl_max ex_oracle v_decls) in Hm. cbn [f_min f_kind f_max ex_list option_map] in Hl, Hm. lia. }
    pose proof (X (ex_elem "note" t_str) (or_introl eq_refl) eq_refl). pose proof (X (ex_list "items" "item" t_str None ONone) (or_intror (or_introl eq_refl)) eq_refl).
    cbn in *. intuition.
  Qed.
  Lemma w_contact_invalid k : In (w_text "phone" "1234") k -> In (w_text "mail" "mailto:a@b.c") k -> invalid (Elem (w_tag "contact") [] k).
  Proof.
    intros H1 H2 Hv.
    destruct (valid_choice ex_oracle v_env v_decls w_schema mean w_distinct "contact" (mkGel (TComplex "Contact") true None) "Contact" v_contact (w_tag "contact") [] k ltac:(cbn; tauto) eq_refl eq_refl ltac:(cbn; tauto) eq_refl eq_refl
      (ex_intro _ _ (conj H1 eq_refl)) Hv) as (k' & f & (-> & _) & Hf & Ho).
    apply occurs_tags in Ho. rewrite Forall_forall in Ho.
    pose proof (Ho _ (proj2 (filter_In _ _ _) (conj H1 eq_refl))) as T1. pose proof (Ho _ (proj2 (filter_In _ _ _) (conj H2 eq_refl))) as T2.
    cbn in Hf. destruct Hf as [<- | [<- | []]]; [discriminate T2 | discriminate T1].
  Qed.
  (** The text of a child, by the type of its field. *)
  Lemma w_child name c d k f n t : In (name, mkGel (TComplex c) true None) (gs_elements w_schema) -> In c (gs_complex w_schema) -> e_cls v_env c = Some d -> cd_ind d <> IChoice ->
    NoDup (map tag_or_name (filter is_plain (cd_fields d))) -> (forall y, In y k -> is_text y = false) -> valid mean w_doc (Elem (w_tag name) [] k) ->
    In f (cd_fields d) -> is_plain f = true -> dc_class v_decls c f = true -> type_ref (f_type f) = ("xsd:" ++ n)%string -> In (w_text (tag_or_name f) t) k -> lexical n t.
  Proof.
    intros Hin Hc Ed Hi Hd Hkt Hv Hf Hp Hcl Ht Hx.
    pose proof (w_fields name c d k Hin Hc Ed Hi Hd (ex_intro _ _ (conj Hx eq_refl)) Hkt Hv f Hf Hp) as Ho. inversion Ho as [d0 n0 k0 _ _ _ _ Hk]; subst. rewrite Forall_forall in Hk.
    assert (Hx' : In (w_text (tag_or_name f) t) (called w_schema (tag_or_name f) k)).
    { apply filter_In. split; [exact Hx|]. apply String.eqb_eq. reflexivity. }
    destruct (Hk _ Hx') as (_ & Hfit).
    destruct (builtin_text ex_oracle v_env v_decls w_schema mean f c n _ ltac:(discriminate) Hcl Ht (ex_intro _ t eq_refl) Hfit) as (w & E & Hl). unfold w_text in E. injection E as <-. exact Hl.
  Qed.
  Lemma w_parcel_invalid t : In "e"%char (to_l t) -> invalid (Elem (w_tag "parcel") [] [w_text "weight" t]).
  Proof.
    intros He Hv.
    pose proof (w_child "parcel" "Parcel" v_parcel [w_text "weight" t] (ex_elem "weight" (TSimple (SDecimal "Decimal" no_dfacets))) "decimal" t ltac:(cbn; tauto) ltac:(cbn; tauto) eq_refl ltac:(discriminate)
      ltac:(repeat constructor; cbn; intuition discriminate) ltac:(intros y [<- | []]; reflexivity) Hv ltac:(cbn; tauto) eq_refl eq_refl eq_refl ltac:(cbn; tauto)) as Hl.
    inversion Hl as [| | |n s q _ Hq|n lo hi s z Hn|  | |]; subst.
    - destruct (number_chars _ _ _ Hq He) as [C | C]; [discriminate C|]. cbn in C. intuition discriminate.
    - cbn in Hn. intuition discriminate.
  Qed.
  Definition w_day : string := "2024-02-29+15:00".
  Lemma w_dates_invalid k : (forall y, In y k -> is_text y = false) -> In (w_text "day" w_day) k -> invalid (Elem (w_tag "dates") [] k).
  Proof.
    intros Hk Hin Hv.
    pose proof (w_child "dates" "Dates" v_dates k (ex_elem "day" (TSimple SDate)) "date" w_day ltac:(cbn; tauto) ltac:(cbn; tauto) eq_refl ltac:(discriminate)
      ltac:(repeat constructor; cbn; intuition discriminate) Hk Hv ltac:(cbn; tauto) eq_refl eq_refl eq_refl Hin) as Hl.
    inversion Hl as [| | |n s q Hn|n lo hi s z Hn|s day zone E Hd Hz| |]; subst; try (cbn in Hn; intuition discriminate).
    destruct Hd as (ys & m1 & m2 & d1 & d2 & -> & Hy & _). destruct ys as [|y1 [|y2 [|y3 [|y4 [|]]]]]; try discriminate Hy.
    cbn in E. injection E as _ _ _ _ _ _ _ _ <-. destruct Hz as [C | [C | (m & Hm & Hb)]]; [discriminate C|discriminate C|].
    destruct Hm as (sg & h1 & h2 & n1 & n2 & E & _ & _ & _ & [(_ & ->) | (-> & _)]); [|discriminate E]. injection E as _ <- <- <- <-. vm_compute in Hb. now destruct Hb as [_ Hb].
  Qed.
End Any.

Ltac w_read := vm_compute; reflexivity.
Ltac w_kids := intros y Hy; repeat (destruct Hy as [<- | Hy]; [reflexivity|]); destruct Hy.
Lemma w_list : forall mean, exists doc x y, generate_xsd 8 ex_oracle (lib_env 0) v_env v_decls w_schema = Ok doc /\
  w_xml (w_basket (VStr "n") []) "basket" = Ok x /\ w_xml (w_basket (VStr "n") ["a"; "b"]) "basket" = Ok y /\ ~ valid mean doc x /\ ~ valid mean doc y.
Proof.
  intros mean. exists w_doc, (Elem (w_tag "basket") [] [w_text "note" "n"]), (Elem (w_tag "basket") [] [w_text "note" "n"; w_text "item" "a"; w_text "item" "b"]).
  split; [exact w_generated|]. split; [w_read|]. split; [w_read|].
  split; (apply w_basket_invalid; [eexists; split; [now left|reflexivity]|w_kids|right; vm_compute; discriminate]).
Qed.
Lemma w_required : forall mean, exists doc x, generate_xsd 8 ex_oracle (lib_env 0) v_env v_decls w_schema = Ok doc /\
  w_xml (w_basket VNone ["a"]) "basket" = Ok x /\ ~ valid mean doc x.
Proof.
  intros mean. exists w_doc, (Elem (w_tag "basket") [] [w_text "item" "a"]). split; [exact w_generated|]. split; [w_read|].
  apply w_basket_invalid; [eexists; split; [now left|reflexivity]|w_kids|left; vm_compute; discriminate].
Qed.
Lemma w_choice : forall mean, exists doc x, generate_xsd 8 ex_oracle (lib_env 0) v_env v_decls w_schema = Ok doc /\
  w_xml w_contact "contact" = Ok x /\ ~ valid mean doc x.
Proof.
  intros mean. exists w_doc, (Elem (w_tag "contact") [] [w_text "phone" "1234"; w_text "mail" "mailto:a@b.c"]). split; [exact w_generated|]. split; [w_read|].
  apply w_contact_invalid; [now left | right; now left].
Qed.
Lemma w_decimal : forall mean, exists doc x y, generate_xsd 8 ex_oracle (lib_env 0) v_env v_decls w_schema = Ok doc /\
  st_accept ex_oracle (SDecimal "Decimal" no_dfacets) (VBool true) = Ok (VBool true) /\ st_accept ex_oracle (SDecimal "Decimal" no_dfacets) w_tiny = Ok w_tiny /\
  w_xml (w_parcel (VBool true)) "parcel" = Ok x /\ w_xml (w_parcel w_tiny) "parcel" = Ok y /\ ~ valid mean doc x /\ ~ valid mean doc y.
Proof.
  intros mean. exists w_doc, (Elem (w_tag "parcel") [] [w_text "weight" "True"]), (Elem (w_tag "parcel") [] [w_text "weight" "1e-07"]).
  split; [exact w_generated|]. split; [reflexivity|]. split; [reflexivity|]. split; [w_read|]. split; [w_read|].
  split; apply w_parcel_invalid; cbn; tauto.
Qed.
Lemma w_zone : forall mean, exists doc x, generate_xsd 8 ex_oracle (lib_env 0) v_env v_decls w_schema = Ok doc /\
  st_accept ex_oracle SDate (VXSDDate 2024 2 29 (Some (54000 * 1000000)%Z)) = Ok (VXSDDate 2024 2 29 (Some (54000 * 1000000)%Z)) /\
  w_xml (v_when (Some (54000 * 1000000)%Z)) "dates" = Ok x /\ ~ valid mean doc x.
Proof.
  intros mean. eexists w_doc, (Elem (w_tag "dates") [] [w_text "day" w_day; Elem (w_tag "sent") [(xsi_nil, "true")] []; w_text "gift" "true"]).
  split; [exact w_generated|]. split; [w_read|]. split; [w_read|]. apply w_dates_invalid; [w_kids|now left].
Qed.
