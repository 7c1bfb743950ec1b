(** Properties C25, C26, C27, C29, C34: reading back single fields. *)
From Coq Require Import String Ascii List ZArith NArith Bool Lia.
From Verif Require Import PyBase Xml PyVal XsdSimple XsdComplex SpecRender SpecParse SpecRound SpecParse2 ExEnv ExNames
  PfParse2 PfParse3.
Import ListNotations.
Open Scope Z_scope.

(** ** C25 *)
(** An attribute is read from the attribute called like the Python field.  When
    no attribute of the class is written under that name (its own tag name
    differs), whatever was set is lost: the field holds the declared default. *)
Theorem C25_tagname_refuted :
  forall n m O E ci di xe fs tag ns efd x f v, names_ok E -> ncname_ok tag = true ->
  e_cls E ci = Some di -> flat_class di -> In f (cd_fields di) -> is_attr f = true ->
  (forall g, In g (cd_fields di) -> is_attr g = true -> tag_or_name g <> f_name f) ->
  xml_of n O E (VObj ci xe fs) tag ns efd = Ok x -> parse_obj m O E ci (wire x) = Ok v ->
  exists fs' s w w', v = VObj ci (Some (wire x)) fs' /\ f_type f = TSimple s /\
    st_pythonvalue O s (f_default f) = Ok w /\ field_accept O E f w = Ok w' /\ assoc (f_name f) fs' = Some w'.
Proof. exact attr_lost. Qed.
Print Assumptions C25_tagname_refuted.
(** An attribute whose tag name is its Python name (or that has none) is read
    back, the empty string included. *)
Theorem C25_same_name_partial :
  forall n m O E ci di xe fs tag ns efd x f v s text w w' v', names_ok E -> ncname_ok tag = true ->
  e_cls E ci = Some di -> flat_class di -> In f (cd_fields di) -> is_attr f = true ->
  tag_or_name f = f_name f ->
  (forall g, In g (cd_fields di) -> is_attr g = true -> g <> f -> tag_or_name g <> f_name f) ->
  f_type f = TSimple s -> assoc (f_name f) fs = Some v -> v <> VNone -> v <> VNil ->
  st_xmlvalue O s v = Ok (VStr text) -> st_pythonvalue O s (VStr text) = Ok w -> field_accept O E f w = Ok w' ->
  xml_of n O E (VObj ci xe fs) tag ns efd = Ok x -> parse_obj m O E ci (wire x) = Ok v' ->
  exists fs', v' = VObj ci (Some (wire x)) fs' /\ assoc (f_name f) fs' = Some w'.
Proof. exact attr_back. Qed.
Print Assumptions C25_same_name_partial.

Definition ex_tagged : pyval := VObj "Tagged" None [("code", VStr "F1"); ("note", VStr "x")]%string.
Definition ex_tagged_xml : node := Elem "t" [("id", "F1")]%string [Elem "note" [] [Text "x"]].
Example C25_nonvacuous :
  flat_class cd_tagged /\
  (forall g, In g (cd_fields cd_tagged) -> is_attr g = true -> tag_or_name g <> f_name ex_tagged_attr) /\
  xml_of 3 ex_oracle ex_env ex_tagged "t" None None = Ok ex_tagged_xml /\
  res_map erase (parse_obj 3 ex_oracle ex_env "Tagged" ex_tagged_xml) =
    Ok (VObj "Tagged" None [("code", VNone); ("note", VStr "x")]%string).
Proof.
  split; [|split; [|split; vm_compute; reflexivity]].
  - split; [|split; [|exact I]].
    + repeat constructor; cbn; intuition discriminate.
    + intros f [<-|[<-|[]]]; cbn; auto.
  - intros g [<-|[<-|[]]]; cbn; discriminate.
Qed.
Definition ex_memo (title lang : string) : pyval :=
  VObj "Memo" None [("title", VStr title); ("lines", VList true []); ("lang", VStr lang)]%string.
Lemma ex_memo_flat : flat_class cd_memo.
Proof.
  split; [|split; [|exact I]].
  - repeat constructor; cbn; intuition discriminate.
  - intros f [<-|[<-|[<-|[]]]]; cbn; auto.
Qed.
Example C25_same_name_nonvacuous :
  flat_class cd_memo /\ tag_or_name (ex_attr "lang" t_str true) = "lang"%string /\
  xml_of 3 ex_oracle ex_env (ex_memo "t" "") "m" None None =
    Ok (Elem "m" [("lang", "")]%string [Elem "title" [] [Text "t"]]) /\
  res_map erase (parse_obj 3 ex_oracle ex_env "Memo" (Elem "m" [("lang", "")]%string [Elem "title" [] [Text "t"]])) =
    Ok (ex_memo "t" "").
Proof. split; [exact ex_memo_flat|]. repeat split; vm_compute; reflexivity. Qed.

(** ** C26 *)
(** A Choice object is read from the element it is given, not from its
    children: unless that element is itself named like an alternative, every
    alternative is as in a fresh instance, whatever the children hold. *)
Theorem C26_choice_refuted :
  forall n O E c d x v, e_cls E c = Some d -> NoDup (map f_name (cd_fields d)) -> cd_ind d = IChoice ->
  (forall g, In g (cd_fields d) -> is_plain g = true -> ~ names_field x g) ->
  parse_obj n O E c x = Ok v ->
  exists fs, v = VObj c (Some x) fs /\
    forall g, In g (cd_fields d) -> is_plain g = true -> fresh_value O E c g (assoc (f_name g) fs).
Proof. exact choice_unnamed. Qed.
Print Assumptions C26_choice_refuted.
(** An element named like an alternative is read as that alternative (the first
    of that name), and the others are left unset. *)
Theorem C26_inline_choice_partial :
  forall n O E c d x v pre f post, e_cls E c = Some d -> NoDup (map f_name (cd_fields d)) -> cd_ind d = IChoice ->
  filter is_plain (cd_fields d) = pre ++ f :: post -> (forall g, In g pre -> ~ names_field x g) -> names_field x f ->
  f_kind f = KElement -> el_get x xsi_nil <> Some "true"%string ->
  parse_obj (S n) O E c x = Ok v ->
  exists fs w w', v = VObj c (Some x) fs /\ parse_type O (parse_obj n O E) (f_type f) x = Ok w /\
    field_accept O E f w = Ok w' /\ assoc (f_name f) fs = Some w' /\
    forall g, In g (cd_fields d) -> is_plain g = true -> g <> f -> fresh_value O E c g (assoc (f_name g) fs).
Proof. exact choice_named. Qed.
Print Assumptions C26_inline_choice_partial.
Definition ex_result : pyval := VObj "Result" None [("code", VNone); ("message", VStr "foo bar")]%string.
Definition ex_result_xml : node := Elem "result" [] [Elem "message" [] [Text "foo bar"]].
Example C26_nonvacuous :
  cd_ind cd_result = IChoice /\
  (forall g, In g (cd_fields cd_result) -> is_plain g = true -> ~ names_field ex_result_xml g) /\
  xml_of 3 ex_oracle ex_env ex_result "result" None None = Ok ex_result_xml /\
  res_map erase (parse_obj 3 ex_oracle ex_env "Result" ex_result_xml) =
    Ok (VObj "Result" None [("code", VNone); ("message", VNone)]%string) /\
  res_map erase (parse_obj 3 ex_oracle ex_env "Result" (Elem "message" [] [Text "foo bar"])) = Ok ex_result.
Proof.
  split; [reflexivity|]. split; [|repeat split; vm_compute; reflexivity].
  intros g [<-|[<-|[]]] _ (t & a & k & [= <- <- <-] & [H|H]); discriminate.
Qed.

(** ** C27 *)
(** A reference to an ordinary complex type is written as a child element but
    read from the referring element: every element field of the referenced
    object comes back as in a fresh instance. *)
Theorem C27_ref_refuted :
  forall n m O E c d f ct dt xe fs tag ns efd x v, names_ok E -> ncname_ok tag = true ->
  e_cls E c = Some d -> cd_ind d <> IChoice -> cd_kind d <> CKHeader -> cd_fields d = [f] -> f_kind f = KRef ->
  f_type f = TComplex ct -> f_nillable f = false ->
  e_cls E ct = Some dt -> cd_kind dt <> CKHeader -> cd_kind dt <> CKGroup -> cd_ind dt <> IChoice ->
  NoDup (map f_name (cd_fields dt)) ->
  (forall fv, assoc (f_name f) fs = Some fv -> is_group_obj E fv = false) ->
  ns_good ns -> ns_good (match cd_schema d with Some si => si_tns si | None => None end) ->
  (forall g, In g (cd_fields dt) -> is_plain g = true -> f_name g <> tag_or_name f /\ f_tag g <> Some (tag_or_name f)) ->
  xml_of n O E (VObj c xe fs) tag ns efd = Ok x -> parse_obj m O E c (wire x) = Ok v ->
  exists fst, v = VObj c (Some (wire x)) [(f_name f, VObj ct (Some (wire x)) fst)] /\
    forall g, In g (cd_fields dt) -> is_plain g = true -> fresh_value O E ct g (assoc (f_name g) fst).
Proof. exact ref_lost. Qed.
Print Assumptions C27_ref_refuted.
(** What a reference holds after parsing: the referenced type read from the
    referring element itself. *)
Theorem C27_ref_reads_parent_partial :
  forall n O E c d x fs xe f, e_cls E c = Some d -> NoDup (map f_name (cd_fields d)) ->
  In f (cd_fields d) -> f_kind f = KRef -> el_get x xsi_nil = None ->
  parse_obj (S n) O E c x = Ok (VObj c xe fs) ->
  exists w w', parse_type O (parse_obj n O E) (f_type f) x = Ok w /\
     field_accept O E f w = Ok w' /\ assoc (f_name f) fs = Some w'.
Proof. exact parse_ref_value. Qed.
Print Assumptions C27_ref_reads_parent_partial.
Definition ex_order : pyval := VObj "Order" None [("first"%string, ex_leg "OSL" (VInt 7))].
Definition ex_order_xml : node :=
  Elem (air "order") [] [Elem (air "first") [] [Elem (air "origin") [] [Text "OSL"]; Elem (air "seats") [] [Text "7"]]].
Example C27_nonvacuous :
  (forall g, In g (cd_fields cd_leg) -> is_plain g = true ->
     f_name g <> tag_or_name (ex_ref "first" (TComplex "Leg")) /\ f_tag g <> Some "first"%string) /\
  is_group_obj ex_env (ex_leg "OSL" (VInt 7)) = false /\
  xml_of 3 ex_oracle ex_env ex_order "order" (Some "urn:air"%string) (Some qualified) = Ok ex_order_xml /\
  res_map erase (parse_obj 3 ex_oracle ex_env "Order" ex_order_xml) =
    Ok (VObj "Order" None [("first", VObj "Leg" None [("origin", VNone); ("seats", VNone)])]%string).
Proof.
  split; [|repeat split; vm_compute; reflexivity].
  intros g [<-|[<-|[]]] _; split; discriminate.
Qed.

(** ** C29 *)
(** A single element is read as NIL exactly when xsi:nil is the text 'true'. *)
Theorem C29_element_partial :
  forall n O E c d x xe fs f y, e_cls E c = Some d -> NoDup (map f_name (cd_fields d)) ->
  cd_ind d <> IChoice -> In f (cd_fields d) -> f_kind f = KElement ->
  filter (belongs f) (el_kids x) = [y] -> parse_obj n O E c x = Ok (VObj c xe fs) ->
  (assoc (f_name f) fs = Some VNil <-> el_get y xsi_nil = Some "true"%string).
Proof. exact elem_nil_iff. Qed.
Print Assumptions C29_element_partial.
(** An item of a list is read as NIL exactly when xsi:nil is not empty, so also
    when it is 'false'. *)
Theorem C29_list_partial :
  forall n O E c d x xe fs f, e_cls E c = Some d -> NoDup (map f_name (cd_fields d)) ->
  cd_ind d <> IChoice -> In f (cd_fields d) -> f_kind f = KList ->
  parse_obj n O E c x = Ok (VObj c xe fs) ->
  exists items, assoc (f_name f) fs = Some (VList true items) /\
    Forall2 (fun y w => w = VNil <-> exists s, el_get y xsi_nil = Some s /\ s <> ""%string)
      (filter (belongs f) (el_kids x)) items.
Proof. exact list_nil_iff. Qed.
Print Assumptions C29_list_partial.
(** Neither is the boolean meaning of xsi:nil: an element with '1' is not read
    as NIL, a list item with 'false' is. *)
Definition nil_elem (name s : string) : node := Elem name [(xsi_nil, s)] [Text "v"].
Theorem C29_boolean_refuted :
  (exists x fs, xs_true "1" /\ x = Elem "m" [("lang", "en")]%string [nil_elem "title" "1"] /\
     res_map erase (parse_obj 3 ex_oracle ex_env "Memo" x) = Ok (VObj "Memo" None fs) /\
     assoc "title"%string fs = Some (VStr "v")) /\
  (exists x fs, ~ xs_true "false" /\ x = Elem "m" [("lang", "en")]%string [nil_elem "line" "false"] /\
     res_map erase (parse_obj 3 ex_oracle ex_env "Memo" x) = Ok (VObj "Memo" None fs) /\
     assoc "lines"%string fs = Some (VList true [VNil])).
Proof.
  split; eexists; eexists; (split; [now right || (intros [|]; discriminate)|]);
    (split; [reflexivity|]); split; vm_compute; reflexivity.
Qed.
Print Assumptions C29_boolean_refuted.
Example C29_nonvacuous :
  filter (belongs (ex_nil "title" t_str)) [nil_elem "title" "true"; nil_elem "line" "true"; nil_elem "line" ""]
    = [nil_elem "title" "true"] /\
  res_map erase (parse_obj 3 ex_oracle ex_env "Memo"
     (Elem "m" [("lang", "en")]%string [nil_elem "title" "true"; nil_elem "line" "true"; nil_elem "line" ""])) =
    Ok (VObj "Memo" None [("title", VNil); ("lines", VList true [VNil; VStr "v"]); ("lang", VStr "en")]%string).
Proof. split; vm_compute; reflexivity. Qed.

(** ** C34 *)
(** The empty string is read back as None. *)
Theorem C34_empty_string_refuted :
  forall n m O E ci di xe fs tag ns efd x f cls fac v', names_ok E -> ncname_ok tag = true ->
  e_cls E ci = Some di -> flat_class di -> ns_good ns -> cd_kind di <> CKHeader -> cd_ind di <> IChoice ->
  In f (cd_fields di) -> f_kind f = KElement -> alone di f ->
  f_type f = TSimple (SString cls fac) -> assoc (f_name f) fs = Some (VStr ""%string) ->
  xml_of n O E (VObj ci xe fs) tag ns efd = Ok x -> parse_obj m O E ci (wire x) = Ok v' ->
  exists fs', v' = VObj ci (Some (wire x)) fs' /\ assoc (f_name f) fs' = Some VNone.
Proof. exact empty_string_lost. Qed.
Print Assumptions C34_empty_string_refuted.
(** Every other string the type accepts as it is comes back. *)
Theorem C34_nonempty_partial :
  forall n m O E ci di xe fs tag ns efd x f cls fac t v', names_ok E -> ncname_ok tag = true ->
  e_cls E ci = Some di -> flat_class di -> ns_good ns -> cd_kind di <> CKHeader -> cd_ind di <> IChoice ->
  In f (cd_fields di) -> f_kind f = KElement -> alone di f ->
  f_type f = TSimple (SString cls fac) -> assoc (f_name f) fs = Some (VStr t) -> t <> ""%string ->
  st_accept O (SString cls fac) (VStr t) = Ok (VStr t) ->
  xml_of n O E (VObj ci xe fs) tag ns efd = Ok x -> parse_obj m O E ci (wire x) = Ok v' ->
  exists fs', v' = VObj ci (Some (wire x)) fs' /\ assoc (f_name f) fs' = Some (VStr t).
Proof. exact string_kept. Qed.
Print Assumptions C34_nonempty_partial.
Example C34_nonvacuous :
  flat_class cd_memo /\ alone cd_memo (ex_nil "title" t_str) /\
  xml_of 3 ex_oracle ex_env (ex_memo "" "en") "m" None None =
    Ok (Elem "m" [("lang", "en")]%string [Elem "title" [] [Text ""]]) /\
  res_map erase (parse_obj 3 ex_oracle ex_env "Memo" (wire (Elem "m" [("lang", "en")]%string [Elem "title" [] [Text ""]]))) =
    Ok (VObj "Memo" None [("title", VNone); ("lines", VList true []); ("lang", VStr "en")]%string).
Proof.
  split; [exact ex_memo_flat|]. split; [|split; vm_compute; reflexivity].
  intros g [<-|[<-|[<-|[]]]] Pg Ne; [congruence| |discriminate Pg]. intros [H|H]; discriminate.
Qed.
