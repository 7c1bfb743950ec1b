(** Properties C24, C30: names and attributes of rendered elements. *)
From Coq Require Import String Ascii List ZArith NArith Bool.
From Verif Require Import PyBase Xml PyVal XsdSimple XsdComplex SpecObject SpecRender ExEnv ExNames PfRender PfRender2.
Import ListNotations.
Open Scope Z_scope.

(** ** C24 *)
(** The root is qualified with the namespace passed to [xml()]; everything below
    has the names, attributes and texts prescribed by [shape] (SpecRender.v), to
    any depth. *)
Theorem C24_rendered_shape :
  forall n O E ci xe fs tag ns efd x, names_ok E -> ncname_ok tag = true ->
  xml_of n O E (VObj ci xe fs) tag ns efd = Ok x ->
  el_tag x = ref_tag ns tag /\ shape O E efd ns (TComplex ci) (VObj ci xe fs) x.
Proof. exact xml_of_shape. Qed.
Print Assumptions C24_rendered_shape.
(** Every child stems from a field of the object (or of a group in it) and has
    exactly the tag that field prescribes. *)
Theorem C24_child_names :
  forall n O E ci xe fs tag ns efd x, names_ok E -> ncname_ok tag = true ->
  xml_of n O E (VObj ci xe fs) tag ns efd = Ok x ->
  exists entries, flat E ns ci (VObj ci xe fs) entries /\
    forall k, In k (el_kids x) -> exists e, In e entries /\ child_tag_ok efd e k.
Proof. exact child_tags. Qed.
Print Assumptions C24_child_names.
(** Attributes are never qualified. *)
Theorem C24_attributes_unqualified :
  forall n O E ci xe fs tag ns efd x k t, names_ok E -> ncname_ok tag = true ->
  xml_of n O E (VObj ci xe fs) tag ns efd = Ok x -> In (k, t) (el_attrs x) ->
  ncname_ok k = true.
Proof. exact attrs_unqualified. Qed.
Print Assumptions C24_attributes_unqualified.
Example C24_nonvacuous :
  xml_of 6 ex_oracle ex_env ex_flight "flight" (Some "urn:air"%string) (Some qualified) = Ok ex_flight_xml /\
  names_ok ex_env.
Proof.
  split; [vm_compute; reflexivity|]. exact ex_names_ok.
Qed.

(** ** C30 *)
(** If rendering succeeds then no required attribute was None and no
    non-nillable one NIL; and (their names being distinct) exactly the non-None
    attributes are written, in order, each with its text. *)
Theorem C30_attributes_exact :
  forall n O E ci xe fs tag ns efd x, names_ok E -> ncname_ok tag = true ->
  xml_of n O E (VObj ci xe fs) tag ns efd = Ok x ->
  exists entries, flat E ns ci (VObj ci xe fs) entries /\
    (forall f ns1, In (f, VNone, ns1) entries -> is_attr f = true -> f_min f = None \/ f_min f = Some 0) /\
    (forall f ns1, In (f, VNil, ns1) entries -> is_attr f = true -> f_nillable f = true) /\
    (NoDup (map (fun e => tag_or_name (fst (fst e))) (filter has_attr entries)) ->
     Forall2 (fun e a => fst a = tag_or_name (fst (fst e)) /\
                (snd (fst e) = VNil /\ snd a = "nil"%string \/
                 exists s, f_type (fst (fst e)) = TSimple s /\ st_xmlvalue O s (snd (fst e)) = Ok (VStr (snd a))))
       (filter has_attr entries) (el_attrs x)).
Proof. exact attrs_exact. Qed.
Print Assumptions C30_attributes_exact.
Theorem C30_missing_never_rendered :
  forall n O E c parent ci xe fs ns efd di f x,
  e_cls E ci = Some di -> In f (cd_fields di) -> is_attr f = true -> attr_missing fs f ->
  render_obj n O E c parent (VObj ci xe fs) ns efd <> Ok x.
Proof. exact missing_never_ok. Qed.
Print Assumptions C30_missing_never_rendered.
Theorem C30_missing_is_ValueError :
  forall n O E c d ci di xe fs ns efd t pre f post t' a k,
  e_cls E c = Some d -> cd_kind d <> CKHeader -> e_cls E ci = Some di ->
  cd_fields di = pre ++ f :: post -> is_attr f = true -> attr_missing fs f ->
  foldM (fun par g => fv <- getattr fs (f_name g) ;;
     render_field O E (render_obj n O E) g par fv (match cd_schema d with Some si => si_tns si | None => ns end) efd)
     (Elem t [] []) pre = Ok (Elem t' a k) ->
  render_obj (S n) O E c (Elem t [] []) (VObj ci xe fs) ns efd = Err ValueError.
Proof. exact missing_is_ValueError. Qed.
Print Assumptions C30_missing_is_ValueError.
(** Classes of attributes whose values have a text: ValueError iff one is
    missing, else exactly these attributes. *)
Theorem C30_attribute_classes :
  forall n O E ci di xe fs tag ns efd t0,
  names_ok E -> norm_name (ref_tag ns tag) = Ok t0 ->
  e_cls E ci = Some di -> cd_kind di = CKPlain -> Forall (fun f => is_attr f = true) (cd_fields di) ->
  (forall f, In f (cd_fields di) -> attr_missing fs f \/ exists ws, attr_written O fs f ws) ->
  let r := xml_of (S n) O E (VObj ci xe fs) tag ns efd in
  (r = Err ValueError <-> exists f, In f (cd_fields di) /\ attr_missing fs f) /\
  (forall x, r = Ok x -> exists wss, Forall2 (attr_written O fs) (cd_fields di) wss /\
     x = Elem t0 (fold_left (fun a w => assoc_set (fst w) (snd w) a) (concat wss) []) []) /\
  (r = Err ValueError \/ exists x, r = Ok x).
Proof. exact attribute_class_outcome. Qed.
Print Assumptions C30_attribute_classes.
Example C30_nonvacuous :
  xml_of 3 ex_oracle ex_env (VObj "Tags" None [("a", VNone); ("b", VStr "x")]%string) "t" None None = Err ValueError /\
  xml_of 3 ex_oracle ex_env (VObj "Tags" None [("a", VStr "x"); ("b", VNone)]%string) "t" None None
  = Ok (Elem "t" [("a", "x")]%string []) /\
  attr_missing [("a", VNone); ("b", VStr "x")]%string (ex_attr "a" t_str true) /\
  attr_written ex_oracle [("a", VNone); ("b", VStr "x")]%string (ex_attr "b" t_str false) [("b", "x")]%string.
Proof.
  split; [reflexivity|]. split; [reflexivity|]. split.
  - left. split; [reflexivity|]. exists 1. split; [reflexivity|discriminate].
  - right. right. exists (VStr "x"). do 2 eexists. repeat split; discriminate.
Qed.
