(** C17, C18: the fields of a class. *)
From Coq Require Import String Ascii List ZArith NArith Bool Sorted.
From Verif Require Import PyBase Xml PyVal XsdSimple XsdComplex XsdMeta SpecMeta SpecRender PfMeta2 PfMeta3 ExEnv.
Import ListNotations.
Open Scope nat_scope.
Open Scope string_scope.
Open Scope list_scope.

(** ** C17 *)
(** The fields of a class just defined: exactly those it has by inheritance and
    overriding, each once, in the order in which the Element objects were
    created, under their own names and otherwise as declared - provided no
    Element object is two fields of the class. *)
Theorem C17_order_partial :
  forall es w dict ancestors w', exec_all empty_world es = Ok w -> exec w (DefClass dict ancestors) = Ok w' ->
  let c := length (w_classes w) in one_name w' c ->
  exists ids, StronglySorted lt ids /\ (forall d, In d ids <-> exists n, has_field w' c n d) /\
    Forall2 (fun d f => has_field w' c (f_name f) d /\ exists g, element w d g /\ same_declaration f g) ids (class_fields w' c).
Proof. exact (fun es w dict ancestors w' R X => new_order w w' dict ancestors (reachable_inv es w R) X). Qed.
Print Assumptions C17_order_partial.
(** This is the order of the child elements in the XML. *)
Theorem C17_rendered_partial :
  forall es w c n O E ci di xe fs tag ns efd x,
  exec_all empty_world es = Ok w -> one_name_each w ->
  e_cls E ci = Some di -> cd_fields di = class_fields w c -> names_ok E -> ncname_ok tag = true ->
  xml_of n O E (VObj ci xe fs) tag ns efd = Ok x ->
  exists ids blocks ns1, StronglySorted lt ids /\ (forall d, In d ids <-> exists n, has_field w c n d) /\
    el_kids x = concat blocks /\
    Forall2 (fun d block => exists f entries kids, element w d f /\ has_field w c (f_name f) d /\
      flat_field E fs ns1 f entries /\ Forall2 (children O E efd) entries kids /\ block = concat kids) ids blocks.
Proof. exact rendered_order. Qed.
Print Assumptions C17_rendered_partial.
(** The lists of attributes, references, other fields and elements are the
    corresponding parts of it, in every program. *)
Theorem C17_lists :
  forall es w c, exec_all empty_world es = Ok w -> let m := meta_of w c in let elements := map (desc (w_store w)) in
  elements (mt_attributes m) = filter is_attr (class_fields w c) /\
  elements (mt_groups m) = filter is_group (class_fields w c) /\
  elements (mt_fields m) = filter is_plain (class_fields w c) /\
  elements (mt_allelements m) = filter (fun f => negb (is_attr f)) (class_fields w c).
Proof. exact meta_parts. Qed.
Print Assumptions C17_lists.
(** An Element object declared under two names in one class appears twice, and
    under one of them there is no field. *)
Theorem C17_twice_refuted :
  forall es w dict ancestors w' n1 n2 d, exec_all empty_world es = Ok w -> exec w (DefClass dict ancestors) = Ok w' ->
  let c := length (w_classes w) in n1 <> n2 -> has_field w' c n1 d -> has_field w' c n2 d ->
  ~ NoDup (mt_all (meta_of w' c)) /\ exists n, (n = n1 \/ n = n2) /\ find_field (class_fields w' c) n = Err ValueError.
Proof. exact (fun es w dict ancestors w' n1 n2 d R X => new_twice w w' dict ancestors (reachable_inv es w R) X n1 n2 d). Qed.
Print Assumptions C17_twice_refuted.

Example C17_nonvacuous :
  exec_all empty_world ex_program = Ok ex_world /\ one_name_each ex_world /\
  field_names ex_world 0 = ["zulu"; "alpha"; "mike"] /\
  field_names ex_world 1 = ["zulu"; "beta"; "alpha"].
Proof. split; [exact ex_world_runs|]. split; [exact ex_one_name|]. split; reflexivity. Qed.
Example C17_twice_nonvacuous :
  let w := exec_all empty_world [NewElement (decl t_str); DefClass [("a", ADesc 0); ("b", ADesc 0)] []] in
  res_map (fun w => field_names w 0) w = Ok ["b"; "b"].
Proof. reflexivity. Qed.

(** ** C18 *)
(** In every program in which no Element object is declared under two names,
    every class finds each of its fields under its name, whatever was defined
    after it: what is set under that name is accepted by that field's
    declaration and read back. *)
Theorem C18_names_partial :
  forall es w, exec_all empty_world es = Ok w -> one_name_each w ->
  forall c n d, has_field w c n d -> exists f, element w d f /\ f_name f = n /\ find_field (class_fields w c) n = Ok f /\
    forall O E fs v fs', setattr O E (class_fields w c) fs n v = Ok fs' ->
      exists v', field_accept O E f v = Ok v' /\ getattr fs' n = Ok v'.
Proof. exact names_kept. Qed.
Print Assumptions C18_names_partial.
(** Reusing an Element object of class [a], there called [x], under another name
    in a new class: afterwards [a] has lost its field [x]. *)
Theorem C18_reuse_refuted :
  forall es w dict ancestors w' a x y d, exec_all empty_world es = Ok w -> one_name_each w -> has_field w a x d ->
  exec w (DefClass dict ancestors) = Ok w' -> let b := length (w_classes w) in
  has_field w' b y d -> (forall e, ~ has_field w' b x e) ->
  has_field w' a x d /\ find_field (class_fields w' a) x = Err ValueError.
Proof. exact reuse_breaks. Qed.
Print Assumptions C18_reuse_refuted.
Example C18_nonvacuous :
  has_field ex_world 0 "zulu" 0 /\
  exists w', exec ex_world (DefClass [("yankee", ADesc 0)] []) = Ok w' /\
    field_names w' 0 = ["yankee"; "alpha"; "mike"] /\ field_names w' 2 = ["yankee"].
Proof.
  split; [apply has_field_get; reflexivity|]. eexists. split; [vm_compute; reflexivity|]. split; reflexivity.
Qed.
