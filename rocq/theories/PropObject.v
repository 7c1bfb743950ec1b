(** Properties C19, C20, C32: objects, lists and subclasses. *)
From Coq Require Import String Ascii List ZArith NArith Bool.
From Verif Require Import PyBase Xml PyVal XsdSimple XsdComplex SpecObject SpecRender ExEnv PfObject PfRender2.
Import ListNotations.
Open Scope Z_scope.

(** ** C19 *)
(** From a fresh instance, through any run of assignments (failed ones caught):
    the attributes are exactly the fields, and every scalar field holds NIL (if
    nillable) or a value its type accepts. *)
Theorem C19_assignments_keep_fields_valid :
  forall O E c d fs0 ops fs, e_cls E c = Some d ->
  NoDup (map f_name (cd_fields d)) -> new_instance O E c = Ok fs0 ->
  fs = assign_all O E (cd_fields d) fs0 ops ->
  (forall name, assoc name fs <> None <-> In name (map f_name (cd_fields d))) /\
  (forall f, In f (cd_fields d) -> is_list f = false ->
     exists v, getattr fs (f_name f) = Ok v /\ may_hold O E f v).
Proof. exact assignments_valid. Qed.
Print Assumptions C19_assignments_keep_fields_valid.
(** A successful assignment stores what the field accepts and touches nothing
    else; an unknown name is always refused.  (A failed assignment returns no
    new state: the object stays as it is.) *)
Theorem C19_assignment_effect :
  forall O E F fs name v,
  (forall fs', setattr O E F fs name v = Ok fs' ->
     (exists f v', In f F /\ f_name f = name /\ field_accept O E f v = Ok v' /\ getattr fs' name = Ok v') /\
     forall other, other <> name -> getattr fs' other = getattr fs other) /\
  (~ In name (map f_name F) -> setattr O E F fs name v = Err ValueError).
Proof. exact assign_effect. Qed.
Print Assumptions C19_assignment_effect.
Example C19_nonvacuous :
  exists fs0, new_instance ex_oracle ex_env "Flight" = Ok fs0 /\ NoDup (map f_name (cd_fields cd_flight)) /\
  let fs := assign_all ex_oracle ex_env (cd_fields cd_flight) fs0
              [("number", VInt 12); ("number", VStr "x"); ("nonsense", VInt 1); ("id", VStr "A")]%string in
  getattr fs "number" = Ok (VInt 12) /\ getattr fs "id" = Ok (VStr "A").
Proof.
  eexists. split; [vm_compute; reflexivity|]. split; [|split; vm_compute; reflexivity].
  repeat constructor; cbn; intuition discriminate.
Qed.

(** ** C20 *)
(** Through any run of appends (failed ones caught) a list holds only items its
    type accepts, and at most maxOccurs of them. *)
Theorem C20_appends_keep_list_valid :
  forall O E f vs, match f_max f with OInt z => 0 <= z | _ => True end ->
  Forall (may_hold O E f) (append_all O E f [] vs) /\
  max_allows (f_max f) (Z.of_nat (length (append_all O E f [] vs))).
Proof. exact appends_valid. Qed.
Print Assumptions C20_appends_keep_list_valid.
Theorem C20_append_effect :
  forall O E f l v,
  (forall l', tl_append O E f l v = Ok l' -> exists a, l' = l ++ [a] /\ may_hold O E f a) /\
  (f_max f = OInt (Z.of_nat (length l)) -> forall l', tl_append O E f l v <> Ok l').
Proof. exact append_effect. Qed.
Print Assumptions C20_append_effect.
(** Rendering an object succeeds only if every list field holds a list within
    the declared bounds, however the list got there.  Missing: maxOccurs=0,
    refuted below. *)
Theorem C20_render_enforces_bounds_partial :
  forall n O E c parent ci xe fs ns efd p' di f,
  render_obj n O E c parent (VObj ci xe fs) ns efd = Ok p' ->
  e_cls E ci = Some di -> In f (cd_fields di) -> f_kind f = KList ->
  exists t items, getattr fs (f_name f) = Ok (VList t items) /\
    (forall m, f_min f = Some m -> m <> 0 -> m <= Z.of_nat (length items)) /\
    (forall m, f_max f = OInt m -> m <> 0 -> Z.of_nat (length items) <= m).
Proof. exact render_checks_lists. Qed.
Print Assumptions C20_render_enforces_bounds_partial.
Theorem C20_out_of_bounds_is_ValueError :
  forall O E rec f parent t items ns efd, f_kind f = KList ->
  (exists m, f_min f = Some m /\ m <> 0 /\ Z.of_nat (length items) < m) \/
  (exists m, f_max f = OInt m /\ m <> 0 /\ m < Z.of_nat (length items)) ->
  render_field O E rec f parent (VList t items) ns efd = Err ValueError.
Proof. exact render_list_out_of_bounds. Qed.
Print Assumptions C20_out_of_bounds_is_ValueError.
(** maxOccurs=0 forbids every append but does not stop any list from being
    rendered. *)
Theorem C20_max_zero_refuted :
  (forall O E f v l', f_max f = OInt 0 -> tl_append O E f [] v <> Ok l') /\
  f_max zero_list = OInt 0 /\
  forall O E rec parent items t, Forall (fun v => exists b, v = VBool b) items ->
  exists p', render_field O E rec zero_list parent (VList t items) None None = Ok p'.
Proof. exact (conj max_zero_append (conj eq_refl max_zero_render)). Qed.
Print Assumptions C20_max_zero_refuted.
Example C20_nonvacuous :
  let f := ex_list "legs" "leg" (TComplex "Leg") (Some 1) (OInt 3) in
  let l := ex_leg "OSL" (VInt 1) in
  append_all ex_oracle ex_env f [] [l; VInt 3; l; VNil; l; l] = [l; l; l] /\
  exists x, render_obj 5 ex_oracle ex_env "Flight" (Elem "flight" [] []) ex_flight None None = Ok x.
Proof. split; [reflexivity|]. eexists. vm_compute. reflexivity. Qed.

(** ** C32 *)
(** A field of class type accepts exactly None and the instances of the class
    or of a subclass, unchanged; everything else is a ValueError. *)
Theorem C32_subclasses_accepted :
  forall O E f c d v w, f_kind f <> KList -> f_type f = TComplex c ->
  e_cls E c = Some d -> cd_kind d <> CKHeader -> v <> VNil ->
  field_accept O E f v = Ok w <->
  w = v /\ (v = VNone \/ exists ci xe fs, v = VObj ci xe fs /\ subclass E ci c).
Proof. exact complex_accept_spec. Qed.
Print Assumptions C32_subclasses_accepted.
Theorem C32_others_are_ValueError :
  forall O E f c d v e, f_kind f <> KList -> f_type f = TComplex c ->
  e_cls E c = Some d -> cd_kind d <> CKHeader ->
  field_accept O E f v = Err e -> e = ValueError.
Proof. exact complex_accept_err. Qed.
Print Assumptions C32_others_are_ValueError.
(** The rendering of an instance of [ci] where [c] was declared contains, for
    every field of the actual class [ci] (in order), the elements and attributes
    that field prescribes. *)
Theorem C32_all_fields_rendered :
  forall n O E c t ci xe fs di ns efd x, names_ok E -> e_cls E ci = Some di ->
  Forall (fun f => is_group f = false) (cd_fields di) ->
  render_obj n O E c (Elem t [] []) (VObj ci xe fs) ns efd = Ok x ->
  exists ns1 blocks wss, el_kids x = concat blocks /\
    Forall2 (fun f ks => exists v, assoc (f_name f) fs = Some v /\ children O E efd (f, v, ns1) ks)
      (cd_fields di) blocks /\
    Forall2 (fun f ws => exists v, assoc (f_name f) fs = Some v /\ entry_writes O (f, v, ns1) ws)
      (cd_fields di) wss /\
    el_attrs x = fold_left (fun a w => assoc_set (fst w) (snd w) a) (concat wss) [].
Proof. exact subclass_children. Qed.
Print Assumptions C32_all_fields_rendered.
Example C32_nonvacuous :
  field_accept ex_oracle ex_env (ex_elem "flight" (TComplex "Flight")) ex_charter = Ok ex_charter /\
  field_accept ex_oracle ex_env (ex_elem "flight" (TComplex "Flight")) (ex_leg "OSL" VNil) = Err ValueError /\
  render_obj 6 ex_oracle ex_env "Booking" (Elem "b" [] []) (VObj "Booking" None [("flight"%string, ex_charter)]) None (Some qualified)
  = Ok (Elem "b" [] [Elem (air "flight") [("id", "C9"); ("lang", "en")]%string
          (ex_flight_kids ++ [Elem (air "customer") [] [Text "ACME"]])]).
Proof. repeat split; vm_compute; reflexivity. Qed.
