(** The theorems about generated classes, for the types in the order in which
    they are printed. *)
From Coq Require Import String Ascii List ZArith NArith Bool Permutation.
From Verif Require Import PyBase PyRe Xml PyVal XsdSimple XsdComplex XsdMeta LibClasses Py2Xsd SpecSimple GenOrder SpecOrder PfOrder2 PfBase Xsd2Py PyLoad
  SpecNames SpecGenCode PfGenCode PfGenCode4 PfGenCode5 PfGenCode6 PfGenCode7 PfGenCode8.
Import ListNotations.
Open Scope nat_scope.
Open Scope string_scope.
Open Scope list_scope.

Lemma entry_code l : map xt_code (map type_entry l) = l.
Proof. rewrite map_map. cbn. apply map_id. Qed.
Lemma with_types_has x b cts cts' : has x "complexTypes" (VList b cts) -> has (with_types x cts') "complexTypes" (VList b cts').
Proof.
  intros (c & xe & fs & -> & E). cbn [with_types]. rewrite E. eexists _, _, _. split; [reflexivity|]. apply assoc_set_same.
Qed.
Lemma with_types_other x cts a v : a <> "complexTypes" -> has x a v -> has (with_types x cts) a v.
Proof.
  intros N (c & xe & fs & -> & E). cbn [with_types]. eexists _, _, _. split; [reflexivity|]. now rewrite assoc_set_other.
Qed.
Lemma sorted_types sort n nss known x code : list_sort sort -> schema_to_py sort n nss known x = Ok code ->
  exists x' cts', schema_code nss known x' = Ok code /\
    (forall bl cts, has x "complexTypes" (VList bl cts) -> has x' "complexTypes" (VList bl cts') /\ Permutation cts cts') /\
    forall a v, a <> "complexTypes" -> has x a v -> has x' a v.
Proof.
  intros LS H. unfold schema_to_py, sorted_schema in H. apply bind_ok in H as (x0 & H0 & H). apply bind_ok in H0 as (cts0 & J & H0). apply bind_ok in H0 as (l & R & H0). injection H0 as <-.
  exists (with_types x (map xt_code l)), (map xt_code l). split; [exact H|]. split.
  - intros bl cts Hc. rewrite (has_jget _ _ _ Hc) in J. injection J as <-. split; [now apply with_types_has with cts|].
    apply reorder_once in R; [|exact LS]. rewrite <- (entry_code cts). apply Permutation_map. now apply Permutation_sym.
  - intros a v. apply with_types_other.
Qed.
Ltac printed lemma :=
  intros;
  match goal with LS : list_sort _, C : schema_to_py _ _ _ _ _ = Ok _ |- _ =>
    let x' := fresh "x'" in let cts' := fresh "cts'" in let C' := fresh "C'" in let T := fresh "T" in let Hx := fresh "Hx" in
    destruct (sorted_types _ _ _ _ _ _ LS C) as (x' & cts' & C' & T & Hx);
    try match goal with Hc : has _ "complexTypes" (VList _ _), I : In _ ?cts |- _ =>
      let Hc' := fresh "Hc'" in let P := fresh "P" in
      destruct (T _ _ Hc) as (Hc' & P); apply (Permutation_in _ P) in I; clear Hc end;
    repeat match goal with H : has ?x ?a _ |- _ => match type of C with schema_to_py _ _ _ _ x = _ => apply Hx in H; [|discriminate] end end
  end;
  eapply lemma; eassumption.
Lemma plain_class_printed :
  forall sort n rt limit O nss known x code m bl cts ct name i els attrs eps aps, list_sort sort ->
  Forall (fun n => identifier n = true) known -> schema_to_py sort n nss known x = Ok code -> load rt limit O code = Ok m ->
  has x "complexTypes" (VList bl cts) -> In ct cts -> has ct "name" (VStr name) ->
  Forall2 states_element els eps -> Forall2 states_attribute attrs aps -> usable (aps ++ eps) ->
  lacks ct "complexContent" -> states_content ct i els attrs ->
  exists d, module_class m (capital name) d /\ cd_mro d = [capital name; "xsd.ComplexType"] /\ cd_kind d = CKPlain /\
    cd_ind d = match i with Some i => i | None => ISequence end /\ Forall2 (mirrors m nss) (aps ++ eps) (cd_fields d).
Proof. printed plain_class. Qed.
Lemma derived_class_printed :
  forall sort n rt limit O nss known x code m bl cts ct name i els attrs eps aps, list_sort sort ->
  Forall (fun n => identifier n = true) known -> schema_to_py sort n nss known x = Ok code -> load rt limit O code = Ok m ->
  has x "complexTypes" (VList bl cts) -> In ct cts -> has ct "name" (VStr name) ->
  Forall2 states_element els eps -> Forall2 states_attribute attrs aps -> usable (aps ++ eps) ->
  forall cc ex q p local, has ct "complexContent" cc -> is_a cc "ComplexContent" -> lacks cc "restriction" ->
  has cc "extension" ex -> is_a ex "Extension" -> has ex "base" (VStr q) -> qualified_name q p local -> ~ In p nss ->
  states_content ex i els attrs ->
  (forall db f, module_class m (capital local) db -> In f (cd_fields db) -> ~ In (f_name f) ["create"; "INDICATOR"; "INHERITANCE"]) ->
  exists d db own, module_class m (capital name) d /\ module_class m (capital local) db /\
    cd_mro d = capital name :: cd_mro db /\ cd_kind d = cd_kind db /\
    cd_ind d = match i with Some i => i | None => cd_ind db end /\
    cd_fields d = filter (fun f => negb (str_in (f_name f) (map (fun p => python_name (pt_name p)) (aps ++ eps)))) (cd_fields db) ++ own /\
    Forall2 (mirrors m nss) (aps ++ eps) own.
Proof. printed derived_class. Qed.
Lemma typed_element_printed :
  forall sort k rt limit O nss known x code m bl els names e n, list_sort sort ->
  Forall (fun n => identifier n = true) known -> schema_to_py sort k nss known x = Ok code -> load rt limit O code = Ok m ->
  has x "elements" (VList bl els) -> Forall2 (fun e n => has e "name" (VStr n)) els names -> NoDup names -> Forall plain_text names ->
  In e els -> has e "name" (VStr n) ->
  forall q, is_a e "Element" -> lacks e "ref" -> has e "type" (VStr q) -> q <> "" ->
  exists t sg, assoc n (md_elements m) = Some (t, sg) /\ denotes m nss q t /\ keeps_group e sg.
Proof. printed typed_element. Qed.
Lemma anonymous_class_printed :
  forall sort k rt limit O nss known x code m bl els names e n, list_sort sort ->
  Forall (fun n => identifier n = true) known -> schema_to_py sort k nss known x = Ok code -> load rt limit O code = Ok m ->
  has x "elements" (VList bl els) -> Forall2 (fun e n => has e "name" (VStr n)) els names -> NoDup names -> Forall plain_text names ->
  In e els -> has e "name" (VStr n) ->
  forall ct i els0 attrs eps aps,
  lacks e "type" -> has e "complexType" ct -> is_a ct "XSDComplexType" -> lacks ct "complexContent" ->
  states_content ct i els0 attrs -> Forall2 states_element els0 eps -> Forall2 states_attribute attrs aps ->
  usable (aps ++ eps) -> (forall p, In p (aps ++ eps) -> exists t, denotes m nss (pt_type p) t) ->
  (exists sg, assoc n (md_elements m) = Some (TComplex (capital n), sg) /\ keeps_group e sg) /\
  exists d, module_class m (capital n) d /\ cd_mro d = [capital n; "xsd.ComplexType"] /\ cd_kind d = CKPlain /\
    cd_ind d = match i with Some i => i | None => ISequence end /\ Forall2 (mirrors m nss) (aps ++ eps) (cd_fields d).
Proof. printed anonymous_class. Qed.
Lemma class_namespace_printed :
  forall sort n rt limit O nss known x code m bl cts ct name d tns efd, list_sort sort -> schema_to_py sort n nss known x = Ok code -> load rt limit O code = Ok m ->
  has x "complexTypes" (VList bl cts) -> In ct cts -> has ct "name" (VStr name) -> module_class m (capital name) d ->
  has x "targetNamespace" (VStr tns) -> has x "elementFormDefault" (VStr efd) -> plain_text tns -> plain_text efd ->
  cd_schema d = Some {| si_tns := Some tns; si_efd := efd |}.
Proof. printed class_namespace. Qed.
Lemma attrgroup_class_made_printed :
  forall sort n rt limit O nss known x code m, list_sort sort ->
  Forall (fun n => identifier n = true) known -> schema_to_py sort n nss known x = Ok code -> load rt limit O code = Ok m ->
  forall bl ags g name b attrs aps, has x "attributeGroups" (VList bl ags) -> In g ags -> has g "name" (VStr name) ->
  has g "attributes" (VList b attrs) -> Forall2 states_attribute attrs aps -> usable aps ->
  exists d, module_class m (capital name) d /\ cd_mro d = [capital name; "xsd.AttributeGroup"; "xsd.Group"; "xsd.ComplexType"] /\ cd_kind d = CKGroup /\
    Forall2 (mirrors m nss) aps (cd_fields d).
Proof. printed attrgroup_class_made. Qed.
Lemma group_class_made_printed :
  forall sort n rt limit O nss known x code m, list_sort sort ->
  Forall (fun n => identifier n = true) known -> schema_to_py sort n nss known x = Ok code -> load rt limit O code = Ok m ->
  forall bl gs g name s b els eps, has x "groups" (VList bl gs) -> In g gs -> has g "name" (VStr name) ->
  has g "sequence" s -> is_a s "Sequence" -> has s "elements" (VList b els) -> Forall2 states_element els eps -> usable eps ->
  exists d, module_class m (capital name) d /\ cd_mro d = [capital name; "xsd.Group"; "xsd.ComplexType"] /\ cd_kind d = CKGroup /\
    Forall2 (mirrors m nss) (map erased eps) (cd_fields d).
Proof. printed group_class_made. Qed.
Lemma recursive_type_printed :
  forall sort n rt limit O nss known x code m bl cts ct name i els attrs eps aps p pr, list_sort sort -> Forall (fun n => identifier n = true) known ->
  schema_to_py sort n nss known x = Ok code ->
  has x "complexTypes" (VList bl cts) -> In ct cts -> has ct "name" (VStr name) ->
  Forall2 states_element els eps -> Forall2 states_attribute attrs aps -> usable (aps ++ eps) ->
  lacks ct "complexContent" -> states_content ct i els attrs ->
  In p eps -> many (pt_max p) = false -> qualified_name (pt_type p) pr name -> ~ In pr nss ->
  load rt limit O code <> Ok m.
Proof. printed recursive_type. Qed.
Lemma string_restriction_printed :
  forall sort n rt limit O nss known x code m bl sts st name r q p local c b es enums pat, list_sort sort -> Forall (fun n => identifier n = true) known ->
  schema_to_py sort n nss known x = Ok code -> load rt limit O code = Ok m ->
  has x "simpleTypes" (VList bl sts) -> In st sts -> has st "name" (VStr name) -> has st "restriction" r -> is_a r "Restriction" ->
  has r "base" (VStr q) -> qualified_name q p local ->
  In p nss -> lib_class (capital local) = Some (MSimple (SString c no_sfacets)) ->
  has r "enumerations" (VList b es) -> Forall2 (fun e s => has e "value" (VStr s)) es enums -> Forall plain_text enums ->
  states_pattern r pat -> (forall s, pat = Some s -> s <> "" /\ plain_pattern s /\ no_top_alt (rt_re rt s) = true) ->
  exists t, provides m (capital name) (TSimple t) /\
    forall s, st_accept O t (VStr s) = Ok (VStr s) <-> (enums = [] \/ In s enums) /\ (forall p, pat = Some p -> pattern_sat (rt_re rt p) s).
Proof. printed string_restriction. Qed.
Lemma number_restriction_printed :
  forall sort n rt limit O nss known x code m bl sts st name r q p local t, list_sort sort -> Forall (fun n => identifier n = true) known ->
  schema_to_py sort n nss known x = Ok code -> load rt limit O code = Ok m ->
  has x "simpleTypes" (VList bl sts) -> In st sts -> has st "name" (VStr name) -> has st "restriction" r -> is_a r "Restriction" ->
  has r "base" (VStr q) -> qualified_name q p local ->
  In p nss -> lib_class (capital local) = Some (MSimple t) -> numeric t = true ->
  exists t', provides m (capital name) (TSimple t') /\ forall v, st_accept O t' v = st_accept O t v.
Proof. printed number_restriction. Qed.
