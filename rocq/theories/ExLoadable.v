(** A document whose module can be imported. *)
From Coq Require Import String Ascii List ZArith NArith Bool Lia.
From Verif Require Import PyBase PyRe Xml PyVal XsdSimple XsdComplex ExEnv LibClasses Py2Xsd SpecXsd XsdMeta Xsd2Py PyLoad SpecGenCode
  SpecUrl SpecService SpecLoadable ExGenCode ExService.
Import ListNotations.
Open Scope nat_scope.
Open Scope string_scope.
Open Scope list_scope.

Definition e_derived (name base : string) (kids : list node) : node :=
  e_type name [xel "complexContent" [] [xel "extension" [("base", base)] [e_sequence kids]]].
Definition l_doc : node :=
  e_schema
    [e_simple "size" "xs:string" [facet "enumeration" "S"; facet "enumeration" "M"];
     e_simple "code" "xs:string" [facet "pattern" "\d+"];
     e_simple "shortCode" "sns:code" [];
     e_derived "special" "sns:item" [e_element "discount" [("type", "xs:float"); ("nillable", "true")]];
     e_type "item"
       [e_sequence [e_element "class" [("type", "sns:size")];
                    e_element "tag" [("type", "xs:string"); ("minOccurs", "2"); ("maxOccurs", "unbounded")];
                    e_element "maker" [("type", "sns:maker"); ("minOccurs", "0")]];
        xel "attribute" [("name", "id"); ("type", "sns:shortCode"); ("use", "required")] []];
     e_derived "best" "sns:special" [];
     e_type "maker" [xel "choice" [] [e_element "since" [("type", "xs:date")]; e_element "offer" [("type", "sns:item"); ("maxOccurs", "3")]]];
     e_element "thing" [("type", "sns:best")];
     xel "element" [("name", "box")] [xel "complexType" [] [e_sequence [e_element "content" [("type", "sns:item"); ("minOccurs", "0")]]]]].
Definition l_x : pyval := Eval vm_compute in match g_read l_doc with Ok x => x | Err _ => VNone end.
Lemma l_x_read : g_read l_doc = Ok l_x.
Proof. vm_compute. reflexivity. Qed.

Definition l_plan : schema_plan :=
  mkPlan "urn:shop" "qualified"
    [mkSp "size" "xs:string" ["S"; "M"] []; mkSp "code" "xs:string" [] [("pattern", "\d+")]; mkSp "shortCode" "sns:code" [] []]
    [mkXp "special" (Some "sns:item") (mkCp (Some ISequence) [] [mkPt false "discount" "xs:float" None ONone true]);
     mkXp "item" None (mkCp (Some ISequence) [mkPt true "id" "sns:shortCode" (Some 1%Z) ONone false]
       [mkPt false "class" "sns:size" None ONone false; mkPt false "tag" "xs:string" (Some 2%Z) OUnbounded false;
        mkPt false "maker" "sns:maker" (Some 0%Z) ONone false]);
     mkXp "best" (Some "sns:special") (mkCp (Some ISequence) [] []);
     mkXp "maker" None (mkCp (Some IChoice) [] [mkPt false "since" "xs:date" None ONone false; mkPt false "offer" "sns:item" None (OInt 3) false])]
    [mkTp "thing" (TopNamed "sns:best") None;
     mkTp "box" (TopOwn (mkCp (Some ISequence) [] [mkPt false "content" "sns:item" (Some 0%Z) ONone false])) None].
Definition l_rank (n : string) : nat :=
  if String.eqb n "Maker" then 0 else if String.eqb n "Box" then 2 else 1.

Ltac fact := cbv beta; first [apply has_of; lazy; reflexivity | apply is_a_of; lazy; reflexivity | apply lacks_of; lazy; reflexivity].
Ltac plain := solve [vm_compute; intuition discriminate].
Tactic Notation "pairs" tactic3(tac) := cbn [l_plan sc_simples sc_complexes sc_tops sp_enums co_elems co_attrs cp_content]; repeat first [apply Forall2_nil | apply Forall2_cons; [tac|]].
Ltac p_element := repeat apply conj; try reflexivity; try discriminate; try fact;
  cbn [states_min states_max states_nil pt_min pt_max pt_nil]; first [fact | left; fact | right; fact].
Ltac p_attribute := repeat apply conj; try reflexivity; try discriminate; try fact; left; split; [reflexivity|fact].
Ltac p_content := eexists _, _; split;
  [split; [split; [eexists _, _; split; [fact|split; fact]|intros [] ?; try congruence; fact]|split; eexists; fact]|
   split; [pairs p_element|pairs p_attribute]].
Ltac p_complex := split; [fact|]; cbn [cp_base cp_content];
  first [split; [fact|p_content] | eexists _, _; split; [fact|]; split; [fact|]; split; [fact|]; split; [fact|]; split; [fact|]; split; [fact|p_content]].
Ltac p_simple := split; [fact|]; split; [fact|]; eexists _, _, _; split; [fact|]; split; [fact|]; split; [fact|]; split; [fact|];
  split; [pairs fact|]; cbn [In]; intros n Hn; repeat (destruct Hn as [<- | Hn]; [cbn; first [fact | eexists; split; [fact|split; fact]]|]); destruct Hn.
Ltac p_top := split; [fact|]; split; [fact|]; split; [fact|]; split; [cbn [tp_group]; fact|]; cbn [tp_content];
  first [split; [fact|split; [discriminate|fact]] | split; [fact|]; eexists; split; [fact|]; split; [fact|]; split; [fact|p_content]].
Lemma l_states : states_schema l_x l_plan.
Proof.
  split; [fact|]. split; [fact|]. split; [eexists _, _; split; [fact|]; pairs p_simple|]. split; [eexists _, _; split; [fact|]; pairs p_complex|].
  split; [eexists _, _; split; [fact|]; pairs p_top|]. split; eexists; fact.
Qed.

Lemma lib_of q local t : qualified_name q (Some "xs") local -> lib_class (capital local) = Some (MSimple t) -> t <> SAbstract -> library_type [Some "xs"] q.
Proof. intros Q L N. exists (Some "xs"), local, t. split; [exact Q|]. split; [now left|]. auto. Qed.
Lemma own_of q local : qualified_name q (Some "sns") local -> local <> "" -> own_type [Some "xs"] q (capital local).
Proof. intros Q N. exists (Some "sns"), local. split; [exact Q|]. split; [intros [H | []]; discriminate|]. auto. Qed.
Ltac qname := split; [|split; [|reflexivity]]; vm_compute; intuition discriminate.
Ltac lib n := eapply (lib_of _ n); [qname|reflexivity|discriminate].
Ltac own n := apply (own_of _ n); [qname|discriminate].
Lemma word_of s c t : s = String c t -> letter c -> forallb name_char (to_l s) = true -> word s.
Proof. intros E Lc F. split; [eauto|now apply name_chars]. Qed.
Tactic Notation "all_of" tactic3(tac) := repeat first [apply Forall_nil | apply Forall_cons; [tac|]].
Ltac is_word := eapply word_of; [reflexivity|vm_compute; intuition discriminate|vm_compute; reflexivity].
Ltac each H := cbn in H; repeat (destruct H as [<- | H]; [|]); [..|destruct H].
Ltac content := split; [split; [repeat constructor; vm_compute; intuition discriminate|
    let p := fresh in let I := fresh in intros p I; each I; vm_compute; intuition discriminate]|
  split; [let p := fresh in let I := fresh in intros p I; each I; discriminate|let p := fresh in let I := fresh in intros p I; each I]].
Lemma l_works : schema_works [Some "xs"] 20 20 l_plan l_rank.
Proof.
  split; [repeat constructor; vm_compute; intuition discriminate|]. split; [cbn; all_of name|].
  split; [plain|]. split; [plain|]. split; [cbn; all_of plain|].
  split; [|split; [|split]].
  - intros l1 p l2 E. destruct l1 as [|p1 l1]; [injection E as <- _|destruct l1 as [|p2 l1]; [injection E as <- <- _|destruct l1 as [|p3 l1]; [injection E as <- <- <- _|]]].
    + split; [left; lib "string"|]. split; cbn; all_of plain.
    + split; [left; lib "string"|]. split; cbn; all_of plain.
    + split; [right; exists "Code"; split; [own "code"|now right; left]|]. split; cbn; all_of plain.
    + destruct l1; discriminate.
  - right. split; [repeat constructor|]. intros l1 p l2 q E Eq.
    destruct l1 as [|p1 l1]; [injection E as <- _|destruct l1 as [|p2 l1]; [injection E as _ <- _|destruct l1 as [|p3 l1];
      [injection E as <- _ <- _|destruct l1 as [|p4 l1]; [injection E as _ _ _ <- _|destruct l1; discriminate]]]]; try discriminate; injection Eq as <-.
    + split; [vm_compute; tauto|]. left. exists (nth 1 (sc_complexes l_plan) (mkXp "" None (mkCp None [] []))). split; [right; split; [cbn; tauto|reflexivity]|own "item"].
    + split; [vm_compute; tauto|]. left. eexists. split; [left; left; reflexivity|own "special"].
  - cbn [sc_complexes l_plan own_tops flat_map app tp_content sc_tops tp_name].
    apply Forall_cons; [|apply Forall_cons; [|apply Forall_cons; [|apply Forall_cons; [|apply Forall_cons; [|apply Forall_nil]]]]];
      (split; [content|split; [vm_compute; lia|intros q; cbn [cp_base]; intros Eq; try discriminate; injection Eq as <-]]).
    + split; [is_word|]. split; [cbn; auto|]. left. lib "float".
    + exists "Item". split; [own "item"|]. split; [cbn; tauto|vm_compute; lia].
    + split; [is_word|]. split; [cbn; auto|]. right. exists "ShortCode". split; [own "shortCode"|]. left. cbn. tauto.
    + split; [is_word|]. split; [cbn; auto|]. right. exists "Size". split; [own "size"|]. left. cbn. tauto.
    + split; [is_word|]. split; [cbn; auto|]. left. lib "string".
    + split; [is_word|]. split; [cbn; auto|]. right. exists "Maker". split; [own "maker"|]. right. split; [cbn; tauto|]. intros _. vm_compute. lia.
    + exists "Special". split; [own "special"|]. split; [cbn; tauto|vm_compute; lia].
    + split; [is_word|]. split; [cbn; auto|]. left. lib "date".
    + split; [is_word|]. split; [cbn; auto|]. right. exists "Item". split; [own "item"|]. right. split; [cbn; tauto|]. discriminate.
    + split; [is_word|]. split; [cbn; auto|]. right. exists "Item". split; [own "item"|]. right. split; [cbn; tauto|]. intros _. vm_compute. lia.
  - intros t q I. cbn in I. destruct I as [<- | [<- | []]]; cbn; intros [= <-]. right. exists "Best". split; [own "best"|]. cbn. auto 10.
Qed.
