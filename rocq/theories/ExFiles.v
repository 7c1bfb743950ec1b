(** Documents that include and import each other. *)
From Coq Require Import String Ascii List ZArith NArith Bool Lia.
From Verif Require Import PyBase PyRe Xml PyVal XsdSimple XsdComplex ExEnv LibClasses Py2Xsd SpecXsd XsdMeta PfOrder2 Xsd2Py PyLoad XsdFiles SpecGenCode
  SpecUrl SpecPath SpecService SpecLoadable SpecFiles ExGenCode ExService ExLoadable.
Import ListNotations.
Open Scope nat_scope.
Open Scope string_scope.
Open Scope list_scope.

Definition f_schema (tns : string) (kids : list node) : node := xel "schema" [("targetNamespace", tns); ("elementFormDefault", "qualified")] kids.
Definition f_include (loc : string) : node := xel "include" [("schemaLocation", loc)] [].
Definition f_import (ns loc : string) : node := xel "import" [("namespace", ns); ("schemaLocation", loc)] [].
Definition f_file (doc : node) : file := mkFile [Some "xs"] (match g_read doc with Ok x => x | Err _ => VNone end).

(** A shop includes common.xsd and imports parts.xsd; both of these import
    units.xsd. *)
Definition f_units_doc : node :=
  f_schema "urn:units"
    [e_simple "unit" "xs:string" [facet "enumeration" "kg"; facet "enumeration" "m"];
     e_type "measure" [e_sequence [e_element "value" [("type", "xs:decimal")]; e_element "unit" [("type", "u:unit")]]]].
Definition f_parts_doc : node :=
  f_schema "urn:parts"
    [f_import "urn:units" "units.xsd";
     e_type "part" [e_sequence [e_element "name" [("type", "xs:string")]; e_element "weight" [("type", "u:measure"); ("minOccurs", "0")]]];
     e_derived "bolt" "p:part" [e_element "thread" [("type", "xs:int")]]].
Definition f_common_doc : node :=
  f_schema "urn:shop"
    [f_import "urn:units" "units.xsd";
     e_type "parcel" [e_sequence [e_element "content" [("type", "u:measure"); ("maxOccurs", "unbounded")]]]].
Definition f_shop_doc : node :=
  f_schema "urn:shop"
    [f_include "common.xsd"; f_import "urn:parts" "parts.xsd";
     e_type "order" [e_sequence [e_element "item" [("type", "p:bolt"); ("maxOccurs", "unbounded")]; e_element "parcel" [("type", "s:parcel"); ("minOccurs", "0")]]];
     e_derived "gear" "p:bolt" [e_element "teeth" [("type", "xs:int")]];
     e_element "purchase" [("type", "s:order")];
     xel "element" [("name", "catalog")] [xel "complexType" [] [e_sequence [e_element "part" [("type", "p:part")]]]]].
Definition f_units_x : pyval := Eval vm_compute in match g_read f_units_doc with Ok x => x | Err _ => VNone end.
Definition f_parts_x : pyval := Eval vm_compute in match g_read f_parts_doc with Ok x => x | Err _ => VNone end.
Definition f_common_x : pyval := Eval vm_compute in match g_read f_common_doc with Ok x => x | Err _ => VNone end.
Definition f_shop_x : pyval := Eval vm_compute in match g_read f_shop_doc with Ok x => x | Err _ => VNone end.
Lemma f_read : g_read f_units_doc = Ok f_units_x /\ g_read f_parts_doc = Ok f_parts_x /\ g_read f_common_doc = Ok f_common_x /\ g_read f_shop_doc = Ok f_shop_x.
Proof. repeat split; vm_compute; reflexivity. Qed.

Definition f_units : document :=
  mkDocument [Some "xs"] [] []
    (mkPlan "urn:units" "qualified" [mkSp "unit" "xs:string" ["kg"; "m"] []]
       [mkXp "measure" None (mkCp (Some ISequence) [] [mkPt false "value" "xs:decimal" None ONone false; mkPt false "unit" "u:unit" None ONone false])] []).
Definition f_parts : document :=
  mkDocument [Some "xs"] [] [("urn:units", "units.xsd")]
    (mkPlan "urn:parts" "qualified" []
       [mkXp "part" None (mkCp (Some ISequence) [] [mkPt false "name" "xs:string" None ONone false; mkPt false "weight" "u:measure" (Some 0%Z) ONone false]);
        mkXp "bolt" (Some "p:part") (mkCp (Some ISequence) [] [mkPt false "thread" "xs:int" None ONone false])] []).
Definition f_common : document :=
  mkDocument [Some "xs"] [] [("urn:units", "units.xsd")]
    (mkPlan "urn:shop" "qualified" []
       [mkXp "parcel" None (mkCp (Some ISequence) [] [mkPt false "content" "u:measure" None OUnbounded false])] []).
Definition f_shop : document :=
  mkDocument [Some "xs"] ["common.xsd"] [("urn:parts", "parts.xsd")]
    (mkPlan "urn:shop" "qualified" []
       [mkXp "order" None (mkCp (Some ISequence) [] [mkPt false "item" "p:bolt" None OUnbounded false; mkPt false "parcel" "s:parcel" (Some 0%Z) ONone false]);
        mkXp "gear" (Some "p:bolt") (mkCp (Some ISequence) [] [mkPt false "teeth" "xs:int" None ONone false])]
       [mkTp "purchase" (TopNamed "s:order") None;
        mkTp "catalog" (TopOwn (mkCp (Some ISequence) [] [mkPt false "part" "p:part" None ONone false])) None]).
Definition f_files : list (string * document) := [("units.xsd", f_units); ("parts.xsd", f_parts); ("common.xsd", f_common)].
Definition f_open (path : string) : res file :=
  if String.eqb path "/work/units.xsd" then Ok (mkFile [Some "xs"] f_units_x)
  else if String.eqb path "/work/parts.xsd" then Ok (mkFile [Some "xs"] f_parts_x)
  else if String.eqb path "/work/common.xsd" then Ok (mkFile [Some "xs"] f_common_x) else Err (Exn (EOther "FileNotFoundError") path).
Definition f_rank (n : string) : nat :=
  if String.eqb n "Measure" then 0 else if String.eqb n "Parcel" then 0 else if String.eqb n "Catalog" then 2 else 1.
Definition f_md5 (s : string) : string :=
  if String.eqb s "urn:units" then "0a1b2" else if String.eqb s "urn:parts" then "0a1b3" else if String.eqb s "urn:shop" then "0a1b4"
  else if String.eqb s "units.xsd" then "c0de0" else if String.eqb s "parts.xsd" then "c0de1" else if String.eqb s "common.xsd" then "c0de2" else "fffff".
Definition f_code (n : nat) (x : file) (open : string -> res file) : res (list filecode) :=
  module_code "/tmp" (fun _ b => b) f_md5 v_checked open insertion_sort 20 n x "/work".

Lemma f_hex v : hex5 (f_md5 v).
Proof.
  unfold f_md5. repeat match goal with |- hex5 (if ?b then _ else _) => destruct b end;
    (split; [reflexivity|]; intros c Hc; vm_compute in Hc; each Hc; vm_compute; intuition discriminate).
Qed.

Ltac f_states := split; [reflexivity|]; split;
  [split; [fact|]; split; [fact|]; split; [eexists _, _; split; [fact|]; cbn [do_plan f_units f_parts f_common f_shop sc_simples]; pairs p_simple|];
    split; [eexists _, _; split; [fact|]; cbn [do_plan f_units f_parts f_common f_shop sc_complexes]; pairs p_complex|];
    split; [eexists _, _; split; [fact|]; cbn [do_plan f_units f_parts f_common f_shop sc_tops]; pairs p_top|]; split; eexists; fact|];
  split; eexists _, _; (split; [fact|]); cbn [do_includes do_imports f_units f_parts f_common f_shop];
  repeat first [apply Forall2_nil | apply Forall2_cons; cbn [fst snd]; [first [fact | split; fact]|]].
Lemma f_shop_states : states_file (mkFile [Some "xs"] f_shop_x) f_shop.
Proof. f_states. Qed.
Lemma f_units_states : states_file (mkFile [Some "xs"] f_units_x) f_units.
Proof. f_states. Qed.
Lemma f_parts_states : states_file (mkFile [Some "xs"] f_parts_x) f_parts.
Proof. f_states. Qed.
Lemma f_common_states : states_file (mkFile [Some "xs"] f_common_x) f_common.
Proof. f_states. Qed.
Lemma f_directory : directory_holds f_open ["work"] f_files.
Proof.
  intros f d [[= <- <-] | [[= <- <-] | [[= <- <-] | []]]]; (eexists; split; [vm_compute; reflexivity|]).
  - exact f_units_states.
  - exact f_parts_states.
  - exact f_common_states.
Qed.

(** They fit together. *)
Lemma prefixed_of q pf local : qualified_name q (Some pf) local -> pf <> "xs" -> local <> "" -> own_type [Some "xs"] q (capital local).
Proof. intros Q P N. exists (Some pf), local. split; [exact Q|]. split; [intros [H | []]; congruence|]. auto. Qed.
Ltac prefixed pf n := apply (prefixed_of _ pf n); [qname|discriminate|discriminate].
Ltac f_member := cbn; tauto.
Ltac f_complexes := cbn [do_plan f_units f_parts f_common f_shop sc_complexes own_tops flat_map app tp_content sc_tops tp_name];
  repeat (apply Forall_cons; [split; [content|split; [vm_compute; lia|intros q; cbn [cp_base]; intros Eq; try discriminate; injection Eq as <-]]|]); [..|apply Forall_nil].
Ltac f_lib n := split; [is_word|]; split; [cbn; auto|]; left; lib n.
Ltac f_own pf n local := split; [is_word|]; split; [cbn; auto|]; right; exists n; split; [prefixed pf local|]; first [left; f_member | right; split; [f_member|intros _; vm_compute; lia] | right; split; [f_member|discriminate]].
Lemma f_units_work : document_works [Some "xs"] 20 20 [] (do_plan f_units) f_rank.
Proof.
  split; [repeat constructor; vm_compute; intuition discriminate|]. split; [cbn; all_of name|]. split; [plain|]. split; [plain|]. split; [cbn; all_of plain|].
  split; [|split; [|split]].
  - intros l1 p l2 E. destruct l1 as [|p1 [|p2 l1]]; [injection E as <- _|discriminate|discriminate]. split; [left; lib "string"|]. split; cbn; all_of plain.
  - right. split; [repeat constructor|]. intros l1 p l2 q E Eq. destruct l1 as [|p1 [|p2 l1]]; [injection E as <- _; discriminate|discriminate|discriminate].
  - f_complexes.
    + f_lib "decimal".
    + f_own "u" "Unit" "unit".
  - intros t q [].
Qed.
Lemma f_parts_work : document_works [Some "xs"] 20 20 [do_plan f_units] (do_plan f_parts) f_rank.
Proof.
  split; [repeat constructor; vm_compute; intuition discriminate|]. split; [cbn; all_of name|]. split; [plain|]. split; [plain|]. split; [cbn; all_of plain|].
  split; [|split; [|split]].
  - intros l1 p l2 E. destruct l1; discriminate.
  - right. split; [repeat constructor|]. intros l1 p l2 q E Eq. destruct l1 as [|p1 [|p2 [|p3 l1]]]; [injection E as <- _; discriminate|injection E as <- <- _|discriminate|discriminate].
    injection Eq as <-. split; [vm_compute; tauto|]. left. eexists. split; [left; left; reflexivity|prefixed "p" "part"].
  - f_complexes.
    + f_lib "string".
    + f_own "u" "Measure" "measure".
    + f_lib "int".
    + exists "Part". split; [prefixed "p" "part"|]. split; [f_member|vm_compute; lia].
  - intros t q [].
Qed.
Lemma f_common_work : document_works [Some "xs"] 20 20 [do_plan f_units] (do_plan f_common) f_rank.
Proof.
  split; [repeat constructor; vm_compute; intuition discriminate|]. split; [cbn; all_of name|]. split; [plain|]. split; [plain|]. split; [cbn; all_of plain|].
  split; [|split; [|split]].
  - intros l1 p l2 E. destruct l1; discriminate.
  - right. split; [repeat constructor|]. intros l1 p l2 q E Eq. destruct l1 as [|p1 [|p2 l1]]; [injection E as <- _; discriminate|discriminate|discriminate].
  - f_complexes. f_own "u" "Measure" "measure".
  - intros t q [].
Qed.
Lemma f_shop_works : document_works [Some "xs"] 20 20 [do_plan f_common; do_plan f_parts] (do_plan f_shop) f_rank.
Proof.
  split; [repeat constructor; vm_compute; intuition discriminate|]. split; [cbn; all_of name|]. split; [plain|]. split; [plain|]. split; [cbn; all_of plain|].
  split; [|split; [|split]].
  - intros l1 p l2 E. destruct l1; discriminate.
  - right. split; [repeat constructor|]. intros l1 p l2 q E Eq. destruct l1 as [|p1 [|p2 [|p3 l1]]]; [injection E as <- _; discriminate|injection E as _ <- _|discriminate|discriminate].
    injection Eq as <-. split; [vm_compute; tauto|]. right. exists "Bolt". split; [prefixed "p" "bolt"|f_member].
  - f_complexes.
    + f_own "p" "Bolt" "bolt".
    + f_own "s" "Parcel" "parcel".
    + f_lib "int".
    + exists "Bolt". split; [prefixed "p" "bolt"|]. split; [f_member|vm_compute; lia].
    + f_own "p" "Part" "part".
  - intros t q I. cbn in I. destruct I as [<- | [<- | []]]; cbn; intros [= <-]. right. exists "Order". split; [prefixed "s" "order"|]. cbn. auto 10.
Qed.
Definition f_depth (f : string) : nat := if String.eqb f "units.xsd" then 0 else 1.
Lemma f_fitting : fitting 20 20 20 f_rank f_files f_shop.
Proof.
  split.
  - repeat constructor; vm_compute; intuition discriminate.
  - cbn. all_of (split; [vm_compute; intuition discriminate|]; intros c Hc; vm_compute in Hc; each Hc; vm_compute; intuition discriminate).
  - intros d f I J. cbn in I. destruct I as [<- | [<- | [<- | [<- | []]]]]; cbn in J |- *; tauto.
  - exists f_depth. split.
    + intros f d f' I J. cbn in I. destruct I as [[= <- <-] | [[= <- <-] | [[= <- <-] | []]]]; cbn in J; repeat (destruct J as [<- | J]; [vm_compute; lia|]); destruct J.
    + intros f I. cbn in I. destruct I as [<- | [<- | [<- | []]]]; vm_compute; lia.
  - repeat constructor.
  - intros d ns f d' I J K. cbn in I. destruct I as [<- | [<- | [<- | [<- | []]]]]; cbn in J; try contradiction; destruct J as [[= <- <-] | []]; cbn in K;
      repeat (destruct K as [K | K]; [first [discriminate K | injection K as <-; reflexivity]|]); destruct K.
  - repeat constructor; vm_compute; intuition discriminate.
  - intros c t I. cbn in I. repeat (destruct I as [<- | I]; [discriminate|]). destruct I.
  - intros d I. cbn in I. destruct I as [<- | [<- | [<- | [<- | []]]]].
    + exists [do_plan f_common; do_plan f_parts]. split; [|exact f_shop_works].
      intros s [<- | [<- | []]]; eexists; (split; [|reflexivity]); [apply reaches_here with "common.xsd" | apply reaches_here with "parts.xsd"]; cbn; tauto.
    + exists []. split; [intros s []|exact f_units_work].
    + exists [do_plan f_units]. split; [|exact f_parts_work]. intros s [<- | []]. exists f_units. split; [apply reaches_here with "units.xsd"; cbn; tauto|reflexivity].
    + exists [do_plan f_units]. split; [|exact f_common_work]. intros s [<- | []]. exists f_units. split; [apply reaches_here with "units.xsd"; cbn; tauto|reflexivity].
Qed.
Lemma f_no_collision : no_collision f_md5 f_files f_shop.
Proof.
  split.
  - intros a b Ia Ib. cbn in Ia, Ib. repeat (destruct Ia as [<- | Ia]; [repeat (destruct Ib as [<- | Ib]; [vm_compute; intros Q; first [reflexivity | discriminate Q]|]); destruct Ib|]). destruct Ia.
  - intros f I J. cbn in I, J. intuition congruence.
Qed.

(** ** Documents that do not work *)
Definition f_one (path : string) (doc : node) (p : string) : res file := if String.eqb p path then Ok (f_file doc) else Err (Exn (EOther "FileNotFoundError") p).
(** two documents that import each other; *)
Definition f_a : node := f_schema "urn:a" [f_import "urn:b" "b.xsd"; e_type "a" [e_sequence []]].
Definition f_b : node := f_schema "urn:b" [f_import "urn:a" "a.xsd"; e_type "b" [e_sequence []]].
Definition f_circle (p : string) : res file := if String.eqb p "/work/a.xsd" then Ok (f_file f_a) else f_one "/work/b.xsd" f_b p.
(** an import that does not say where; *)
Definition f_nowhere : node := f_schema "urn:a" [xel "import" [("namespace", "urn:b")] []; e_type "a" [e_sequence []]].
(** a document without namespace that is included; *)
Definition f_chameleon : node := xel "schema" [] [e_type "c" [e_sequence []]].
Definition f_includes : node := f_schema "urn:a" [f_include "c.xsd"; e_type "a" [e_sequence []]].
(** types of the same name in two namespaces. *)
Definition f_other : node := f_schema "urn:b" [e_type "item" [e_sequence [e_element "weight" [("type", "xs:float")]]]].
Definition f_same : node := f_schema "urn:a" [f_import "urn:b" "b.xsd"; e_type "item" [e_sequence [e_element "price" [("type", "xs:float")]]]].
