(** Making a dispatcher. *)
From Coq Require Import String Ascii List ZArith Bool Lia Arith.
From Verif Require Import PyBase Xml PyVal XsdSimple XsdComplex XsdSchema PyHttp Soap Client Dispatch LibClasses Py2Xsd Py2Wsdl
  SpecParse SpecSchema SpecSimple SpecHttp SpecDispatch SpecXsd SpecGenWsdl Serve SpecServe PfBase PfSchema.
Import ListNotations.
Open Scope nat_scope.
Open Scope string_scope.
Open Scope list_scope.

(** ** Rewriting *)
Lemma rewrite_all k : (fix all (l : list node) : res (list node) :=
   match l with [] => Ok [] | y :: l' => y' <- rewrite_locations y ;; l'' <- all l' ;; Ok (y' :: l'') end) k = mapM rewrite_locations k.
Proof. induction k as [|y k IH]; cbn [mapM]; [reflexivity|]. now rewrite IH. Qed.
Lemma rewrite_ref t a k k' l : is_reference t = true -> assoc "schemaLocation" a = Some l -> mapM rewrite_locations k = Ok k' ->
  rewrite_locations (Elem t a k) = Ok (Elem t (assoc_set "schemaLocation" (link l) a) k').
Proof. intros Ht Ha Hk. cbn [rewrite_locations]. rewrite rewrite_all, Ht, Ha, Hk. reflexivity. Qed.
Lemma rewrite_other t a k k' : is_reference t = false -> mapM rewrite_locations k = Ok k' -> rewrite_locations (Elem t a k) = Ok (Elem t a k').
Proof. intros Ht Hk. cbn [rewrite_locations]. rewrite rewrite_all, Ht, Hk. reflexivity. Qed.
Fixpoint free (x : node) : bool :=
  match x with Elem t _ k => negb (is_reference t) && forallb free k | _ => true end.
Section NodeInd.
  Variable Q : node -> Prop.
  Hypothesis He : forall t a k, Forall Q k -> Q (Elem t a k).
  Hypothesis Ht : forall s, Q (Text s).
  Hypothesis Hc : forall s, Q (Comment s).
  Hypothesis Hp : forall s, Q (PI s).
  Fixpoint node_ind' (x : node) : Q x :=
    match x with
    | Elem t a k => He t a k ((fix all l : Forall Q l := match l with [] => Forall_nil _ | y :: l' => Forall_cons _ (node_ind' y) (all l') end) k)
    | Text s => Ht s | Comment s => Hc s | PI s => Hp s
    end.
End NodeInd.
Lemma mapM_same {A} (f : A -> res A) l : Forall (fun x => f x = Ok x) l -> mapM f l = Ok l.
Proof. induction 1 as [|x l Hx _ IH]; cbn; [reflexivity|]. now rewrite Hx, IH. Qed.
Lemma rewrite_free x : free x = true -> rewrite_locations x = Ok x.
Proof.
  induction x as [t a k IH|s|s|s] using node_ind'; try reflexivity. cbn [free]. intros H. apply andb_true_iff in H as (H1 & H2). apply negb_true_iff in H1.
  apply rewrite_other; [exact H1|]. apply mapM_same. rewrite forallb_forall in H2. rewrite Forall_forall in *. auto.
Qed.
Lemma free_inside x y : free x = true -> inside y x -> free y = true.
Proof.
  intros H I. induction I as [|t a k z Hz _ IH]; [exact H|]. cbn [free] in H. apply andb_true_iff in H as (_ & H). rewrite forallb_forall in H. auto.
Qed.
Lemma free_no_ref x l : free x = true -> ~ refers_to x l.
Proof.
  intros H (name & a & k & Hn & Hi & _). apply (free_inside _ _ H) in Hi. cbn [free] in Hi. apply andb_true_iff in Hi as (Hi & _).
  destruct Hn as [<- | [<- | []]]; vm_compute in Hi; discriminate.
Qed.
Lemma free_xel tag attrs kids : is_reference (clark ns_xsd tag) = false -> Forall (fun x => free x = true) kids -> free (xel tag attrs kids) = true.
Proof. intros Ht Hk. unfold xel. cbn [free]. rewrite Ht. cbn. rewrite forallb_forall. now rewrite Forall_forall in Hk. Qed.
Lemma free_facet name v : is_reference (clark ns_xsd name) = false -> free (facet name v) = true.
Proof. intros H. now apply free_xel. Qed.
Lemma Forall_map' {A B} (P : B -> Prop) (f : A -> B) l : (forall a, In a l -> P (f a)) -> Forall P (map f l).
Proof. intros H. rewrite Forall_forall. intros b Hb. apply in_map_iff in Hb as (a & <- & Ha). auto. Qed.
Definition frees (l : list node) : Prop := Forall (fun x => free x = true) l.
Lemma frees_app l l' : frees l -> frees l' -> frees (l ++ l').
Proof. intros H H'. apply Forall_app. now split. Qed.
Lemma free_facets O G t : frees (describe_facets O G t).
Proof.
  unfold describe_facets. cbv zeta. repeat apply frees_app.
  - destruct (st_is_direct t); [|constructor]. apply Forall_map'. intros. now apply free_facet.
  - destruct (tf_pattern t) as [p|]; [|constructor]. destruct (String.eqb _ _); repeat constructor.
  - unfold value_facet. destruct (df_minIn _) as [x|]; [destruct (py_truthy x)|]; repeat constructor.
  - unfold value_facet. destruct (df_minEx _) as [x|]; [destruct (py_truthy x)|]; repeat constructor.
  - unfold value_facet. destruct (df_maxEx _) as [x|]; [destruct (py_truthy x)|]; repeat constructor.
  - unfold value_facet. destruct (df_maxIn _) as [x|]; [destruct (py_truthy x)|]; repeat constructor.
  - unfold int_facet. destruct (df_fraction _) as [z|]; [destruct (z =? 0)%Z|]; repeat constructor.
  - unfold int_facet. destruct (df_total _) as [z|]; [destruct (z =? 0)%Z|]; repeat constructor.
Qed.
Lemma free_element O G c f : free (describe_element O G c f) = true.
Proof.
  unfold describe_element. apply free_xel; [reflexivity|]. destruct (dc_class G c f); [constructor|]. repeat constructor. apply free_xel; [reflexivity|].
  repeat constructor. apply free_xel; [reflexivity|]. apply free_facets.
Qed.
Lemma free_class O G named c d : free (describe_class O G named c d) = true.
Proof.
  unfold describe_class. apply free_xel; [reflexivity|]. repeat constructor. apply free_xel; [destruct (cd_ind d); reflexivity|]. apply Forall_map'. intros. apply free_element.
Qed.
Lemma free_simple st : free (describe_simple st) = true.
Proof.
  unfold describe_simple. apply free_xel; [reflexivity|]. repeat constructor. apply free_xel; [reflexivity|]. apply frees_app.
  - apply Forall_map'. intros. now apply free_facet.
  - destruct (sc_fraction st) as [| | | | | |[|x s]| | | | | | |]; destruct (sc_pattern st) as [| | | | | |[|x' s']| | | | | | |]; repeat constructor.
Qed.
Lemma free_toplevel O E G p : free (describe_toplevel O E G p) = true.
Proof.
  unfold describe_toplevel. cbv zeta. apply free_xel; [reflexivity|]. destruct (ge_class (snd p)); [constructor|]. destruct (ge_type (snd p)); repeat constructor. apply free_class.
Qed.

(** ** Schemas *)
Definition rest_of (O : oracle) (E : env) (G : decls) (s : gschema) : list node :=
  map describe_simple (gs_simple s) ++ map (fun c => describe_class O G true c (class_of E c)) (gs_complex s) ++ map (describe_toplevel O E G) (gs_elements s).
Lemma free_rest O E G s : frees (rest_of O E G s).
Proof. repeat apply frees_app; apply Forall_map'; intros; [apply free_simple|apply free_class|apply free_toplevel]. Qed.
Definition located (s : gschema) : Prop :=
  (forall i, In i (gs_imports s) -> exists l, snd i = Some l /\ l <> "") /\ (forall i, In i (gs_includes s) -> exists l, i = Some l /\ l <> "").
Lemma mapM_app {A B} (f : A -> res B) l l' m m' : mapM f l = Ok m -> mapM f l' = Ok m' -> mapM f (l ++ l') = Ok (m ++ m').
Proof.
  revert m. induction l as [|x l IH]; intros m H H'; [injection H as <-; exact H'|]. cbn [mapM app] in *. apply bind_ok in H as (y & Hy & H). apply bind_ok in H as (ys & Hys & H).
  injection H as <-. rewrite Hy, (IH _ Hys H'). reflexivity.
Qed.
Lemma mapM_map {A B C} (f : B -> res C) (g : A -> B) (h : A -> C) l : (forall a, In a l -> f (g a) = Ok (h a)) -> mapM f (map g l) = Ok (map h l).
Proof. induction l as [|a l IH]; intros H; cbn; [reflexivity|]. rewrite H by now left. cbn. rewrite IH by (intros; apply H; now right). reflexivity. Qed.
Lemma rewrite_import ns l : l <> "" -> rewrite_locations (xel "import" (location_attr (Some l) ++ [("namespace", ns)]) []) = Ok (xel "import" (location_attr (Some (link l)) ++ [("namespace", ns)]) []).
Proof. intros H. destruct l as [|c l]; [contradiction|]. reflexivity. Qed.
Lemma rewrite_include l : l <> "" -> rewrite_locations (xel "include" (location_attr (Some l)) []) = Ok (xel "include" (location_attr (Some (link l))) []).
Proof. intros H. destruct l as [|c l]; [contradiction|]. reflexivity. Qed.
Lemma rewrite_schema O E G s : located s -> rewrite_locations (describe_schema O E G s) = Ok (describe_schema O E G (with_links s)).
Proof.
  intros (H1 & H2). unfold describe_schema, xel. apply rewrite_other; [reflexivity|]. cbn [with_links gs_imports gs_includes gs_simple gs_complex gs_elements]. rewrite !map_map.
  apply mapM_app; [|apply mapM_app].
  - apply mapM_map. intros i Hi. destruct (H1 i Hi) as (l & E1 & Hl). rewrite E1. cbn [fst snd option_map]. now apply rewrite_import.
  - apply mapM_map. intros i Hi. destruct (H2 i Hi) as (l & -> & Hl). cbn [option_map]. now apply rewrite_include.
  - apply mapM_same. eapply Forall_impl; [|apply (free_rest O E G s)]. intros x Hx. now apply rewrite_free.
Qed.
Lemma located_needed O E G s x : rewrite_locations (describe_schema O E G s) = Ok x -> forall i, In i (gs_imports s) -> exists l, snd i = Some l /\ l <> "".
Proof.
  intros H i Hi. unfold describe_schema, xel in H. cbn [rewrite_locations] in H. rewrite rewrite_all in H. apply bind_ok in H as (a & _ & H). apply bind_ok in H as (k & Hk & _).
  assert (X : exists y, rewrite_locations (xel "import" (location_attr (snd i) ++ [("namespace", fst i)]) []) = Ok y).
  { apply in_map with (f := fun i => xel "import" (location_attr (snd i) ++ [("namespace", fst i)]) []) in Hi. revert k Hk. clear - Hi. induction (gs_imports s) as [|j l IH]; [destruct Hi|]. intros k Hk. cbn [map app mapM] in Hk.
    apply bind_ok in Hk as (y & Hy & Hk). apply bind_ok in Hk as (ys & Hys & _). destruct Hi as [Eq|Hi]; [exists y; now rewrite <- Eq|]. now apply (IH Hi ys). }
  destruct X as (y & Hy). destruct (snd i) as [[|c l]|]; [discriminate Hy|exists (String c l); split; [reflexivity|discriminate]|discriminate Hy].
Qed.
Lemma inside_elem y t a k : inside y (Elem t a k) -> y = Elem t a k \/ exists z, In z k /\ inside y z.
Proof. intros I. inversion I as [|t' a' k' z Hz I']; [now left|right; now exists z]. Qed.
Lemma not_schema name t a k a' k' : In name ["import"; "include"] -> In t ["schema"] -> Elem (clark ns_xsd name) a k <> Elem (clark ns_xsd t) a' k'.
Proof. intros [<- | [<- | []]] [<- | []] H; discriminate H. Qed.
Lemma inside_schema O E G s name a k : In name ["import"; "include"] -> inside (Elem (clark ns_xsd name) a k) (describe_schema O E G s) ->
  (exists i, In i (gs_imports s) /\ a = location_attr (snd i) ++ [("namespace", fst i)]) \/ (exists i, In i (gs_includes s) /\ a = location_attr i).
Proof.
  intros Hn I. unfold describe_schema, xel in I. apply inside_elem in I as [I | (z & Hz & I)].
  - exfalso. revert I. apply not_schema; cbn; auto.
  - apply in_app_iff in Hz as [Hz|Hz]; [|apply in_app_iff in Hz as [Hz|Hz]].
    + apply in_map_iff in Hz as (i & <- & Hi). left. exists i. split; [exact Hi|]. apply inside_elem in I as [I | (z & [] & _)]. now injection I as _ -> _.
    + apply in_map_iff in Hz as (i & <- & Hi). right. exists i. split; [exact Hi|]. apply inside_elem in I as [I | (z & [] & _)]. now injection I as _ -> _.
    + exfalso. pose proof (free_rest O E G s) as F. unfold frees in F. rewrite Forall_forall in F. specialize (F z Hz).
      apply (free_inside _ _ F) in I. cbn [free] in I. apply andb_true_iff in I as (I & _). destruct Hn as [<- | [<- | []]]; vm_compute in I; discriminate.
Qed.
Lemma location_assoc l rest : assoc "schemaLocation" (location_attr l ++ rest) = match l with None | Some "" => assoc "schemaLocation" rest | Some s => Some s end.
Proof. destruct l as [[|c l]|]; reflexivity. Qed.
(** What a document refers to. *)
Lemma schema_refers O E G s l : refers_to (describe_schema O E G s) l <-> l <> "" /\ ((exists ns, In (ns, Some l) (gs_imports s)) \/ In (Some l) (gs_includes s)).
Proof.
  split.
  - intros (name & a & k & Hn & I & Ha). apply (inside_schema O E G s name a k Hn) in I as [(i & Hi & ->) | (i & Hi & ->)].
    + rewrite location_assoc in Ha. destruct i as [ns [[|c l']|]]; cbn [fst snd] in *; try discriminate Ha. injection Ha as <-. split; [discriminate|]. left. now exists ns.
    + rewrite <- (app_nil_r (location_attr i)), location_assoc in Ha. destruct i as [[|c l']|]; try discriminate Ha. injection Ha as <-. split; [discriminate|]. now right.
  - intros (Hl & [(ns & Hi) | Hi]).
    + exists "import", (location_attr (Some l) ++ [("namespace", ns)]), []. split; [cbn; auto|]. split.
      * eapply in_kid; [|apply in_self]. apply in_app_iff. left. apply in_map_iff. exists (ns, Some l). split; [reflexivity|exact Hi].
      * rewrite location_assoc. destruct l; [contradiction|reflexivity].
    + exists "include", (location_attr (Some l)), []. split; [cbn; auto|]. split.
      * eapply in_kid; [|apply in_self]. apply in_app_iff. right. apply in_app_iff. left. apply in_map_iff. exists (Some l). split; [reflexivity|exact Hi].
      * rewrite <- (app_nil_r (location_attr (Some l))), location_assoc. destruct l; [contradiction|reflexivity].
Qed.

(** ** Services *)
Lemma free_messages m : frees (describe_messages m).
Proof. repeat constructor. Qed.
Lemma free_bound v m : free (describe_bound v m) = true.
Proof. destruct v; reflexivity. Qed.
Definition service_rest (s : wservice) : list node :=
  let v := ws_version s in
  flat_map describe_messages (ws_methods s) ++
  [wel "portType" [("name", ws_name s ++ "PortType")%string] (map describe_operation (ws_methods s))] ++
  [wel "binding" [("name", ws_name s ++ "Binding")%string; ("type", "tns:" ++ ws_name s ++ "PortType")%string]
     (map (describe_bound v) (ws_methods s) ++ [soap_el v "binding" [("style", "document"); ("transport", ns_soap_http)]])] ++
  [wel "service" [("name", ws_name s)]
     [wel "port" [("name", ws_name s ++ "Port")%string; ("binding", "tns:" ++ ws_name s ++ "Binding")%string] [soap_el v "address" [("location", ws_location s)]]]].
Lemma free_wel tag attrs kids : is_reference (clark "http://schemas.xmlsoap.org/wsdl/" tag) = false -> frees kids -> free (wel tag attrs kids) = true.
Proof. intros Ht Hk. unfold wel. cbn [free]. rewrite Ht. cbn. rewrite forallb_forall. unfold frees in Hk. now rewrite Forall_forall in Hk. Qed.
Lemma free_service s : frees (service_rest s).
Proof.
  unfold service_rest. cbv zeta. repeat apply frees_app.
  - induction (ws_methods s) as [|m l IH]; cbn [flat_map]; [constructor|]. apply frees_app; [apply free_messages|exact IH].
  - repeat constructor. apply free_wel; [reflexivity|]. apply Forall_map'. reflexivity.
  - repeat constructor. apply free_wel; [reflexivity|]. apply frees_app; [apply Forall_map'; intros; apply free_bound|]. repeat constructor. destruct (ws_version s); reflexivity.
  - repeat constructor. apply free_wel; [reflexivity|]. repeat constructor. destruct (ws_version s); reflexivity.
Qed.
Lemma service_eq O E G s : describe_service O E G s = wel "definitions" [("targetNamespace", ws_tns s)] ([wel "types" [] (map (describe_schema O E G) (ws_schemas s))] ++ service_rest s).
Proof. reflexivity. Qed.
Lemma rewrite_service O E G s : (forall x, In x (ws_schemas s) -> located x) -> rewrite_locations (describe_service O E G s) = Ok (describe_service O E G (service_with_links s)).
Proof.
  intros H. rewrite !service_eq. unfold wel at 1. apply rewrite_other; [reflexivity|]. apply mapM_app.
  - cbn [mapM]. unfold wel. rewrite (rewrite_other _ _ _ (map (describe_schema O E G) (ws_schemas (service_with_links s)))); [reflexivity|reflexivity|].
    cbn [ws_schemas service_with_links]. rewrite map_map. apply mapM_map. intros x Hx. apply rewrite_schema. auto.
  - apply mapM_same. eapply Forall_impl; [|apply (free_service s)]. intros x Hx. now apply rewrite_free.
Qed.
Lemma service_needs O E G s x : rewrite_locations (describe_service O E G s) = Ok x -> forall g, In g (ws_schemas s) -> exists y, rewrite_locations (describe_schema O E G g) = Ok y.
Proof.
  intros H g Hg. rewrite service_eq in H. unfold wel at 1 in H. cbn [rewrite_locations] in H. rewrite rewrite_all in H. apply bind_ok in H as (a & _ & H). apply bind_ok in H as (k & Hk & _).
  cbn [app mapM] in Hk. apply bind_ok in Hk as (y & Hy & _). unfold wel in Hy. cbn [rewrite_locations] in Hy. rewrite rewrite_all in Hy. apply bind_ok in Hy as (a' & _ & Hy). apply bind_ok in Hy as (k' & Hk' & _).
  revert k' Hk'. clear - Hg. induction (ws_schemas s) as [|g' l IH]; [destruct Hg|]. intros k' Hk'. cbn [map mapM] in Hk'. apply bind_ok in Hk' as (y & Hy & Hk'). apply bind_ok in Hk' as (ys & Hys & _).
  destruct Hg as [-> | Hg]; [now exists y|]. now apply (IH Hg ys).
Qed.
Lemma not_wsdl name t a k a' k' : In name ["import"; "include"] -> In t ["definitions"; "types"] -> Elem (clark ns_xsd name) a k <> Elem (clark ns_wsdl t) a' k'.
Proof. intros [<- | [<- | []]] [<- | [<- | []]] H; discriminate H. Qed.
Lemma service_refers O E G s l : refers_to (describe_service O E G s) l <-> exists g, In g (ws_schemas s) /\ refers_to (describe_schema O E G g) l.
Proof.
  rewrite service_eq. split.
  - intros (name & a & k & Hn & I & Ha). unfold wel at 1 in I. apply inside_elem in I as [I | (z & Hz & I)]; [exfalso; revert I; apply not_wsdl; cbn; auto|].
    apply in_app_iff in Hz as [[<- | []] | Hz].
    + unfold wel in I. apply inside_elem in I as [I | (z & Hz & I)]; [exfalso; revert I; apply not_wsdl; cbn; auto|]. apply in_map_iff in Hz as (g & <- & Hg). exists g. split; [exact Hg|]. now exists name, a, k.
    + exfalso. pose proof (free_service s) as F. unfold frees in F. rewrite Forall_forall in F. apply (free_no_ref z l (F z Hz)). now exists name, a, k.
  - intros (g & Hg & (name & a & k & Hn & I & Ha)). exists name, a, k. split; [exact Hn|]. split; [|exact Ha].
    eapply in_kid; [now left|]. eapply in_kid; [apply in_map, Hg|exact I].
Qed.
