(** Proofs about envelopes and faults. *)
From Coq Require Import String Ascii List ZArith NArith Bool Lia.
From Verif Require Import PyBase Xml PyVal XsdSimple XsdComplex PyHttp Soap SpecSoap PfBase.
Import ListNotations.
Open Scope string_scope.
Open Scope list_scope.

Lemma bind_ok_r {A} (r : res A) : bind r (fun x => Ok x) = r.
Proof. now destruct r. Qed.

Section S.
  Variable O : oracle.
  Variable U : string -> option classdef.
  Variable lim : nat.
  Notation E := (soap_env U lim).

  Definition env_obj v h b := VObj (envelope_cls v) None [("Header", h); ("Body", b)].
  Definition body_obj v m f := VObj (body_cls v) None [("message", m); ("Fault", f)].

  Lemma new_envelope_eq v h : new_envelope O E v h = Ok (env_obj v h VNone).
  Proof. destruct v, h; vm_compute; reflexivity. Qed.
  Lemma new_body v : construct O E (body_cls v) [] = Ok (body_obj v VNone VNone).
  Proof. destruct v; vm_compute; reflexivity. Qed.
  Lemma set_body v h b m f : py_set O E (env_obj v h b) "Body" (body_obj v m f) = Ok (env_obj v h (body_obj v m f)).
  Proof. destruct v; vm_compute; reflexivity. Qed.
  Lemma set_message v m f fs :
    py_set O E (body_obj v m f) "message" (VObj "NamedType" None fs) = Ok (body_obj v (VObj "NamedType" None fs) f).
  Proof. destruct v; vm_compute; reflexivity. Qed.
  Lemma set_fault v m f fs :
    py_set O E (body_obj v m f) "Fault" (VObj (fault_cls v) None fs) = Ok (body_obj v m (VObj (fault_cls v) None fs)).
  Proof. destruct v; vm_compute; reflexivity. Qed.

  Definition accept_complex (v : pyval) : res pyval :=
    match v with
    | VNone => Ok VNone
    | VNil => Err ValueError
    | _ => if is_instance E v "ComplexType" then Ok v else Err ValueError
    end.
  Lemma named_eq tag v : construct O E "NamedType" [("name", VStr tag); ("value", v)] =
    (a <- accept_complex v ;; Ok (VObj "NamedType" None [("name", VStr tag); ("value", a)])).
  Proof.
    destruct v; try reflexivity.
    transitivity (a <- complex_accept E "ComplexType" (VObj cls xe fs) ;; b <- Ok [("name", VStr tag); ("value", a)] ;; Ok (VObj "NamedType" None b)).
    { unfold construct. change (new_instance O E "NamedType") with (@Ok (list (string * pyval)) [("name", VNone); ("value", VNone)]).
      change (get_class E "NamedType") with (Ok (mkClass ["NamedType"; "ComplexType"] CKPlain
         [s_elem "name" string_type 1 false None; s_elem "value" (TComplex "ComplexType") 1 false None] ISequence None)).
      cbn [bind foldM fst snd cd_fields].
      change (setattr O E [s_elem "name" string_type 1 false None; s_elem "value" (TComplex "ComplexType") 1 false None]
        [("name", VNone); ("value", VNone)] "name" (VStr tag)) with (@Ok (list (string * pyval)) [("name", VStr tag); ("value", VNone)]).
      cbn [bind].
      change (setattr O E [s_elem "name" string_type 1 false None; s_elem "value" (TComplex "ComplexType") 1 false None]
        [("name", VStr tag); ("value", VNone)] "value" (VObj cls xe fs))
        with (a <- complex_accept E "ComplexType" (VObj cls xe fs) ;; Ok (assoc_set "value" a [("name", VStr tag); ("value", VNone)])).
      destruct (complex_accept E "ComplexType" (VObj cls xe fs)); reflexivity. }
    unfold complex_accept, accept_complex. change (get_class E "ComplexType") with (Ok (mkClass ["ComplexType"] CKPlain [] ISequence None)).
    cbn [bind cd_kind]. destruct (is_instance E _ _); reflexivity.
  Qed.

  Definition fault_obj v code msg actor :=
    match v with
    | V11 => VObj "soap11.Fault" None [("faultcode", VStr code); ("faultstring", VStr msg); ("faultactor", opt_str actor)]
    | V12 => VObj "soap12.Fault" None [("Code", VObj "soap12.Code" None [("Value", VStr code)]);
               ("Reason", VObj "soap12.Reason" None [("Text", VStr msg)]); ("Role", opt_str actor)]
    end.
  Lemma make_fault_eq v code msg actor : make_fault O E v code msg actor = Ok (fault_obj v code msg actor).
  Proof. destruct v, actor; vm_compute; reflexivity. Qed.

  (** ** Rendering *)
  Definition header_elem v : node := Elem (clark (envelope_ns v) "Header") [] [].
  Definition header_nodes n v h : res (list node) :=
    match h with
    | VNone => Ok []
    | VNil => Ok [Elem (clark (envelope_ns v) "Header") [(xsi_nil, "true")] []]
    | _ => x <- render_obj n O E (header_cls v) (header_elem v) h (Some (envelope_ns v)) (Some qualified) ;; Ok [x]
    end.

  Lemma render_plain n c d ci di parent xe fs ns efd :
    get_class E c = Ok d -> cd_kind d = CKPlain -> get_class E ci = Ok di ->
    render_obj (S n) O E c parent (VObj ci xe fs) ns efd =
    foldM (fun par f => fv <- getattr fs (f_name f) ;;
             render_field O E (render_obj n O E) f par fv (match cd_schema d with Some si => si_tns si | None => ns end) efd)
          parent (cd_fields di).
  Proof. intros G K Gi. cbn [render_obj]. rewrite G. cbn [bind]. rewrite K. cbn [bind obj_parts fst snd]. rewrite Gi. reflexivity. Qed.

  Lemma envelope_xml_eq n v h c fs :
    envelope_xml (S n) O E v (env_obj v h (VObj c None fs)) =
    (hx <- header_nodes n v h ;;
     bx <- render_obj n O E (body_cls v) (Elem (clark (envelope_ns v) "Body") [] []) (VObj c None fs)
             (Some (envelope_ns v)) (Some qualified) ;;
     Ok (Elem (clark (envelope_ns v) "Envelope") [] (hx ++ [bx]))).
  Proof.
    unfold envelope_xml, xml_of.
    replace (mk_element (if String.eqb (envelope_ns v) "" then "Envelope" else clark (envelope_ns v) "Envelope"))
      with (Ok (Elem (clark (envelope_ns v) "Envelope") [] [])) by (destruct v; reflexivity).
    unfold env_obj. cbn [bind obj_parts fst].
    assert (G : get_class E (envelope_cls v) = Ok (mkClass [envelope_cls v; "ComplexType"] CKPlain (envelope_fields v) ISequence (Some (env_si v))))
      by (destruct v; reflexivity).
    rewrite (render_plain _ _ _ _ _ _ _ _ _ _ G eq_refl G).
    cbn [cd_schema cd_fields envelope_fields foldM s_elem f_name env_si si_tns].
    change (getattr [("Header", h); ("Body", VObj c None fs)] "Header") with (Ok h).
    change (getattr [("Header", h); ("Body", VObj c None fs)] "Body") with (Ok (VObj c None fs)).
    unfold s_elem. cbn [bind render_field f_kind tag_or_name f_tag f_name].
    (* the header *)
    assert (H : render_element O (render_obj n O E) (s_elem "Header" (TComplex (header_cls v)) 1 true None)
              (Elem (clark (envelope_ns v) "Envelope") [] []) "Header" h (Some (envelope_ns v)) (Some qualified) =
            (hx <- header_nodes n v h ;; Ok (Elem (clark (envelope_ns v) "Envelope") [] hx))).
    { unfold render_element, header_nodes, eff_ns, s_elem. cbn [f_ns f_type render_type].
      replace (mk_element (qualify (Some (envelope_ns v)) (Some qualified) "Header")) with (Ok (header_elem v)) by (destruct v; reflexivity).
      destruct h; cbn [bind]; try reflexivity;
        match goal with |- context [render_obj n O E ?a ?b ?c ?d ?e] => destruct (render_obj n O E a b c d e); reflexivity end. }
    unfold s_elem in H. rewrite H. destruct (header_nodes n v h) as [hx|]; cbn [bind]; auto.
    unfold render_element, eff_ns. cbn [f_ns f_type render_type].
    replace (mk_element (qualify (Some (envelope_ns v)) (Some qualified) "Body")) with (Ok (Elem (clark (envelope_ns v) "Body") [] [])) by (destruct v; reflexivity).
    cbn [bind].
    match goal with |- context [render_obj n O E ?a ?b ?c ?d ?e] => destruct (render_obj n O E a b c d e); reflexivity end.
  Qed.

  Lemma get_body v : exists mro, get_class E (body_cls v) = Ok (mkClass mro CKPlain (body_fields v) ISequence (Some (env_si v))).
  Proof. destruct v; eexists; reflexivity. Qed.

  (** The Body with a message. *)
  Lemma body_message_eq n v tag ci xei fsi di si :
    e_cls E ci = Some di -> cd_schema di = Some si ->
    render_obj (S n) O E (body_cls v) (Elem (clark (envelope_ns v) "Body") [] [])
      (body_obj v (VObj "NamedType" None [("name", VStr tag); ("value", VObj ci xei fsi)]) VNone)
      (Some (envelope_ns v)) (Some qualified) =
    (x <- xml_of n O E (VObj ci xei fsi) tag (si_tns si) (Some (si_efd si)) ;;
     Ok (Elem (clark (envelope_ns v) "Body") [] [x])).
  Proof.
    intros Hc Hs. destruct (get_body v) as (mro & Gb).
    unfold body_obj. rewrite (render_plain _ _ _ _ _ _ _ _ _ _ Gb eq_refl Gb).
    cbn [cd_schema cd_fields body_fields foldM s_elem f_name message_field env_si si_tns].
    change (getattr [("message", VObj "NamedType" None [("name", VStr tag); ("value", VObj ci xei fsi)]); ("Fault", VNone)] "message")
      with (Ok (VObj "NamedType" None [("name", VStr tag); ("value", VObj ci xei fsi)])).
    change (getattr [("message", VObj "NamedType" None [("name", VStr tag); ("value", VObj ci xei fsi)]); ("Fault", VNone)] "Fault") with (Ok VNone).
    unfold s_elem, message_field. cbn [bind render_field f_kind render_classnamed obj_parts snd fst].
    change (getattr [("name", VStr tag); ("value", VObj ci xei fsi)] "name") with (Ok (VStr tag)).
    change (getattr [("name", VStr tag); ("value", VObj ci xei fsi)] "value") with (Ok (VObj ci xei fsi)).
    assert (Gi : get_class E ci = Ok di) by (unfold get_class; now rewrite Hc).
    cbn [bind obj_parts fst]. rewrite Gi. cbn [bind]. rewrite Hs. cbn [f_type render_type].
    unfold xml_of. cbn [obj_parts bind fst].
    assert (T : (match si_tns si with Some n0 => if String.eqb n0 "" then Ok tag else Ok (clark n0 tag) | None => Ok tag end) =
                Ok (match si_tns si with Some m => if String.eqb m "" then tag else clark m tag | None => tag end)).
    { destruct (si_tns si) as [m|]; auto. destruct (String.eqb m ""); auto. }
    rewrite T. cbn [bind]. destruct (mk_element _) as [x|]; cbn [bind]; auto.
    (* NamedType hands on the namespace of the value's own schema *)
    assert (R : render_obj n O E "NamedType" x (VObj ci xei fsi) (si_tns si) (Some (si_efd si)) =
                render_obj n O E ci x (VObj ci xei fsi) (si_tns si) (Some (si_efd si))).
    { destruct n as [|n]; auto. cbn [render_obj obj_parts bind fst snd].
      change (get_class E "NamedType") with (Ok (mkClass ["NamedType"; "ComplexType"] CKPlain
         [s_elem "name" string_type 1 false None; s_elem "value" (TComplex "ComplexType") 1 false None] ISequence None)).
      cbn [bind cd_kind cd_schema]. rewrite Gi. cbn [bind]. rewrite Hs. destruct (cd_kind di); cbn [bind]; reflexivity. }
    rewrite R. destruct (render_obj n O E ci x _ _ _); reflexivity.
  Qed.

  Lemma accept_complex_ok ci xei fsi di : e_cls E ci = Some di -> In "ComplexType" (cd_mro di) ->
    accept_complex (VObj ci xei fsi) = Ok (VObj ci xei fsi).
  Proof.
    intros Hc Hm. unfold accept_complex, is_instance. rewrite Hc. replace (str_in "ComplexType" (cd_mro di)) with true; auto.
    symmetry. unfold str_in. apply existsb_exists. exists "ComplexType". split; auto.
  Qed.

  (** The response envelope. *)
  Lemma response_eq n v tag ci xei fsi di si h :
    e_cls E ci = Some di -> cd_schema di = Some si -> In "ComplexType" (cd_mro di) ->
    envelope_response (S (S n)) O E v tag (VObj ci xei fsi) h =
    (hx <- header_nodes (S n) v h ;;
     x <- xml_of n O E (VObj ci xei fsi) tag (si_tns si) (Some (si_efd si)) ;;
     Ok (soap_envelope (envelope_ns v) hx [x])).
  Proof.
    intros Hc Hs Hm. unfold envelope_response. rewrite new_envelope_eq. cbn [bind]. rewrite new_body. cbn [bind].
    rewrite set_body. cbn [bind]. rewrite named_eq, (accept_complex_ok _ _ _ _ Hc Hm). cbn [bind]. rewrite set_message. cbn [bind].
    rewrite set_body. cbn [bind]. unfold body_obj. rewrite envelope_xml_eq. destruct (header_nodes (S n) v h) as [hx|]; cbn [bind]; auto.
    fold (body_obj v (VObj "NamedType" None [("name", VStr tag); ("value", VObj ci xei fsi)]) VNone).
    rewrite (body_message_eq _ _ _ _ _ _ _ _ Hc Hs). destruct (xml_of _ _ _ _ _ _ _); reflexivity.
  Qed.

  (** ** Faults *)
  Definition fault_node v code msg actor :=
    match v with V11 => fault11 (envelope_ns v) code msg actor | V12 => fault12 (envelope_ns v) code msg actor end.
  Definition texts_ok code msg (actor : option string) : bool :=
    xml_text_ok code && xml_text_ok msg && match actor with Some a => xml_text_ok a | None => true end.

  Lemma body_fault_eq n v code msg actor :
    render_obj (S (S (S n))) O E (body_cls v) (Elem (clark (envelope_ns v) "Body") [] [])
      (body_obj v VNone (fault_obj v code msg actor)) (Some (envelope_ns v)) (Some qualified) =
    if texts_ok code msg actor then Ok (Elem (clark (envelope_ns v) "Body") [] [fault_node v code msg actor]) else Err ValueError.
  Proof.
    destruct v, actor as [a|]; lazy -[xml_text_ok]; change (xml_text_ok "en") with true;
      repeat match goal with |- context [xml_text_ok ?t] => destruct (xml_text_ok t) end; reflexivity.
  Qed.

  Lemma error_eq n v code msg h actor :
    error_response (S (S (S (S n)))) O E v code msg h actor =
    (hx <- header_nodes (S (S (S n))) v h ;;
     if texts_ok code msg actor then Ok (soap_envelope (envelope_ns v) hx [fault_node v code msg actor]) else Err ValueError).
  Proof.
    unfold error_response. rewrite new_envelope_eq. cbn [bind]. rewrite new_body. cbn [bind].
    rewrite set_body. cbn [bind]. rewrite make_fault_eq. cbn [bind].
    replace (py_set O E (body_obj v VNone VNone) "Fault" (fault_obj v code msg actor)) with (Ok (body_obj v VNone (fault_obj v code msg actor)))
      by (destruct v; symmetry; apply (set_fault V11) || apply (set_fault V12)).
    cbn [bind]. rewrite set_body. cbn [bind]. unfold body_obj. rewrite envelope_xml_eq.
    destruct (header_nodes _ v h) as [hx|]; cbn [bind]; auto.
    fold (body_obj v VNone (fault_obj v code msg actor)). rewrite body_fault_eq. destruct (texts_ok code msg actor); reflexivity.
  Qed.

  (** ** Parsing *)
  (** Children of an envelope that can carry a Header: none, or one Header element. *)
  Definition one_header v (hx : list node) : Prop :=
    hx = [] \/ exists a k, hx = [Elem (clark (envelope_ns v) "Header") a k].

End S.

(** Rendering into an element keeps its tag. *)
Section Tag.
  Variables (O : oracle) (E : env).
  Definition has_tag (t : string) (x : node) : Prop := exists a k, x = Elem t a k.
  Definition keeps (rec : renderer) : Prop := forall c t p v ns efd x, has_tag t p -> rec c p v ns efd = Ok x -> has_tag t x.
  Lemma append_tag t p k : has_tag t p -> has_tag t (el_append p k).
  Proof. intros (a & ks & ->). cbn. unfold has_tag. eauto. Qed.
  Lemma set_tag t p n v x : has_tag t p -> el_set p n v = Ok x -> has_tag t x.
  Proof.
    intros (a & ks & ->) H. unfold el_set in H. apply bind_ok in H as (m & _ & H).
    destruct (xml_text_ok v); [|discriminate]. injection H as <-. unfold has_tag. eauto.
  Qed.
  Lemma simple_tag s t p v x : has_tag t p -> render_simple O s p v = Ok x -> has_tag t x.
  Proof.
    intros T H. unfold render_simple in H. apply bind_ok in H as (y & _ & H). apply bind_ok in H as (q & Q & H).
    assert (Tq : has_tag t q).
    { destruct T as (a & k & ->). destruct y; cbn in Q; try discriminate; [injection Q as <-; unfold has_tag; eauto|].
      destruct (xml_text_ok s0); [|discriminate]. injection Q as <-. unfold has_tag. eauto. }
    destruct s; try (injection H as <-; exact Tq). eapply set_tag; eauto.
  Qed.
  Ltac bk H := apply bind_ok in H as (? & _ & H).
  Lemma foldM_tag {B} (step : node -> B -> res node) t : (forall p b x, has_tag t p -> step p b = Ok x -> has_tag t x) ->
    forall l p x, has_tag t p -> foldM step p l = Ok x -> has_tag t x.
  Proof.
    intros S l. induction l as [|b l IH]; intros p x T H; cbn in H; [injection H as <-; exact T|].
    apply bind_ok in H as (q & Q & H). eauto.
  Qed.
  Lemma field_tag rec f t p v ns efd x : keeps rec -> has_tag t p -> render_field O E rec f p v ns efd = Ok x -> has_tag t x.
  Proof.
    intros K T H. unfold render_field in H.
    assert (RF : render_ref O E rec f p (tag_or_name f) v ns efd = Ok x -> has_tag t x).
    { clear H. intros H. unfold render_ref in H.
      assert (G : (if is_group_obj E v then render_type O rec (f_type f) p v ns efd
         else x <- mk_element (match ns with Some n => if String.eqb n "" then tag_or_name f else clark n (tag_or_name f) | None => tag_or_name f end) ;;
              x' <- render_type O rec (f_type f) x v ns efd ;; Ok (el_append p x')) = Ok x).
      { destruct v; try discriminate H; exact H. }
      clear H. rename G into H. destruct (is_group_obj E v).
      - unfold render_type in H. destruct (f_type f); [eapply simple_tag; eauto|eapply K; eauto].
      - bk H. bk H. injection H as <-. now apply append_tag. }
    destruct (f_kind f); auto.
    - unfold render_element in H. destruct v; try (injection H as <-; exact T);
        bk H; bk H; injection H as <-; now apply append_tag.
    - unfold render_classnamed in H. destruct v; try (injection H as <-; exact T); try discriminate H.
      bk H. bk H. apply bind_ok in H as (w & _ & H). destruct w; try (injection H as <-; exact T); try discriminate H.
      bk H. apply bind_ok in H as (d & _ & H). destruct (cd_schema d); [|discriminate].
      bk H. bk H. bk H. injection H as <-. now apply append_tag.
    - unfold render_attribute in H. destruct v; try (
        destruct (f_type f); [apply bind_ok in H as (yy & _ & H); unfold set_attr_val in H; destruct yy; try discriminate; eapply set_tag; eauto|discriminate]).
      + destruct (f_min f) as [[| |]|]; try discriminate; injection H as <-; exact T.
      + destruct (f_nillable f); [eapply set_tag; eauto|discriminate].
    - unfold render_list in H. destruct v; try discriminate. destruct (match f_min f with Some _ => _ | None => _ end); [discriminate|].
      destruct (match f_max f with OInt _ => _ | _ => _ end); [discriminate|].
      destruct (f_tag f) as [g|]; [|destruct l; [injection H as <-; exact T|discriminate]].
      revert H. apply foldM_tag; auto. intros q b y Tq H. bk H. bk H. injection H as <-. now apply append_tag.
  Qed.
  Lemma render_tag n : keeps (render_obj n O E).
  Proof.
    induction n as [|n IH]; intros c t p v ns efd x T H; [discriminate|]. cbn [render_obj] in H.
    bk H. bk H. destruct v; try (injection H as <-; exact T); try discriminate H.
    bk H. bk H. revert H. apply foldM_tag; auto. intros q f y Tq H. bk H. eapply field_tag; eauto.
  Qed.
  Lemma xml_of_tag n v tag ns efd x : xml_of n O E v tag ns efd = Ok x ->
    exists t a k, x = Elem t a k /\ norm_name (match ns with Some m => if String.eqb m "" then tag else clark m tag | None => tag end) = Ok t.
  Proof.
    unfold xml_of. intros H. apply bind_ok in H as (y & Y & H). bk H. unfold mk_element in Y.
    apply bind_ok in Y as (t & N & Y). injection Y as <-.
    eapply render_tag in H as (a & k & ->); [|unfold has_tag; eauto]. exists t, a, k. auto.
  Qed.
End Tag.
