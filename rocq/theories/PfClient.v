(** Calls from a client to a server: the proofs behind PropClient. *)
From Coq Require Import String Ascii List ZArith NArith Bool Lia.
From Verif Require Import PyBase Xml PyVal XsdSimple XsdComplex XsdSchema PyHttp Soap Dispatch Client
  SpecParse SpecRender SpecRound SpecSoap SpecDispatch SpecHttp SpecClient
  PfBase PfObject PfParse PfRender PfRender2 PfLayout PfRound PfMono PfSoap PfSoap2 PfSoap3 PfDispatch PfDispatch2 PfHttp.
Import ListNotations.
Open Scope string_scope.
Open Scope list_scope.

(** ** Layout of envelopes *)
Lemma layout_text x x' : layout x x' -> is_text x = is_text x'.
Proof. now destruct 1. Qed.
Lemma layout_children t a k x' : Forall (fun y => is_text y = false) k -> layout (Elem t a k) x' ->
  exists k', x' = Elem t a k' /\ Forall2 layout k (el_children x').
Proof.
  intros N H. inversion H as [|? ? ? k' Nk _ Sp]; subst.
  - exists k. split; [reflexivity|]. unfold el_children. cbn [el_kids]. clear H. induction N as [|y l Hy Hl IH]; cbn; [constructor|].
    rewrite Hy. cbn. constructor; [apply ly_same|exact IH].
  - exists k'. split; [reflexivity|]. unfold el_children. cbn [el_kids]. clear H Nk. revert N.
    induction Sp as [|s k k' _ Sp IH|x x' k k' L Sp IH]; intros N; cbn; [constructor|auto|].
    inversion N; subst. rewrite <- (layout_text _ _ L), H1. cbn. constructor; auto.
Qed.

Section S.
  Variable O : oracle.
  Variable U : string -> option classdef.
  Variable lim : nat.
  Notation E := (soap_env U lim).

  Lemma parse_envelope_any n v x hx ks fs : one_header v hx ->
    el_children x = hx ++ [Elem (clark (envelope_ns v) "Body") [] ks] ->
    parse_obj (S n) O E (body_cls v) (Elem (clark (envelope_ns v) "Body") [] ks) = Ok (VObj (body_cls v) (Some (Elem (clark (envelope_ns v) "Body") [] ks)) fs) ->
    parse_obj (S (S n)) O E (envelope_cls v) x =
    Ok (VObj (envelope_cls v) (Some x)
          [("Header", read_header v hx); ("Body", VObj (body_cls v) (Some (Elem (clark (envelope_ns v) "Body") [] ks)) fs)]).
  Proof.
    intros Hh C Hb. rewrite parse_envelope_eq. set (B := Elem (clark (envelope_ns v) "Body") [] ks) in *.
    rewrite C.
    assert (S1 : find_sub (header_field v) (hx ++ [B]) = Ok hx).
    { destruct Hh as [->|(a & k & ->)]; destruct v; reflexivity. }
    assert (S2 : find_sub (body_field v) (hx ++ [B]) = Ok [B]).
    { destruct Hh as [->|(a & k & ->)]; destruct v; reflexivity. }
    rewrite S1. cbn [bind].
    replace (foldM (fun fs0 s => parse_field O E (parse_obj (S n) O E) (envelope_fields v) (header_field v) fs0 s)
      [("Header", VNone); ("Body", VNone)] hx) with (@Ok (list (string * pyval)) [("Header", read_header v hx); ("Body", VNone)]).
    2:{ destruct Hh as [->|(a & k & ->)]; [reflexivity|]. cbn [foldM]. rewrite parse_field_header'. reflexivity. }
    cbn [bind]. rewrite S2. cbn [bind foldM].
    assert (N : not_nil B) by (unfold not_nil, B; intro X; vm_compute in X; discriminate X).
    rewrite (parse_field_body _ _ _ _ _ _ _ _ _ N Hb). reflexivity.
  Qed.

  (** ** Reading a fault *)
  Lemma py_get_erase o o' n : erase o = erase o' -> res_map erase (py_get o n) = res_map erase (py_get o' n).
  Proof.
    intros H. unfold py_get. destruct o, o'; cbn in H; try discriminate H; try reflexivity.
    injection H as -> H. cbn [obj_parts bind snd]. unfold getattr.
    pose proof (efs_assoc n fs) as A1. pose proof (efs_assoc n fs0) as A2. unfold efs in *. rewrite H in A1. rewrite A1 in A2.
    destruct (assoc n fs), (assoc n fs0); cbn in *; try discriminate; congruence.
  Qed.
  Lemma py_get_as o o' n w : erase o = erase o' -> py_get o n = Ok w -> exists w', py_get o' n = Ok w' /\ erase w = erase w'.
  Proof.
    intros H G. pose proof (py_get_erase _ _ n H) as X. rewrite G in X. cbn in X. destruct (py_get o' n) as [w'|]; [|discriminate].
    exists w'. split; [reflexivity|]. cbn in X. congruence.
  Qed.
  Lemma erase_str s w : erase (VStr s) = erase w -> w = VStr s.
  Proof. destruct w; cbn; congruence. Qed.
  Lemma erase_opt s w : erase (opt_str s) = erase w -> w = opt_str s.
  Proof. destruct s, w; cbn; congruence. Qed.
  Lemma parse_fault_erase v f f' c m a : erase f = erase f' -> parse_fault_message v f = Ok (VStr c, VStr m, opt_str a) ->
    parse_fault_message v f' = Ok (VStr c, VStr m, opt_str a).
  Proof.
    intros H. unfold parse_fault_message. destruct v.
    - intros G. apply bind_ok in G as (x & X & G). apply bind_ok in G as (y & Y & G). apply bind_ok in G as (z & Z & G). injection G as -> -> ->.
      apply (py_get_as _ _ _ _ H) in X as (x' & -> & X). apply (py_get_as _ _ _ _ H) in Y as (y' & -> & Y).
      apply (py_get_as _ _ _ _ H) in Z as (z' & -> & Z).
      apply erase_str in X, Y. apply erase_opt in Z. now subst.
    - intros G. apply bind_ok in G as (o & Ob & G). apply bind_ok in G as (x & X & G). apply bind_ok in G as (r & R & G).
      apply bind_ok in G as (y & Y & G). apply bind_ok in G as (z & Z & G). injection G as -> -> ->.
      apply (py_get_as _ _ _ _ H) in Ob as (o' & -> & Ob). apply (py_get_as _ _ _ _ Ob) in X as (x' & Ex & X).
      apply (py_get_as _ _ _ _ H) in R as (r' & Er & R). apply (py_get_as _ _ _ _ R) in Y as (y' & Ey & Y).
      apply (py_get_as _ _ _ _ H) in Z as (z' & Ez & Z). cbn [bind]. rewrite Ex. cbn [bind]. rewrite Er. cbn [bind]. rewrite Ey. cbn [bind]. rewrite Ez. cbn [bind].
      apply erase_str in X, Y. apply erase_opt in Z. now subst.
  Qed.

  Lemma level_flat c d c' : e_cls E c = Some d -> forallb (fun f => negb (is_group f)) (cd_fields d) = true -> level E c c' -> c' = c.
  Proof.
    intros Hd F L. destruct L as [|c d' f ct c' Hd' Hf G _ _]; auto.
    rewrite Hd in Hd'. injection Hd' as <-. rewrite forallb_forall in F. apply F in Hf. rewrite G in Hf. discriminate.
  Qed.
  Lemma ordinary_flat c d : e_cls E c = Some d -> forallb (fun f => negb (is_group f)) (cd_fields d) = true -> cd_ind d <> IChoice -> ordinary E c.
  Proof.
    intros Hd F N c' d' L Hd'. apply (level_flat _ _ _ Hd F) in L. subst c'. rewrite Hd in Hd'. injection Hd' as <-. split; auto.
    intros f Hf G. rewrite forallb_forall in F. apply F in Hf. rewrite G in Hf. discriminate.
  Qed.
  Lemma tidy_flat c d t a k : e_cls E c = Some d -> forallb (fun f => negb (is_group f)) (cd_fields d) = true -> cd_ind d <> IChoice ->
    (forall y f, In y k -> In f (cd_fields d) -> belongs f y = true -> tidy E (f_type f) y) -> tidy E (TComplex c) (Elem t a k).
  Proof.
    intros Hd F N H. constructor; [eapply ordinary_flat; eauto|]. intros y f Hy (c' & d' & L & Hd' & Hf & _) B.
    apply (level_flat _ _ _ Hd F) in L. subst c'. rewrite Hd in Hd'. injection Hd' as <-. eauto.
  Qed.
  Lemma tidy_text s t a x : tidy E (TSimple s) (Elem t a [Text x]).
  Proof. constructor. eauto. Qed.
  Ltac flat := eapply tidy_flat; [reflexivity|reflexivity|discriminate|].
  Ltac each := let y := fresh "y" in let f := fresh "f" in let Hy := fresh "Hy" in let Hf := fresh "Hf" in let B := fresh "B" in
    intros y f Hy Hf B; cbn in Hy, Hf;
    repeat match goal with H : _ \/ _ |- _ => destruct H as [<- | H] | H : False |- _ => destruct H end;
    try (vm_compute in B; discriminate B); clear B.
  Lemma tidy_fault v code msg actor : tidy E (TComplex (body_cls v)) (Elem (clark (envelope_ns v) "Body") [] [fault_node v code msg actor]).
  Proof.
    destruct v, actor as [ac|]; flat; each; unfold f_type, s_elem; cbn [fault_node fault11 fault12 app];
      unfold fault_node, fault11, fault12; cbn [app]; flat; each; unfold f_type, s_elem; try apply tidy_text; flat; each; apply tidy_text.
  Qed.

  (** A Body with a fault, however it is laid out. *)
  Lemma parse_fault_laid n v code msg actor B : code <> "" -> msg <> "" -> (forall a, actor = Some a -> a <> "") ->
    layout (Elem (clark (envelope_ns v) "Body") [] [fault_node v code msg actor]) B ->
    exists m f, parse_obj (S (S (S n))) O E (body_cls v) B = Ok (VObj (body_cls v) (Some B) [("message", m); ("Fault", f)]) /\
      parse_fault_message v f = Ok (VStr code, VStr msg, opt_str actor) /\ f <> VNone.
  Proof.
    intros C M A L. destruct (parse_fault_eq O U lim n v code msg actor C M A) as (f & Hp & Hf & Nf).
    destruct (layout_agree O E _ _ _ (S (S (S n))) L (tidy_fault v code msg actor)) as [_ Ag]. cbn [parse_type] in Ag. rewrite Hp in Ag. cbn [res_map] in Ag.
    destruct (parse_obj (S (S (S n))) O E (body_cls v) B) as [o|] eqn:Ho; [|discriminate].
    rewrite parse_body_eq in Ho. apply bind_ok in Ho as (s1 & _ & Ho). apply bind_ok in Ho as (f1 & _ & Ho).
    apply bind_ok in Ho as (s2 & _ & Ho). apply bind_ok in Ho as (fs2 & _ & Ho). injection Ho as <-.
    cbn in Ag. injection Ag as Ag. destruct fs2 as [|[k1 m'] [|[k2 f'] [|]]]; try discriminate Ag.
    cbn in Ag. injection Ag as -> Hm -> Hff. exists m', f'. split; [reflexivity|]. split.
    - eapply parse_fault_erase; eauto.
    - intros ->. destruct f; cbn in Hff; try discriminate. congruence.
  Qed.

  (** ** What is sent *)
  Variable Q : string -> Prop.
  Hypothesis HQ : rt_classes O E Q.

  Lemma soap_ns_good v : ns_good (Some (envelope_ns v)).
  Proof. destruct v; cbn; intros H; repeat (destruct H as [H | H]; [discriminate H|]); exact H. Qed.

  (** A header object, rendered into the Header element. *)
  Lemma header_sent n v c h : Q c -> (exists d si, e_cls E c = Some d /\ cd_schema d = Some si) -> rt_typed O E (TComplex c) h ->
    vdepth h <= S n ->
    exists a k, header_nodes O U lim (S n) v h = Ok [Elem (clark (envelope_ns v) "Header") a k] /\
      wire (Elem (clark (envelope_ns v) "Header") a k) = Elem (clark (envelope_ns v) "Header") a k /\
      assoc xsi_nil a = None /\ Forall (fun y => is_text y = false) k /\
      tidy E (TComplex c) (Elem (clark (envelope_ns v) "Header") a k) /\
      exists h', parse_obj (S (S n)) O E c (Elem (clark (envelope_ns v) "Header") a k) = Ok h' /\ erase h' = erase h.
  Proof.
    intros Qc (d & si & Hd & Hs) Hh Hn. inversion Hh as [|? d' xe fs Hd' Kfs Hf]; subst.
    rewrite Hd in Hd'. injection Hd' as <-.
    destruct (roundtrip_inside O E Q HQ c d xe fs (clark (envelope_ns v) "Header") (Some (envelope_ns v)) (Some qualified) n Qc Hd Hh (soap_ns_good v) Hn)
      as (a & k & R & W & Nn & El & Td & v' & P1 & P2).
    destruct (roundtrip_inside O E Q HQ c d xe fs (clark (envelope_ns v) "Header") (Some (envelope_ns v)) (Some qualified) (S n) Qc Hd Hh (soap_ns_good v) (le_S _ _ Hn))
      as (a2 & k2 & R2 & _ & _ & _ & _ & v2 & P12 & P22).
    assert (RM : le_res (foldM (fun par f => fv <- getattr fs (f_name f);; render_field O E (render_obj n O E) f par fv (Some (envelope_ns v)) (Some qualified))
           (Elem (clark (envelope_ns v) "Header") [] []) (cd_fields d))
         (foldM (fun par f => fv <- getattr fs (f_name f);; render_field O E (render_obj (S n) O E) f par fv (Some (envelope_ns v)) (Some qualified))
           (Elem (clark (envelope_ns v) "Header") [] []) (cd_fields d))).
    { apply le_foldM. intros par f. apply le_bind; [apply le_refl|]. intros fv. apply le_field. intros ? ? ? ? ?. apply render_mono. }
    apply RM in R as R'. rewrite R' in R2. injection R2 as <- <-.
    exists a, k. split; [|split; [exact W|split; [exact Nn|split; [|split; [exact Td|exists v2; split; [exact P12|exact P22]]]]]].
    - cbn [header_nodes]. rewrite render_obj_S.
      assert (G : exists mro, get_class E (header_cls v) = Ok (mkClass mro CKHeader [] ISequence (Some (env_si v)))) by (destruct v; eexists; reflexivity).
      destruct G as (mro & G). rewrite G. cbn [bind cd_kind obj_parts fst].
      assert (Gi : get_class E c = Ok d) by (unfold get_class; now rewrite Hd).
      rewrite Gi. cbn [bind]. rewrite Hs. cbn [bind cd_schema env_si si_tns snd]. unfold header_elem. rewrite R. reflexivity.
    - eapply Forall_impl; [|exact El]. intros y (? & ? & ? & ->). reflexivity.
  Qed.

  (** The body of a message. *)
  Lemma body_sent n c tag v d si : Q c -> e_cls E c = Some d -> cd_schema d = Some si -> message_tag tag ->
    rt_typed O E (TComplex c) v -> vdepth v <= n ->
    exists t a k, xml_of n O E v tag (si_tns si) (Some (si_efd si)) = Ok (Elem t a k) /\
      wire (Elem t a k) = Elem t a k /\ local_name t = tag /\ tidy E (TComplex c) (Elem t a k) /\
      exists v', parse_obj (S (S n)) O E c (Elem t a k) = Ok v' /\ erase v' = erase v.
  Proof.
    intros Qc Hd Hs (T1 & T2 & T3) Hv Hn.
    assert (G : ns_good (si_tns si)).
    { destruct (HQ c Qc) as (d' & L & Hd' & _ & _ & _ & G & _). rewrite Hd in Hd'. injection Hd' as <-. now rewrite Hs in G. }
    destruct (roundtrip O E Q HQ c v tag (si_tns si) (Some (si_efd si)) n Qc Hv T1 G Hn) as (x & X & W & Td & _).
    assert (Hn' : vdepth v <= S (S n)) by lia.
    destruct (roundtrip O E Q HQ c v tag (si_tns si) (Some (si_efd si)) (S (S n)) Qc Hv T1 G Hn') as (x2 & X2 & _ & _ & P2).
    apply (xml_of_more O E n (S (S n))) in X as X'; [|lia]. rewrite X' in X2. injection X2 as <-.
    destruct (xml_of_tag _ _ _ _ _ _ _ _ X) as (t & a & k & -> & N).
    exists t, a, k. rewrite W in *. repeat split; auto.
    change (norm_name (ref_tag (si_tns si) tag) = Ok t) in N. rewrite norm_ref_tag in N by auto. injection N as <-.
    unfold ref_tag. destruct (si_tns si) as [m|]; [|now apply local_plain]. destruct (String.eqb m ""); [now apply local_plain|now apply local_clark].
  Qed.

  Lemma one_header_laid v hx hx' : (hx = [] \/ exists a k, hx = [Elem (clark (envelope_ns v) "Header") a k]) ->
    Forall2 layout hx hx' -> one_header v hx'.
  Proof.
    intros [-> | (a & k & ->)] F; inversion F; subst; [left; reflexivity|]. inversion H3; subst.
    right. inversion H1; subst; eauto.
  Qed.

  (** The envelope arrives: its parts, after layout. *)
  Lemma envelope_laid v hx bs doc : one_header v hx -> Forall (fun y => is_text y = false) bs ->
    layout (soap_envelope (envelope_ns v) hx bs) doc ->
    exists hx' ks', Forall2 layout hx hx' /\ one_header v hx' /\
      el_children doc = hx' ++ [Elem (clark (envelope_ns v) "Body") [] ks'] /\
      layout (Elem (clark (envelope_ns v) "Body") [] bs) (Elem (clark (envelope_ns v) "Body") [] ks') /\
      Forall2 layout bs (el_children (Elem (clark (envelope_ns v) "Body") [] ks')).
  Proof.
    intros OH NT L. unfold soap_envelope in L. apply layout_children in L as (k' & -> & F).
    2:{ apply Forall_app. split; [destruct OH as [->|(a & k & ->)]; repeat constructor|repeat constructor]. }
    apply Forall2_app_inv_l in F as (hx' & l2 & Fh & Fb & Ek). inversion Fb as [|? B ? r LB Fr]; subst. inversion Fr; subst.
    destruct (layout_children _ _ _ _ NT LB) as (ks' & -> & Fk).
    exists hx', ks'. repeat split; auto. eapply one_header_laid; eauto.
  Qed.
End S.

(** ** The transports *)
Section T.
  Context {W : Type}.
  Variables (P : platform) (D : dispatcher W).
  Lemma app_empty (s : string) : (s ++ "")%string = s.
  Proof. induction s; cbn; congruence. Qed.
  Lemma post_dispatch a base w headers data :
    post_through a P D base w headers data =
    let '(w', tr, r) := dispatch P D w (new_request (seen a base headers data) data) in (w', answer (res_map rs_content r)).
  Proof.
    destruct a; cbn [post_through seen]; unfold wsgi_post, django_post, flask_post.
    - pose proof (wsgi_exact _ P D w (post_environ base headers data) data "" eq_refl) as X. rewrite app_empty in X. rewrite X.
      destruct (dispatch _ _ _ _) as [[w' tr] [rs|er]]; reflexivity.
    - unfold django_dispatch, adapter. destruct (dispatch _ _ _ _) as [[w' tr] [rs|er]]; reflexivity.
    - unfold flask_dispatch, adapter. destruct (dispatch _ _ _ _) as [[w' tr] [rs|er]]; reflexivity.
  Qed.
  Lemma seen_post a base headers data : seen a base headers data "REQUEST_METHOD" = Some "POST".
  Proof. destruct a; reflexivity. Qed.

  (** The dispatcher finds the method. *)
  Lemma routed a base m tag data t at_ k : routable a (d_service D) base m tag -> local_name t = tag ->
    find_handler P D (new_request (seen a base (request_headers (sv_version (d_service D)) (m_action m)) data) data) (Elem t at_ k) = Ok m.
  Proof.
    unfold routable. intros R Ht.
    set (rq := new_request _ _).
    assert (BA : forall act, determine_soap_action (sv_version (d_service D)) (rq_environ rq) = Some act -> act <> "" ->
       first_with (fun m' => m_action m' = act) (sv_methods (d_service D)) m -> find_handler P D rq (Elem t at_ k) = Ok m).
    { intros act Ha Na F. apply (find_by_action _ P D rq t at_ k act); auto. split; auto. }
    destruct (sv_version (d_service D)) eqn:EV.
    - destruct a.
      + destruct R as [C F]. apply find_by_root; [|now rewrite Ht]. intros act [Ha _].
        rewrite EV in Ha. change (determine_soap_action V11 (wsgi_environ base (request_headers V11 (m_action m))) = Some act) in Ha.
        rewrite action11_wsgi in Ha; [discriminate|auto].
      + destruct R as [[A [N F]] C]. apply (BA (m_action m)); auto.
        change (determine_soap_action V11 (django_environ (wsgi_environ base (request_headers V11 (m_action m)))) = Some (m_action m)).
        now apply action11_django.
      + destruct R as [C F]. apply find_by_root; [|now rewrite Ht]. intros act [Ha _].
        rewrite EV in Ha. change (determine_soap_action V11 (wsgi_environ base (request_headers V11 (m_action m))) = Some act) in Ha.
        rewrite action11_wsgi in Ha; [discriminate|auto].
    - destruct R as [[A [N F]] B]. apply (BA (m_action m)); auto. destruct (action12 base (m_action m) N B) as [X Y].
      destruct a; [exact X|exact Y|exact X].
  Qed.
End T.
