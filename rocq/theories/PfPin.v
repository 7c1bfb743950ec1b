(** The checks of the dispatcher in the words of SpecDispatch. *)
From Coq Require Import String Ascii List ZArith NArith Bool.
From Verif Require Import PyBase PfBase Xml PyVal XsdSimple XsdComplex XsdSchema PyHttp Soap SpecSoap Dispatch SpecDispatch PfRender PfDispatch.
Import ListNotations.
Open Scope string_scope.
Open Scope list_scope.

(** ** Names *)
Lemma split_none c n : ~ In c n -> split_l c n = [n].
Proof.
  induction n as [|x n IH]; [reflexivity|]. intros N. cbn [split_l]. rewrite IH by (intros I; apply N; now right).
  destruct (Ascii.eqb_spec x c) as [-> | _]; [|reflexivity]. destruct N. now left.
Qed.
Lemma split_last c p n : ~ In c n -> exists a b, split_l c (p ++ c :: n) = a :: b ++ [n].
Proof.
  intros N. induction p as [|x p (a & b & IH)]; cbn [app split_l].
  - rewrite Ascii.eqb_refl, (split_none c n N). now exists [], [].
  - rewrite IH. destruct (Ascii.eqb x c); [|now exists (x :: a), b]. now exists [], (a :: b).
Qed.
Lemma cut_last (c : ascii) (l : list ascii) : exists n, ~ In c n /\ (l = n \/ exists p, l = p ++ c :: n).
Proof.
  induction l as [|x l (n & N & IH)]; [exists []; split; [intros []|now left]|].
  destruct IH as [-> | (p & ->)]; [|exists n; split; [exact N|right; now exists (x :: p)]].
  destruct (Ascii.eqb_spec x c) as [-> | Nx]; [exists n; split; [exact N|right; now exists []]|].
  exists (x :: n). split; [|now left]. intros [E|I]; [now apply Nx|now apply N].
Qed.
Lemma after_colon_only g n : without_prefix g n -> after_colon g = n.
Proof.
  intros (N & H). unfold after_colon, str_split. destruct H as [-> | (p & ->)].
  - rewrite (split_none _ _ N). cbn [map last]. apply of_to.
  - rewrite !to_l_app. cbn [to_l app]. destruct (split_last ":"%char (to_l p) (to_l n) N) as (a & b & E).
    replace (to_l p ++ ":"%char :: to_l n) with (to_l p ++ ":"%char :: to_l n) in E by reflexivity.
    etransitivity; [|apply of_to]. cbn. rewrite E. change (a :: b ++ [to_l n]) with ((a :: b) ++ [to_l n]). rewrite map_app. cbn [map]. apply last_last.
Qed.
Lemma after_colon_spec g : without_prefix g (after_colon g).
Proof.
  destruct (cut_last ":"%char (to_l g)) as (n & N & H). assert (W : without_prefix g (of_l n)).
  { split; [now rewrite to_of|]. destruct H as [E | (p & E)]; [left|right; exists (of_l p)]; apply to_l_inj.
    - now rewrite to_of.
    - rewrite to_l_app. change (to_l (":" ++ of_l n)) with (":"%char :: to_l (of_l n)). now rewrite !to_of. }
  now rewrite (after_colon_only _ _ W).
Qed.

Lemma str_partition_inv c s a b : str_partition c s = (a, Some b) -> s = (a ++ String c b)%string.
Proof.
  unfold str_partition. intros H. apply to_l_inj. rewrite to_l_app. cbn [to_l].
  assert (G : forall l, match partition_l c l with (p, Some r) => l = p ++ c :: r | (p, None) => l = p end).
  { clear. induction l as [|x l IH]; [reflexivity|]. cbn [partition_l]. destruct (Ascii.eqb_spec x c) as [-> | _]; [reflexivity|]. destruct (partition_l c l) as [p [r|]]; now rewrite IH. }
  specialize (G (to_l s)). destruct (partition_l c (to_l s)) as [p [r|]]; [|discriminate]. injection H as <- <-. change (list_ascii_of_string (String c (of_l r))) with (c :: to_l (of_l r)). now rewrite !to_of.
Qed.

(** ** Elements *)
Lemma own_element_spec P l name e : own_element P l name = Some e <-> declared_as P l name e.
Proof.
  induction l as [|s l IH]; cbn [own_element].
  - split; [discriminate|]. intros (l1 & s & l2 & E & _). destruct l1; discriminate.
  - destruct (assoc name (s_elements (pf_G P s))) as [e'|] eqn:A; split.
    + intros [= <-]. exists [], s, l. split; [reflexivity|]. split; [exact A|intros s' []].
    + intros (l1 & s' & l2 & E & A' & N). destruct l1 as [|s0 l1]; injection E as <- E; [congruence|]. rewrite (N s (or_introl eq_refl)) in A. discriminate.
    + intros (l1 & s' & l2 & -> & A' & N)%IH. exists (s :: l1), s', l2. split; [reflexivity|]. split; [exact A'|]. intros s0 [<- | I]; auto.
    + intros (l1 & s' & l2 & E & A' & N). apply IH. destruct l1 as [|s0 l1]; injection E as <- E; [congruence|]. exists l1, s', l2. split; [exact E|]. split; [exact A'|]. intros s0 I. apply N. now right.
Qed.
Lemma own_element_none P l name : own_element P l name = None <-> forall s, In s l -> assoc name (s_elements (pf_G P s)) = None.
Proof.
  induction l as [|s l IH]; cbn [own_element]; [split; [intros _ s []|reflexivity]|].
  destruct (assoc name (s_elements (pf_G P s))) as [e'|] eqn:A; split.
  - discriminate.
  - intros H. rewrite (H s (or_introl eq_refl)) in A. discriminate.
  - intros H s' [<- | I]; [exact A|now apply IH].
  - intros H. apply IH. intros s' I. apply H. now right.
Qed.

(** ** Exceptions *)
Lemma message_reported e : exn_message e = reported e.
Proof. destruct e as [[] m|c m a]; reflexivity. Qed.
Lemma base_exception_spec e : is_Exception e = false <-> base_exception e.
Proof.
  split.
  - destruct e as [[] m|c m a]; try discriminate. cbn [is_Exception]. intros H. apply negb_false_iff in H. exists name, m. split; [reflexivity|]. now apply str_in_spec.
  - intros (n & m & -> & I). cbn [is_Exception]. apply negb_false_iff. now apply str_in_spec.
Qed.
Lemma exception_spec e : is_Exception e = true <-> ~ base_exception e.
Proof. rewrite <- base_exception_spec. destruct (is_Exception e); split; congruence. Qed.
Lemma lxml_failure_spec e : is_lxml_error e = true <-> lxml_failure e.
Proof.
  split.
  - destruct e as [[] m|c m a]; try discriminate; intros _; exists m; auto.
  - intros (m & [-> | ->]); reflexivity.
Qed.

(** ** Header blocks *)
Lemma clark_split_inv s ns l : clark_split s = Ok (ns, l) -> ns <> "" -> s = clark ns l /\ ncname_ok l = true.
Proof.
  assert (G : forall t, clark_split (String "{" t) = Ok (ns, l) -> String "{" t = clark ns l /\ ncname_ok l = true).
  { intros t. unfold clark_split. destruct (str_partition "}" t) as [p [r|]] eqn:E; [|discriminate]. destruct (ncname_ok r) eqn:N; [|discriminate]. intros [= <- <-].
    split; [|exact N]. unfold clark. f_equal. now apply str_partition_inv in E. }
  destruct s as [|z t]; [discriminate|].
  destruct (Ascii.eqb_spec z "{") as [-> | Nz]; [intros H _; exact (G t H)|].
  destruct z as [[] [] [] [] [] [] [] []]; try (now destruct Nz); clear; unfold clark_split; destruct (ncname_ok _); try discriminate; intros H N; exfalso; apply N; now injection H.
Qed.
Lemma is_wsa_spec c : is_wsa c = true <-> wsa_block c.
Proof.
  split.
  - unfold is_wsa, node_ns. destruct c as [t a k| | |]; try discriminate.
    destruct (clark_split t) as [[ns l]|] eqn:E; [|discriminate]. destruct (String.eqb_spec ns ""); [discriminate|]. intros H. apply String.eqb_eq in H as ->.
    apply clark_split_inv in E as (-> & N); [|assumption]. exists l, a, k. now split.
  - intros (name & a & k & N & ->). unfold is_wsa, node_ns, clark_split, clark. rewrite str_partition_app by (vm_compute; intuition discriminate). rewrite N. reflexivity.
Qed.
Lemma block_step P {W} (D : dispatcher W) c : 
  (if is_wsa c then pf_wsa P c
   else match pf_valid P c with Err e => if is_lxml_error e && negb (d_strict D) then Ok tt else Err e | Ok _ => Ok tt end) = Ok tt <-> block_ok P (d_strict D) c.
Proof.
  unfold block_ok. rewrite <- is_wsa_spec. destruct (is_wsa c).
  - split; [intros H; left; now split|]. intros [(_ & H)|(H & _)]; [exact H|now destruct H].
  - split.
    + intros H. right. split; [discriminate|]. destruct (pf_valid P c) as [[]|e]; [now left|right].
      destruct (is_lxml_error e) eqn:L; [|discriminate]. apply lxml_failure_spec in L. destruct (d_strict D); [discriminate|]. split; [reflexivity|]. exists e. now split.
    + intros [(H & _)|(_ & H)]; [discriminate|]. destruct H as [-> | (S & e & L & ->)]; [reflexivity|]. apply lxml_failure_spec in L. rewrite L, S. reflexivity.
Qed.
Lemma block_step_bad P {W} (D : dispatcher W) c e : block_bad P (d_strict D) c e ->
  (if is_wsa c then pf_wsa P c
   else match pf_valid P c with Err e => if is_lxml_error e && negb (d_strict D) then Ok tt else Err e | Ok _ => Ok tt end) = Err e.
Proof.
  unfold block_bad. rewrite <- is_wsa_spec. destruct (is_wsa c).
  - intros [(_ & H)|(H & _)]; [exact H|now destruct H].
  - intros [(H & _)|(_ & -> & H)]; [discriminate|]. destruct H as [-> | H]; [now rewrite andb_false_r|].
    rewrite <- lxml_failure_spec in H. destruct (is_lxml_error e); [now destruct H|reflexivity].
Qed.
Lemma blocks_all {A} (f : A -> res unit) l : foldM (fun _ c => f c) tt l = Ok tt <-> Forall (fun c => f c = Ok tt) l.
Proof.
  induction l as [|c l IH]; cbn [foldM]; [split; auto|]. split.
  - destruct (f c) as [[]|] eqn:E; cbn [bind]; [|discriminate]. intros H. constructor; [exact E|now apply IH].
  - intros H. inversion H as [|? ? H1 H2]; subst. rewrite H1. cbn [bind]. now apply IH.
Qed.
Lemma blocks_first {A} (f : A -> res unit) l1 c l2 e : Forall (fun c => f c = Ok tt) l1 -> f c = Err e -> foldM (fun _ c => f c) tt (l1 ++ c :: l2) = Err e.
Proof.
  induction l1 as [|x l1 IH]; cbn [app foldM]; intros F E; [now rewrite E|]. inversion F as [|? ? H1 H2]; subst. rewrite H1. cbn [bind]. now apply IH.
Qed.
Lemma validate_ok {W} P (D : dispatcher W) h : validate_header P D h = Ok tt <-> header_ok P (d_strict D) h.
Proof.
  unfold header_ok.
  assert (G : h <> VNone -> (validate_header P D h = Ok tt <-> exists x, py_xmlelement h = Ok x /\ Forall (block_ok P (d_strict D)) (el_children x))).
  { intros N. unfold validate_header. replace (match h with VNone => Ok tt | _ => _ end) with
      (x <- py_xmlelement h ;; foldM (fun _ c => (if is_wsa c then pf_wsa P c
         else match pf_valid P c with Err e => if is_lxml_error e && negb (d_strict D) then Ok tt else Err e | Ok _ => Ok tt end)) tt (el_children x)) by (destruct h; congruence).
    destruct (py_xmlelement h) as [x|e]; cbn [bind].
    - rewrite blocks_all. split; [intros F; exists x; split; [reflexivity|]|intros (x' & [= <-] & F)]; (eapply Forall_impl; [|exact F]); intros c; apply block_step.
    - split; [discriminate|]. intros (x & E & _). discriminate. }
  destruct h; try (rewrite G by discriminate; split; [now right|intros [H|H]; [discriminate|exact H]]). split; [now left|reflexivity].
Qed.
Lemma validate_bad {W} P (D : dispatcher W) h e : header_bad P (d_strict D) h e -> validate_header P D h = Err e.
Proof.
  intros (x & l1 & c & l2 & X & E & F & B).
  replace (validate_header P D h) with
      (x <- py_xmlelement h ;; foldM (fun _ c => (if is_wsa c then pf_wsa P c
         else match pf_valid P c with Err e => if is_lxml_error e && negb (d_strict D) then Ok tt else Err e | Ok _ => Ok tt end)) tt (el_children x))
    by (unfold validate_header; destruct h; try reflexivity; discriminate).
  rewrite X. cbn [bind]. rewrite E. apply blocks_first; [|now apply block_step_bad]. eapply Forall_impl; [|exact F]. intros b. apply block_step.
Qed.
Lemma header_as_spec {W} P (D : dispatcher W) m h h' : parse_header_of P D m h = Ok h' <-> header_as P D m h h'.
Proof.
  unfold header_as.
  assert (G : h <> VNone -> (parse_header_of P D m h = Ok h' <->
    ((exists c x, (m_ih m = Some c \/ m_ih m = None /\ sv_ih (d_service D) = Some c) /\
      py_xmlelement h = Ok x /\ parse_obj (pf_n P) (pf_O P) (pf_E P) c x = Ok h') \/ m_ih m = None /\ sv_ih (d_service D) = None /\ h' = VNone))).
  { intros N. unfold parse_header_of. replace (match h with VNone => Ok VNone | _ => _ end) with
      (match m_ih m, sv_ih (d_service D) with
        | Some c, _ => header_parse_as (pf_n P) (pf_O P) (pf_E P) h c
        | None, Some c => header_parse_as (pf_n P) (pf_O P) (pf_E P) h c
        | None, None => Ok VNone
        end) by (destruct h; congruence).
    unfold header_parse_as. destruct (py_xmlelement h) as [x|e]; cbn [bind].
    - split.
      + destruct (m_ih m) as [c|] eqn:E1; [intros H; left; exists c, x; auto|]. destruct (sv_ih (d_service D)) as [c|] eqn:E2; [intros H; left; exists c, x; auto|]. intros [= <-]. now right.
      + intros [(c & x' & [-> | (-> & ->)] & [= <-] & H)|(-> & -> & ->)]; [exact H|exact H|reflexivity].
    - split.
      + destruct (m_ih m); [discriminate|]. destruct (sv_ih (d_service D)); [discriminate|]. intros [= <-]. now right.
      + intros [(c & x' & _ & E & _)|(-> & -> & ->)]; [discriminate|reflexivity]. }
  destruct h; try (rewrite G by discriminate; split; [right; split; [discriminate|assumption]|intros [(H & _)|(_ & H)]; [discriminate|exact H]]).
  cbn [parse_header_of]. split; [intros [= <-]; now left|]. intros [(_ & ->)|(H & _)]; [reflexivity|now destruct H].
Qed.

(** ** Choosing the method *)
Lemma find_substituted {W} P (D : dispatcher W) rq t a k m e g head : no_action D rq ->
  (forall m', In m' (sv_methods (d_service D)) -> m_in m' <> IOName (local_name t)) ->
  declared_as P (sv_schemas (d_service D)) (local_name t) e -> se_subst e = Some g -> without_prefix g head ->
  first_with (fun m => m_in m = IOName head) (sv_methods (d_service D)) m -> find_handler P D rq (Elem t a k) = Ok m.
Proof.
  intros A N O G H F. apply own_element_spec in O. apply after_colon_only in H as <-. exact (find_by_subst _ P D rq t a k m e g A N O G F).
Qed.
Lemma find_only {W} P (D : dispatcher W) rq t a k m : no_action D rq -> find_handler P D rq (Elem t a k) = Ok m ->
  first_with (fun m => m_in m = IOName (local_name t)) (sv_methods (d_service D)) m \/
  (forall m', In m' (sv_methods (d_service D)) -> m_in m' <> IOName (local_name t)) /\
  exists e g head, declared_as P (sv_schemas (d_service D)) (local_name t) e /\ se_subst e = Some g /\ without_prefix g head /\
    first_with (fun m => m_in m = IOName head) (sv_methods (d_service D)) m.
Proof.
  intros A F. destruct (find_by_root_inv _ P D rq t a k m A F) as [L|(N & e & g & O & G & L)]; [now left|right]. split; [exact N|].
  exists e, g, (after_colon g). split; [now apply own_element_spec|]. split; [exact G|]. split; [apply after_colon_spec|exact L].
Qed.
