(** Proofs about the header blocks of generated services: running the statements (C91). *)
From Coq Require Import String Ascii List ZArith NArith Bool Lia.
From Verif Require Import PyBase PfBase PyVal XsdSimple XsdComplex XsdMeta PyHttp Soap Client Dispatch LibClasses Py2Xsd Py2Wsdl GenNames
  Xsd2Py PyLoad PyUrl PfUrl SpecUrl Wsdl2Py PyService SpecNames SpecGenCode SpecMeta SpecService SpecHeaders PfGenCode PfMeta PfMeta2
  PfService PfService2 PfService3 PfService4 PfHeaders.
Import ListNotations.
Open Scope nat_scope.
Open Scope string_scope.
Open Scope list_scope.

(** ** The world grows *)
Definition grows (w w' : world) : Prop := exists es, exec_all w es = Ok w'.
Lemma grows_refl w : grows w w.
Proof. now exists []. Qed.
Lemma grows_trans a b c : grows a b -> grows b c -> grows a c.
Proof. intros (e & E) (f & F). exists (e ++ f). unfold exec_all in *. rewrite foldM_app, E. exact F. Qed.
Lemma grows_facts w w' : Inv w -> grows w w' -> Inv w' /\ length (w_store w) <= length (w_store w') /\ length (w_classes w) <= length (w_classes w') /\
  (forall c, c < length (w_classes w) -> lineage w' c = lineage w c /\ (forall n v, declares w' c n v <-> declares w c n v) /\
     forall n d, has_field w' c n d <-> has_field w c n d).
Proof.
  intros I (es & E). unfold exec_all in E. revert w I E. induction es as [|e es IH]; intros w I E; [injection E as <-|].
  - split; [exact I|]. split; [lia|]. split; [lia|]. intros c _. split; [reflexivity|]. split; intros; reflexivity.
  - cbn [foldM] in E. destruct (exec w e) as [w1|] eqn:X; [|discriminate]. cbn [bind] in E. destruct e as [f|dict anc].
    + cbn [exec] in X. injection X as <-. destruct (IH _ (inv_new w f I) E) as (I' & L1 & L2 & H). cbn [w_store w_classes] in *. rewrite app_length in L1.
      split; [exact I'|]. split; [lia|]. split; [lia|]. intros c Hc. destruct (H c Hc) as (H1 & H2 & H3). split; [exact H1|]. split; [exact H2|exact H3].
    + pose proof (inv_def _ _ _ _ I X) as I1. destruct (IH _ I1 E) as (I' & L1 & L2 & H). apply exec_def in X as (k & EC & _ & _ & _ & _ & _ & St).
      assert (Lc : length (w_classes w1) = S (length (w_classes w))) by (rewrite EC, app_length; cbn; lia).
      assert (Ls : length (w_store w1) = length (w_store w)) by (rewrite St; apply named_length).
      split; [exact I'|]. split; [lia|]. split; [lia|]. intros c Hc. destruct (H c) as (H1 & H2 & H3); [lia|]. split; [|split].
      * rewrite H1. unfold lineage. now rewrite (old_class w w1 k EC).
      * intros n v. rewrite H2. now apply (old_declares w w1 k EC).
      * intros n d. rewrite H3. now apply (old_field w w1 k I EC).
Qed.

Section E.
  Variables (rt : runtime) (base : nat) (md5 : string -> string) (schemas : list schema_plan) (els : list elements_of).
  (** The fields that the classes have, by name and Element object. *)
  Variable named : string -> nat -> Prop.
  Hypothesis Hhex : forall s, In s schemas -> hex5 (md5 (sp_tns s)).
  Let nss := map sp_tns schemas.
  Lemma hex_nss s : In s nss -> hex5 (md5 s).
  Proof. intros I. apply in_map_iff in I. destruct I as (x & <- & I). now apply Hhex. Qed.

  Record okst (st : wstate) : Prop := {
    ok_ready : ready md5 nss els st;
    ok_inv : Inv (st_world st);
    ok_base : plain_base (st_world st) base;
    ok_els : elements_there (st_world st) els;
    ok_own : forall c n d, has_field (st_world st) c n d -> named n d }.
  (** From one state to a later one: which names may be bound. *)
  Record later (N : string -> Prop) (st st' : wstate) : Prop := {
    la_ok : okst st';
    la_grows : grows (st_world st) (st_world st');
    la_names : forall n, ~ N n -> assoc n (st_names st') = assoc n (st_names st) }.
  Lemma later_refl N st : okst st -> later N st st.
  Proof. intros O. split; [exact O|apply grows_refl|reflexivity]. Qed.
  Lemma later_trans (N M : string -> Prop) a b c : later N a b -> later M b c -> later (fun n => N n \/ M n) a c.
  Proof.
    intros A B. split; [apply B|eapply grows_trans; [apply A|apply B]|]. intros n H. rewrite (la_names _ _ _ B), (la_names _ _ _ A); [reflexivity|tauto..].
  Qed.
  Lemma later_mono (N M : string -> Prop) a b : (forall n, N n -> M n) -> later N a b -> later M a b.
  Proof. intros H A. split; [apply A|apply A|]. intros n K. apply (la_names _ _ _ A). auto. Qed.
  Lemma grown_ok st st' : okst st -> grows (st_world st) (st_world st') -> ready md5 nss els st' ->
    (forall c n d, has_field (st_world st') c n d -> named n d) -> okst st'.
  Proof.
    intros [R I (B1 & B2) El _] G R' Ow. destruct (grows_facts _ _ I G) as (I' & L1 & L2 & H). split; [exact R'|exact I'| | |exact Ow].
    - split; [lia|]. intros c n v Hc D. destruct (H base B1) as (Hl & _). rewrite Hl in Hc.
      assert (Lc : c < length (w_classes (st_world st))).
      { unfold lineage in Hc. destruct (nth_error (w_classes (st_world st)) base) as [k|] eqn:E; [|destruct Hc].
        pose proof (i_mro _ I base k E) as F. rewrite Forall_forall in F. now apply F. }
      destruct (H c Lc) as (_ & Hd & _). apply Hd in D. exact (B2 c n v Hc D).
    - intros e name n He Hn. specialize (El e name n He Hn). lia.
  Qed.
  Lemma ready_names st st' : ready md5 nss els st -> (forall s, hex5 s -> assoc ("Schema_" ++ s)%string (st_names st') = assoc ("Schema_" ++ s)%string (st_names st)) ->
    ready md5 nss els st'.
  Proof.
    intros R H. unfold ready, schemas_bound in *. pose proof hex_nss as Hh. revert Hh. induction R as [|ns e ss es E R IH]; intros Hh; [constructor|]. constructor.
    - rewrite H; [exact E|apply Hh; now left].
    - apply IH. intros s I. apply Hh. now right.
  Qed.
  Lemma later_bind st n x : okst st -> not_schema n -> later (eq n) st (binds st [(n, x)]).
  Proof.
    intros O N. split; [|exists []; reflexivity|].
    - apply (grown_ok st); [exact O|exists []; reflexivity| |apply O]. apply (ready_names st); [apply O|]. intros s Hs. apply binds_other. intros [E|[]]. now apply (N s Hs).
    - intros m Hm. apply binds_other. cbn. intuition.
  Qed.

  (** ** A class of header blocks *)
  Lemma hex_headers h a : hex5 h -> ("Schema_" ++ h <> a ++ "Headers")%string.
  Proof. intros H. eapply hex_differs with (x := to_l "Heade") (y := to_l "rs"); eauto. Qed.
  Lemma assoc_set_end {A} k (v : A) l : ~ In k (map fst l) -> assoc_set k v l = l ++ [(k, v)].
  Proof.
    induction l as [|[k' v'] l IH]; intros N; [reflexivity|]. cbn [map fst In] in N. cbn [assoc_set app].
    destruct (String.eqb_spec k k'); [elim N; now left|]. rewrite IH by tauto. reflexivity.
  Qed.
  Definition field_of (e : elements_of) (p : part_plan) : string * attrval :=
    (pp_name p, match assoc (pp_element p) e with Some n => ADesc n | None => AOther end).
  Lemma entries_ok e hs : forall d, Forall (fun p => usable_name (pp_name p) /\ pp_name p <> "SCHEMA" /\ quotable (pp_element p)) hs ->
    NoDup (map fst d ++ map pp_name hs) ->
    foldM (header_entry rt e) d (map (fun p => (pp_name p, WText (pp_element p))) hs) = Ok (d ++ map (field_of e) hs).
  Proof.
    induction hs as [|p hs IH]; intros d U N; [cbn; now rewrite app_nil_r|]. inversion U as [|? ? (U1 & U2 & U3) Us]; subst. cbn [map foldM].
    assert (He : header_entry rt e d (pp_name p, WText (pp_element p)) = Ok (assoc_set (pp_name p) (snd (field_of e p)) d)).
    { unfold header_entry. cbn [fst snd]. rewrite (usable_ident _ U1). cbn [negb]. destruct (String.eqb_spec (pp_name p) "SCHEMA"); [contradiction|].
      now rewrite (quotable_literal rt false _ U3). }
    rewrite He. cbn [bind].
    assert (Nin : ~ In (pp_name p) (map fst d)).
    { cbn [map] in N. apply NoDup_remove_2 in N. intros I. apply N, in_or_app. now left. }
    rewrite assoc_set_end by exact Nin. rewrite IH; [now rewrite <- app_assoc|exact Us|]. rewrite map_app, <- app_assoc. exact N.
  Qed.
  Lemma fields_assoc e hs name n : NoDup (map pp_name hs) -> ~ In "SCHEMA" (map pp_name hs) ->
    (assoc name (("SCHEMA", AOther) :: map (field_of e) hs) = Some (ADesc n) <->
     exists h, In h hs /\ pp_name h = name /\ assoc (pp_element h) e = Some n).
  Proof.
    intros N S. cbn [assoc]. destruct (String.eqb_spec name "SCHEMA") as [->|Q].
    - split; [discriminate|]. intros (h & I & E & _). elim S. rewrite <- E. now apply in_map.
    - clear S. induction hs as [|h hs IH]; [split; [discriminate|intros (h & [] & _)]|]. cbn [map] in N. inversion N as [|? ? Na Nh]; subst.
      cbn [map field_of assoc]. destruct (String.eqb_spec name (pp_name h)) as [->|E].
      + split.
        * destruct (assoc (pp_element h) e) as [m|] eqn:Em; [|discriminate]. intros [= <-]. exists h. split; [now left|auto].
        * intros (h' & [<-|I] & E' & Em); [now rewrite Em|]. elim Na. rewrite <- E'. now apply in_map.
      + rewrite (IH Nh). split; intros (h' & I & E' & Em).
        * exists h'. split; [now right|auto].
        * destruct I as [<-|I]; [congruence|]. exists h'. auto.
  Qed.
  Lemma ready_nth st i s e : ready md5 nss els st -> nth_error schemas i = Some s -> nth_error els i = Some e ->
    assoc ("Schema_" ++ md5 (sp_tns s))%string (st_names st) = Some (WvSchema e).
  Proof.
    unfold ready, schemas_bound, nss. clear Hhex. intros R. revert i R. revert els. induction schemas as [|x l IH]; intros es i R Hs He; [now destruct i|].
    cbn [map] in R. inversion R as [|? ? ? ? H1 H2]; subst. destruct i as [|i]; cbn [nth_error] in Hs, He.
    - injection Hs as ->. injection He as ->. exact H1.
    - eapply IH; eauto.
  Qed.

  (** The names of the blocks are among [named]. *)
  Definition follows (h : heads) : Prop := forall i e p n, first_schema schemas (hd_parts h) i -> nth_error els i = Some e ->
    In p (hd_parts h) -> assoc (pp_element p) e = Some n -> named (pp_name p) n.
  Lemma exec_heads st h : okst st -> usable_heads schemas els h -> follows h -> hd_parts h <> [] ->
    exists st' c, exec_stmt rt base st (heads_stmt md5 schemas h) = Ok st' /\ later (eq (heads_name h)) st st' /\
      lookup st' (heads_name h) = Ok (WvClass c) /\ c < length (w_classes (st_world st')) /\ heads_class (st_world st') schemas els (hd_parts h) (Some c).
  Proof.
    intros O (Um & Nd & Up & W) Fo NE. destruct (W NE) as (i & e & Fw & He & Ha). destruct (first_find _ _ _ Fw) as (s & Ef & Es).
    pose proof O as [R I (B1 & B2) El Ow].
    assert (Nm : identifier (heads_name h) = true) by (apply suffix_ident; [exact Um|vm_compute; reflexivity..]).
    unfold heads_stmt, exec_stmt. rewrite Nm. cbn [negb]. unfold heads_var. rewrite Ef. unfold lookup at 1.
    rewrite hex_ident by (apply Hhex; eapply nth_error_In; eauto). rewrite (ready_nth st i s e R Es He). cbn [bind].
    assert (NS : ~ In "SCHEMA" (map pp_name (hd_parts h))).
    { intros K. apply in_map_iff in K. destruct K as (p & E & K). rewrite Forall_forall in Up. destruct (Up p K) as (_ & X & _). congruence. }
    rewrite (entries_ok e (hd_parts h) [("SCHEMA", AOther)] Up) by (cbn [map fst app]; constructor; assumption). cbn [bind app].
    destruct (nth_error (w_classes (st_world st)) base) as [k|] eqn:Ek; [|apply nth_error_None in Ek; lia].
    set (dict := ("SCHEMA", AOther) :: map (field_of e) (hd_parts h)).
    assert (Ex : exists w', exec (st_world st) (DefClass dict (k_mro k)) = Ok w').
    { unfold exec. assert (K1 : forallb (known_attr (st_world st)) dict = true).
      { apply forallb_forall. intros x [<-|J]; [reflexivity|]. apply in_map_iff in J. destruct J as (p & <- & J). unfold known_attr, field_of. cbn [snd].
        destruct (Ha p J) as (n & En). rewrite En. apply Nat.ltb_lt. apply (El e (pp_element p)); [eapply nth_error_In; eauto|]. now apply assoc_in. }
      assert (K2 : forallb (fun c => (c <? length (w_classes (st_world st)))%nat) (k_mro k) = true).
      { apply forallb_forall. intros c J. apply Nat.ltb_lt. pose proof (i_mro _ I base k Ek) as F. rewrite Forall_forall in F. now apply F. }
      rewrite K1, K2. cbn [andb]. destruct (build_meta _ _ _) as [a b]. eauto. }
    destruct Ex as (w' & Ex). rewrite Ex. cbn [bind].
    set (c := length (w_classes (st_world st))). exists (bind_name (mkWst w' (st_names st)) (heads_name h) (WvClass c)), c.
    assert (Gw : grows (st_world st) w') by (exists [DefClass dict (k_mro k)]; unfold exec_all; cbn [foldM]; now rewrite Ex).
    pose proof (exec_def _ _ _ _ Ex) as (k' & EC & Kd & Km & Kf & _).
    assert (Nk : nth_error (w_classes w') c = Some k') by (unfold c; rewrite EC, nth_error_app2, Nat.sub_diag by auto; reflexivity).
    assert (Lc : lineage w' c = c :: k_mro k) by (unfold lineage; rewrite Nk; exact Km).
    assert (Hfs : forall name n, has_field w' c name n <-> exists q, In q (hd_parts h) /\ pp_name q = name /\ assoc (pp_element q) e = Some n).
    { intros name n. rewrite <- (fields_assoc e (hd_parts h) name n Nd NS). fold dict. split.
      - intros (before & b & after & E & D & Hb). rewrite Lc in E. destruct before as [|x before]; cbn [app] in E.
        + injection E as <- _. destruct D as (k2 & E2 & D). rewrite Nk in E2. injection E2 as <-. now rewrite Kd in D.
        + exfalso. injection E as _ E. assert (Ib : In b (k_mro k)) by (rewrite E; apply in_or_app; right; now left).
          rewrite Forall_forall in Kf. specialize (Kf b Ib). apply (old_declares _ _ _ EC) in D; [|exact Kf].
          apply (B2 b name (ADesc n)); [|exact D]. unfold lineage. now rewrite Ek.
      - intros E. exists [], c, (k_mro k). split; [exact Lc|]. split; [exists k'; split; [exact Nk|now rewrite Kd]|]. intros a v0 []. }
    split; [reflexivity|]. split; [|split; [|split]].
    - split; [|exact Gw|].
      + apply (grown_ok st); [exact O|exact Gw| |].
        * apply (ready_names st); [exact R|]. intros x Hx. cbn [bind_name st_names]. apply assoc_set_other.
          intros E. now apply (hex_headers x (hd_message h) Hx).
        * cbn [bind_name st_world]. intros x n d Hx. destruct (Nat.lt_ge_cases x c) as [Lx|Lx].
          -- destruct (grows_facts _ _ I Gw) as (_ & _ & _ & X). destruct (X x Lx) as (_ & _ & Y). apply (Ow x). now apply Y.
          -- assert (x = c) as ->.
             { destruct Hx as (b & y & a & E & _). unfold lineage in E. destruct (nth_error (w_classes w') x) as [kx|] eqn:Ex'; [|now destruct b].
               assert (x < length (w_classes w')) by (apply nth_error_Some; congruence). rewrite EC, app_length in H. cbn in H. unfold c in *. lia. }
             apply Hfs in Hx. destruct Hx as (q & Iq & <- & Eq). exact (Fo i e q d Fw He Iq Eq).
      + intros n Hn. cbn [bind_name st_names]. apply assoc_set_other. congruence.
    - unfold lookup. rewrite Nm. cbn [bind_name st_names]. now rewrite assoc_set_same.
    - cbn [bind_name st_world]. rewrite EC, app_length. cbn. unfold c. lia.
    - unfold heads_class. cbn [bind_name st_world]. destruct (hd_parts h) as [|q qs] eqn:Eh; [congruence|]. exists c, i, e. split; [reflexivity|]. split; [exact Fw|]. split; [exact He|]. exact Hfs.
  Qed.

  (** ** An operation *)
  Variable server : bool.
  (** The Method of an operation, given the classes of its header blocks. *)
  Definition hop_method (o : hop) (ih oh : option nat) : gmethod :=
    let p := ho_op o in
    mkGm (op_name p) (action_text p) (IOName (pp_element (op_in p))) (out_spec (op_out p)) (pp_name (op_in p))
      (match op_out p with Some q => pp_name q | None => "body" end) ih oh
      (if server then Some (plan_fn p) else None) (match op_style p with Some s => s | None => "document" end).
  Definition class_at (st : wstate) (h : heads) (oc : option nat) : Prop :=
    match hd_parts h with [] => oc = None | _ => exists c, oc = Some c /\ lookup st (heads_name h) = Ok (WvClass c) end.
  Lemma heads_arg st o (x : string) h oc kw : class_at st h oc -> kw = hop_kw server o ->
    (x = "input_header" /\ h = ho_in o) \/ (x = "output_header" /\ h = ho_out o) -> header_value st kw x = Ok oc.
  Proof.
    intros C -> X. unfold header_value, hop_kw, heads_kw.
    destruct X as [(-> & ->)|(-> & ->)]; unfold class_at in C.
    - destruct (hd_parts (ho_in o)) as [|q qs].
      + subst oc. destruct server, (op_out (ho_op o)), (op_style (ho_op o)), (hd_parts (ho_out o)); reflexivity.
      + destruct C as (c & -> & L). destruct server; cbn [app assoc String.eqb Ascii.eqb Bool.eqb]; rewrite L; reflexivity.
    - destruct (hd_parts (ho_out o)) as [|q qs].
      + subst oc. destruct server, (op_out (ho_op o)), (op_style (ho_op o)), (hd_parts (ho_in o)); reflexivity.
      + destruct C as (c & -> & L). destruct server, (op_out (ho_op o)), (hd_parts (ho_in o)); cbn [app assoc String.eqb Ascii.eqb Bool.eqb]; rewrite L; reflexivity.
  Qed.
  Lemma exec_hmethod o st ih oh : usable_op (ho_op o) -> (server = true -> assoc (op_name (ho_op o)) (st_names st) = Some (WvFunction (plan_fn (ho_op o)))) ->
    class_at st (ho_in o) ih -> class_at st (ho_out o) oh ->
    exec_stmt rt base st (SMethod (op_name (ho_op o) ++ "_method") (hop_kw server o)) =
      Ok (binds st [((op_name (ho_op o) ++ "_method")%string, WvMethod (hop_method o ih oh))]).
  Proof.
    intros U F Ci Co. pose proof (method_ident _ U) as MI. destruct U as (N & (I & Ip) & O & A & S). unfold exec_stmt. rewrite MI. cbn [negb].
    pose proof (heads_arg st o "input_header" (ho_in o) ih _ Ci eq_refl (or_introl (conj eq_refl eq_refl))) as Hi.
    pose proof (heads_arg st o "output_header" (ho_out o) oh _ Co eq_refl (or_intror (conj eq_refl eq_refl))) as Ho.
    set (p := ho_op o) in *.
    assert (Qa : literal rt false (action_text p) = Ok (action_text p)).
    { apply quotable_literal. unfold action_text. destruct (op_action p) as [a|]; [now apply A|]. split.
      - intros c Hc Hd. cbn in Hc, Hd. unfold holds in *. cbn in *. intuition congruence.
      - split; intros H; cbn in H; intuition discriminate. }
    assert (Qi : literal rt false (pp_element (op_in p)) = Ok (pp_element (op_in p))) by now apply usable_literal.
    assert (Qp : literal rt false (pp_name (op_in p)) = Ok (pp_name (op_in p))) by now apply quotable_literal.
    assert (Qn : literal rt false (op_name p) = Ok (op_name p)) by now apply usable_literal.
    assert (Ff : function_value st (hop_kw server o) = Ok (if server then Some (plan_fn p) else None)).
    { unfold function_value, hop_kw, heads_kw. fold p. destruct server.
      - cbn [app assoc String.eqb Ascii.eqb Bool.eqb]. unfold lookup. rewrite (usable_ident _ N), (F eq_refl). reflexivity.
      - destruct (op_out p), (op_style p), (hd_parts (ho_in o)), (hd_parts (ho_out o)); reflexivity. }
    unfold new_method. rewrite Ff. cbn [bind].
    assert (X : text_arg rt (hop_kw server o) "soapAction" "" = Ok (action_text p)) by
      (unfold text_arg, hop_kw; fold p; destruct server; cbn [app assoc String.eqb Ascii.eqb Bool.eqb]; exact Qa). rewrite X. cbn [bind].
    assert (X2 : io_arg rt st (hop_kw server o) "input" = Ok (IOName (pp_element (op_in p)))) by
      (unfold io_arg, hop_kw; fold p; destruct server; cbn [app assoc String.eqb Ascii.eqb Bool.eqb]; rewrite Qi; reflexivity). rewrite X2. cbn [bind].
    assert (X3 : text_arg rt (hop_kw server o) "inputPartName" "body" = Ok (pp_name (op_in p))) by
      (unfold text_arg, hop_kw; fold p; destruct server; cbn [app assoc String.eqb Ascii.eqb Bool.eqb]; exact Qp). rewrite X3. cbn [bind].
    rewrite Hi. cbn [bind].
    assert (X5 : io_arg rt st (hop_kw server o) "output" = Ok (out_spec (op_out p))).
    { unfold io_arg, hop_kw, heads_kw. fold p. destruct (op_out p) as [q|].
      - destruct (O q eq_refl) as (Pe & _). destruct server, (hd_parts (ho_in o)); cbn [app assoc String.eqb Ascii.eqb Bool.eqb]; rewrite (usable_literal rt false _ Pe); reflexivity.
      - destruct server, (op_style p), (hd_parts (ho_in o)), (hd_parts (ho_out o)); reflexivity. }
    rewrite X5. cbn [bind].
    assert (X6 : text_arg rt (hop_kw server o) "outputPartName" "body" = Ok (match op_out p with Some q => pp_name q | None => "body" end)).
    { unfold text_arg, hop_kw, heads_kw. fold p. destruct (op_out p) as [q|].
      - destruct (O q eq_refl) as (_ & Pn). destruct server, (hd_parts (ho_in o)); cbn [app assoc String.eqb Ascii.eqb Bool.eqb]; apply quotable_literal, Pn.
      - destruct server, (op_style p), (hd_parts (ho_in o)), (hd_parts (ho_out o)); reflexivity. }
    rewrite X6. cbn [bind]. rewrite Ho. cbn [bind].
    assert (X7 : text_arg rt (hop_kw server o) "operationName" "" = Ok (op_name p)) by
      (unfold text_arg, hop_kw, heads_kw; fold p; destruct server, (op_out p), (hd_parts (ho_in o)), (hd_parts (ho_out o));
       cbn [app assoc String.eqb Ascii.eqb Bool.eqb]; exact Qn). rewrite X7. cbn [bind].
    assert (X8 : text_arg rt (hop_kw server o) "style" "document" = Ok (match op_style p with Some s => s | None => "document" end)).
    { unfold text_arg, hop_kw, heads_kw. fold p. destruct (op_style p) as [s|].
      - destruct (S s eq_refl) as (Qs & _). destruct server, (op_out p), (hd_parts (ho_in o)), (hd_parts (ho_out o)); cbn [app assoc String.eqb Ascii.eqb Bool.eqb];
          now apply quotable_literal.
      - destruct server, (op_out p), (hd_parts (ho_in o)), (hd_parts (ho_out o)); reflexivity. }
    rewrite X8. reflexivity.
  Qed.
End E.
