(** Proofs about the header blocks of generated services: the statements (C91). *)
From Coq Require Import String Ascii List ZArith NArith Bool Lia.
From Verif Require Import PyBase PfBase PyVal XsdSimple XsdComplex XsdMeta PyHttp Soap Client Dispatch LibClasses Py2Xsd Py2Wsdl GenNames
  Xsd2Py PyLoad PyUrl PfUrl SpecUrl Wsdl2Py PyService SpecNames SpecGenCode SpecMeta SpecService SpecHeaders PfGenCode PfService PfService2 PfService3 PfService4.
Import ListNotations.
Open Scope nat_scope.
Open Scope string_scope.
Open Scope list_scope.

Lemma mapM_forall2_res {A B C} (f : A -> res C) (R : A -> B -> Prop) (Q : C -> B -> Prop) l l' :
  Forall2 R l l' -> (forall x y, R x y -> exists z, f x = Ok z /\ Q z y) -> exists zs, mapM f l = Ok zs /\ Forall2 Q zs l'.
Proof.
  intros F K. induction F as [|x y l l' H F (zs & E & G)]; [exists []; now split|]. destruct (K x y H) as (z & Ez & Qz).
  exists (z :: zs). cbn [mapM]. rewrite Ez. cbn [bind]. rewrite E. split; [reflexivity|now constructor].
Qed.

(** ** Reading the document *)
Definition part_says (part : pyval) (p : part_plan) : Prop :=
  exists eref, has part "element" (VStr eref) /\ refers_to eref (pp_element p) /\ pp_element p <> "" /\ has part "name" (VStr (pp_name p)).
Lemma called_name o coll n x : first_called o coll n x -> has x "name" (VStr n).
Proof. now intros (b & before & after & _ & H & _). Qed.
Lemma head_found d h p : states_head d h p ->
  exists part, (messages <- py_get d "messages" ;; m <- py_get h "message" ;; message <- get_by_name messages m ;;
                parts <- py_get message "parts" ;; p <- py_get h "part" ;; get_by_name parts p) = Ok part /\ part_says part p.
Proof.
  intros (mref & mname & m & pref & part & eref & H1 & H2 & H3 & H4 & H5 & H6 & H7 & H8 & H9). exists part. split.
  - destruct (called_found _ _ _ _ mref H3 (refers_last _ _ H2)) as (l & -> & E). cbn [bind]. rewrite (has_get _ _ _ H1). cbn [bind]. rewrite E. cbn [bind].
    destruct (called_found _ _ _ _ pref H6 (refers_last _ _ H5)) as (l' & -> & E'). cbn [bind]. rewrite (has_get _ _ _ H4). exact E'.
  - exists eref. repeat split; auto; try apply H8. now apply (called_name m "parts").
Qed.
Lemma heads_found d op x hs : states_heads d op x hs ->
  exists r, get_message_header d op x = Ok r /\ Forall2 part_says (match r with VList _ l => l | _ => [] end) hs.
Proof.
  intros (io & H & C). unfold get_message_header. rewrite (has_get _ _ _ H). cbn [bind].
  destruct C as [(-> & ->)|(b & l & Hl & F)]; [exists VNone; now split|]. pose proof (has_object _ _ _ Hl) as N.
  rewrite (has_get _ _ _ Hl). cbn [bind].
  destruct (mapM_forall2_res _ _ _ _ _ F (head_found d)) as (zs & E & G). rewrite E. cbn [bind].
  exists (VList false zs). split; [destruct io; congruence|exact G].
Qed.
Lemma has_element_ok n s p : states_schema s p -> has_element (VStr n) s = Ok (str_in n (sp_elements p)).
Proof.
  intros (_ & f & l & H & F). unfold has_element. rewrite (has_get _ _ _ H). cbn [bind jlist].
  assert (K : forall b, foldM (fun b e => x <- py_get e "name" ;; Ok (b || py_eqb x (VStr n))) b l = Ok (b || str_in n (sp_elements p))).
  { clear H. induction F as [|e m l ms H F IH]; intros b; [cbn; now rewrite orb_false_r|]. cbn [foldM]. rewrite (has_get _ _ _ H). cbn [bind].
    rewrite IH. f_equal. change (py_eqb (VStr m) (VStr n)) with (String.eqb m n). rewrite String.eqb_sym, <- orb_assoc. reflexivity. }
  exact (K false).
Qed.

Definition has_all (hs : list part_plan) (s : schema_plan) : bool := forallb (fun h => str_in (pp_element h) (sp_elements s)) hs.
Lemma has_all_in hs s : has_all hs s = true <-> forall h, In h hs -> In (pp_element h) (sp_elements s).
Proof. unfold has_all. rewrite forallb_forall. split; intros H h I; apply str_in_spec, H, I. Qed.
Lemma first_find schemas hs i : first_schema schemas hs i -> exists s, find (has_all hs) schemas = Some s /\ nth_error schemas i = Some s.
Proof.
  intros (before & s & after & -> & <- & A & B). exists s. split; [|rewrite nth_error_app2, Nat.sub_diag by auto; reflexivity].
  induction B as [|t before (h & I & N) B IH]; cbn [app find].
  - now rewrite (proj2 (has_all_in hs s) A).
  - destruct (has_all hs t) eqn:E; [|exact IH]. rewrite has_all_in in E. elim N. now apply E.
Qed.
Lemma remove_refers eref n : refers_to eref n -> n <> "" -> py_remove_namespace (VStr eref) = VStr n.
Proof.
  intros R N. pose proof (refers_nonempty _ _ R N) as NE. unfold py_remove_namespace, remove_namespace. destruct eref as [|c s]; [congruence|].
  now rewrite (refers_last _ _ R).
Qed.
Lemma select_ok l schemas parts hs s : Forall2 states_schema l schemas -> Forall2 part_says parts hs -> find (has_all hs) schemas = Some s ->
  exists elements x, mapM (fun p => py_get p "element") parts = Ok elements /\ schema_select l elements = Ok x /\ states_schema x s.
Proof.
  intros F P E.
  destruct (mapM_forall2_res (fun p => py_get p "element") part_says (fun v h => exists eref, v = VStr eref /\ refers_to eref (pp_element h) /\ pp_element h <> "") _ _ P) as (els & E1 & G).
  { intros part h (eref & H1 & H2 & H3 & _). exists (VStr eref). split; [now apply has_get|eauto]. }
  exists els. assert (K : forall x sx, states_schema x sx -> forall b,
    foldM (fun (b : bool) e => if b then has_element (py_remove_namespace e) x else Ok false) b els = Ok (b && has_all hs sx)%bool).
  { intros x sx Hx. clear - G Hx. induction G as [|v h els hs (eref & -> & R & N) G IH]; intros b; [cbn; now rewrite andb_true_r|]. cbn [foldM has_all forallb].
    destruct b; cbn [bind andb].
    - rewrite (remove_refers _ _ R N), (has_element_ok _ _ _ Hx). cbn [bind]. rewrite IH. reflexivity.
    - rewrite IH. reflexivity. }
  induction F as [|x sx l schemas Hx F IH]; [discriminate|]. cbn [find] in E. cbn [schema_select]. rewrite (K x sx Hx true). cbn [bind andb].
  destruct (has_all hs sx); [injection E as <-; exists x; auto|]. apply IH, E.
Qed.

(** ** The statements of an operation *)
Section H.
  Variables (md5 : string -> string) (schemas : list schema_plan).
  Definition heads_name (h : heads) : string := (hd_message h ++ "Headers")%string.
  Definition heads_var (hs : list part_plan) : string :=
    ("Schema_" ++ md5 (match find (has_all hs) schemas with Some s => sp_tns s | None => "" end))%string.
  Definition heads_stmt (h : heads) : wstmt :=
    SHeaders (heads_name h) (heads_var (hd_parts h)) (map (fun p => (pp_name p, WText (pp_element p))) (hd_parts h)).
  Definition heads_stmts (h : heads) : list wstmt := match hd_parts h with [] => [] | _ => [heads_stmt h] end.
  Definition heads_kw (x : string) (h : heads) : list (string * wexpr) := match hd_parts h with [] => [] | _ => [(x, WName (heads_name h))] end.
  Definition hop_kw (server : bool) (o : hop) : list (string * wexpr) :=
    let p := ho_op o in
    (if server then [("function", WName (op_name p))] else []) ++
    [("soapAction", WText (action_text p))] ++
    [("input", WText (pp_element (op_in p))); ("inputPartName", WText (pp_name (op_in p)))] ++
    heads_kw "input_header" (ho_in o) ++
    (match op_out p with Some q => [("output", WText (pp_element q)); ("outputPartName", WText (pp_name q))] | None => [] end) ++
    heads_kw "output_header" (ho_out o) ++
    [("operationName", WText (op_name p))] ++
    (match op_style p with Some s => [("style", WText s)] | None => [] end).
  Definition hop_stmts (server : bool) (o : hop) : list wstmt :=
    heads_stmts (ho_in o) ++ heads_stmts (ho_out o) ++ [SMethod (op_name (ho_op o) ++ "_method") (hop_kw server o)].

  Variable (d : pyval).
  Hypothesis Hsch : exists types f l, has d "types" types /\ has types "schemas" (VList f l) /\ Forall2 states_schema l schemas.
  Lemma header_code m h parts : has m "name" (VStr (hd_message h)) -> Forall2 part_says parts (hd_parts h) ->
    (hd_parts h <> [] -> exists i, first_schema schemas (hd_parts h) i) ->
    header_class md5 d (JVal m) parts = Ok (heads_stmts h).
  Proof.
    intros N P W. unfold heads_stmts. destruct (hd_parts h) as [|q qs] eqn:Eh.
    - inversion P; subst. reflexivity.
    - assert (NE : parts <> []) by (inversion P; discriminate).
      unfold header_class. destruct parts as [|x parts]; [congruence|]. rewrite (has_jattr _ _ _ N). cbn [bind].
      destruct Hsch as (types & f & l & T & S & F). unfold doc_schemas. rewrite (has_jattr _ _ _ T). cbn [bind]. rewrite (has_jattr _ _ _ S). cbn [bind jiter jlist].
      destruct W as (i & W); [discriminate|]. destruct (first_find _ _ _ W) as (s & Es & _).
      destruct (select_ok _ _ _ _ _ F P Es) as (els & y & E1 & E2 & Hy). rewrite E1. cbn [bind]. rewrite E2. cbn [bind].
      assert (V : schema_var md5 y = Ok (heads_var (q :: qs))).
      { unfold schema_var, schema_name, heads_var. rewrite Es. destruct Hy as (Hy & _). rewrite (has_get _ _ _ Hy).
        pose proof (has_object _ _ _ Hy). destruct y; try congruence; reflexivity. }
      rewrite V. cbn [bind].
      assert (M : mapM (fun p => e <- jattr (JVal p) "element" ;; n <- jattr (JVal p) "name" ;;
                     if jtrue e then Ok (jprint n, WText (jlocal e))
                     else t <- jattr (JVal p) "type" ;; c <- jclass t ;; Ok (jprint n, WName c)) (x :: parts) =
                  Ok (map (fun p => (pp_name p, WText (pp_element p))) (q :: qs))).
      { eapply mapM_forall2; [exact P|]. intros a b _ (eref & H1 & H2 & H3 & H4). rewrite (has_jattr _ _ _ H1). cbn [bind].
        rewrite (has_jattr _ _ _ H4). cbn [bind jtrue py_truthy]. destruct (String.eqb_spec eref ""); [now elim (refers_nonempty _ _ H2 H3)|].
        cbn [negb jprint jtext jlocal]. now rewrite (refers_local _ _ H2 H3). }
      rewrite M. cbn [bind jprint jtext]. unfold heads_stmt, heads_name. now rewrite Eh.
  Qed.
  Lemma header_arg_code x m h parts : has m "name" (VStr (hd_message h)) -> Forall2 part_says parts (hd_parts h) ->
    header_arg x (JVal m) parts = Ok (heads_kw x h).
  Proof.
    intros N P. unfold heads_kw, header_arg. destruct (hd_parts h) as [|q qs]; inversion P; subst; [reflexivity|].
    now rewrite (has_jattr _ _ _ N).
  Qed.
  Lemma message_named b op n pto x m name : has op "name" (VStr n) -> abstract_op d b n pto -> message_called d pto x name ->
    get_message_object d b op x = Ok m -> has m "name" (VStr name).
  Proof.
    intros On A (io & ref & m' & H1 & H2 & H3 & H4) E.
    rewrite (message_found d b op n pto x m' On A) in E; [injection E as <-; now apply (called_name d "messages")|]. exists io, ref, name. auto.
  Qed.

  Variable server : bool.
  Definition chosen_heads (h : heads) : Prop := hd_parts h <> [] -> exists i, first_schema schemas (hd_parts h) i.
  Lemma hop_code b op o : states_hop d b op o -> (forall s, op_style (ho_op o) = Some s -> s <> "") ->
    chosen_heads (ho_in o) -> chosen_heads (ho_out o) -> op_method md5 server d b op = Ok (hop_stmts server o).
  Proof.
    intros (N & Hi & Ho & (so & S & A & St) & pto & Ab & I & Mi & O) Hst Ci Co. unfold op_method.
    destruct (takes_facts _ _ _ _ _ _ _ N Ab I) as (im & EI & FI). rewrite EI. cbn [bind res_map].
    pose proof (message_named _ _ _ _ _ _ _ N Ab Mi EI) as Ni.
    assert (HO : exists om, get_message_object d b op "output" = Ok om /\
                 message_args "output" "outputPartName" (JVal om) =
                   Ok (match op_out (ho_op o) with Some p => [("output", WText (pp_element p)); ("outputPartName", WText (pp_name p))] | None => [] end) /\
                 (has om "name" (VStr (hd_message (ho_out o))) \/ hd_parts (ho_out o) = [])).
    { destruct (op_out (ho_op o)) as [p|].
      - destruct O as (O & Mo). destruct (takes_facts _ _ _ _ _ _ _ N Ab O) as (om & EO & FO). exists om. split; [exact EO|]. split; [now apply message_args_facts|].
        left. exact (message_named _ _ _ _ _ _ _ N Ab Mo EO).
      - destruct O as (O & Z). exists VNone. split; [eapply message_absent; eauto|]. split; [reflexivity|now right]. }
    destruct HO as (om & EO & FO & No). rewrite EO. cbn [bind res_map].
    destruct (heads_found _ _ _ _ Hi) as (ri & -> & Ri). cbn [bind]. destruct (heads_found _ _ _ _ Ho) as (ro & -> & Ro). cbn [bind].
    rewrite (header_code im (ho_in o) _ Ni Ri Ci). cbn [bind].
    assert (X : header_class md5 d (JVal om) (match ro with VList _ l => l | _ => [] end) = Ok (heads_stmts (ho_out o)) /\
                header_arg "output_header" (JVal om) (match ro with VList _ l => l | _ => [] end) = Ok (heads_kw "output_header" (ho_out o))).
    { destruct No as [No|Z].
      - split; [now apply header_code|now apply header_arg_code].
      - unfold heads_stmts, heads_kw. rewrite Z in *. inversion Ro as [E|]. split; reflexivity. }
    destruct X as (X1 & X2). rewrite X1. cbn [bind]. rewrite (has_jattr _ _ _ N). cbn [bind].
    rewrite (has_jattr _ _ _ S). cbn [bind]. rewrite (has_jattr _ _ _ A). cbn [bind].
    rewrite (message_args_facts _ _ _ _ FI). cbn [bind]. rewrite (header_arg_code _ im (ho_in o) _ Ni Ri). cbn [bind].
    rewrite FO. cbn [bind]. rewrite X2. cbn [bind]. rewrite (has_jattr _ _ _ St). cbn [bind jprint jtext].
    unfold hop_stmts, hop_kw, action_text.
    assert (Q : jtext (maybe (op_action (ho_op o))) = match op_action (ho_op o) with Some a => a | None => "None" end) by now destruct (op_action (ho_op o)).
    rewrite Q. destruct (op_style (ho_op o)) as [s|]; cbn [maybe jtrue py_truthy jtext]; [|reflexivity].
    destruct (String.eqb_spec s "") as [-> | K]; [now destruct (Hst "")|reflexivity].
  Qed.
  Lemma hop_call b op o : states_hop d b op o -> op_call d b op = Ok (op_name (ho_op o), pp_element (op_in (ho_op o))).
  Proof.
    intros (N & Hi & Ho & _ & pto & Ab & I & _). unfold op_call.
    destruct (takes_facts _ _ _ _ _ _ _ N Ab I) as (im & EI & (part & eref & P & E & Pn & L & NE & _)). rewrite EI. cbn [bind res_map].
    rewrite (has_jattr _ _ _ N). cbn [bind]. rewrite P. cbn [bind]. rewrite E. cbn [bind jprint jtext jlocal]. now rewrite L.
  Qed.
  Lemma hop_function b op o : states_hop d b op o -> op_out (ho_op o) <> None -> op_function d b op = Ok (fn_stmt (ho_op o)).
  Proof.
    intros (N & Hi & Ho & _ & pto & Ab & I & _ & O) NN. unfold op_function.
    destruct (takes_facts _ _ _ _ _ _ _ N Ab I) as (im & EI & (part & eref & P & E & Pn & L & NE & _)). rewrite EI. cbn [bind res_map].
    unfold fn_stmt, out_text. destruct (op_out (ho_op o)) as [p|]; [|congruence]. destruct O as (O & _).
    destruct (takes_facts _ _ _ _ _ _ _ N Ab O) as (om & EO & (part' & eref' & P' & E' & Pn' & L' & NE' & _)). rewrite EO. cbn [bind res_map].
    rewrite (has_jattr _ _ _ N). cbn [bind]. rewrite P. cbn [bind]. rewrite E. cbn [bind]. rewrite P'. cbn [bind]. rewrite E'.
    cbn [bind jprint jtext jlocal]. now rewrite L, L'.
  Qed.

  (** ** A port *)
  Variables (checked : string -> bool) (v : soapver) (tns : string).
  Hypothesis Htns : has d "targetNamespace" (VStr tns).
  Definition hport_stmts (p : hport) : list wstmt :=
    (if server then map fn_stmt (map ho_op (hp_ops p)) else []) ++ flat_map (hop_stmts server) (hp_ops p) ++
    [service_stmt md5 v tns (map sp_tns schemas) (bare p)] ++ (if server then [] else [stub_stmt (bare p)]).
  Lemma schemas_plain : exists types f l, has d "types" types /\ has types "schemas" (VList f l) /\
     Forall2 (fun s ns => has s "targetNamespace" (VStr ns)) l (map sp_tns schemas).
  Proof.
    destruct Hsch as (types & f & l & T & S & F). exists types, f, l. split; [exact T|]. split; [exact S|]. clear - F.
    induction F as [|x s l ss (H & _) F IH]; constructor; assumption.
  Qed.
  Lemma hport_code s port p : states_hport d port p -> usable_port (bare p) -> (server = true -> Forall (fun o => op_out (ho_op o) <> None) (hp_ops p)) ->
    Forall (fun o => chosen_heads (ho_in o) /\ chosen_heads (ho_out o)) (hp_ops p) -> first_address checked server s ->
    port_code md5 checked server v d s port = Ok (hport_stmts p).
  Proof.
    intros (N & (a & A & L) & b & bb & f & ops & B & Hbb & T & St & O & F) U So Ch Fa. unfold first_address in Fa.
    destruct (bound_found _ _ _ B) as (bl & ref & E1 & E2 & E3).
    unfold port_code. rewrite E1. cbn [bind]. rewrite E2. cbn [bind]. rewrite E3. cbn [bind]. rewrite (has_jattr _ _ _ Hbb). cbn [bind].
    rewrite (has_jattr _ _ _ T). cbn [bind]. change (py_eqb (VStr soap_http) (VStr ns_soap_http)) with true. cbn [negb].
    rewrite (has_jattr _ _ _ O). cbn [bind jiter jlist].
    destruct (address_ok (bare p) U checked) as (T1 & T2 & T3). cbn [bare po_address po_name po_ops] in T1, T2, T3.
    assert (M : mapM (op_method md5 server d b) ops = Ok (map (hop_stmts server) (hp_ops p))).
    { eapply mapM_forall2; [exact F|]. intros x y I H. rewrite Forall_forall in Ch. destruct (Ch y I) as (C1 & C2).
      apply hop_code; [exact H| |exact C1|exact C2]. intros s0 E. destruct U as (_ & _ & _ & _ & Uo & _).
      rewrite Forall_forall in Uo. destruct (Uo (ho_op y)) as (_ & _ & _ & _ & K); [cbn; now apply in_map|]. now destruct (K s0 E). }
    assert (Fn : (if server then mapM (op_function d b) ops else Ok []) = Ok (if server then map fn_stmt (map ho_op (hp_ops p)) else [])).
    { destruct server; [|reflexivity]. rewrite map_map. eapply mapM_forall2; [exact F|]. intros x y I H. apply hop_function; [exact H|].
      specialize (So eq_refl). rewrite Forall_forall in So. apply (So y I). }
    rewrite Fn. cbn [bind]. rewrite M. cbn [bind]. rewrite (has_jattr _ _ _ N). cbn [bind]. rewrite (has_jattr _ _ _ Htns). cbn [bind].
    rewrite (has_jattr _ _ _ A). cbn [bind]. rewrite (has_jattr _ _ _ L). cbn [bind jurl]. rewrite T1. cbn [bind].
    destruct (doc_schemas_ok md5 d (map sp_tns schemas) schemas_plain) as (sl & S1 & S2). rewrite S1. cbn [bind]. rewrite S2. cbn [bind].
    assert (Nm : mapM (fun o => n <- jattr (JVal o) "name" ;; Ok (jprint n ++ "_method")%string) ops =
                 Ok (map (fun o => op_name o ++ "_method")%string (map ho_op (hp_ops p)))).
    { rewrite map_map. eapply mapM_forall2; [exact F|]. intros x y I (H & _). now rewrite (has_jattr _ _ _ H). }
    rewrite Nm. cbn [bind jprint jtext]. unfold hport_stmts. rewrite <- flat_map_concat_map.
    destruct server.
    - destruct (Fa eq_refl) as (g & q & l & a' & loc & u & F1 & F2 & F3 & F4). rewrite (has_get _ _ _ F1). cbn [bind jlist].
      rewrite (has_jattr _ _ _ F2). cbn [bind]. rewrite (has_jattr _ _ _ F3). cbn [bind jurl]. rewrite F4. reflexivity.
    - rewrite T2. cbn [bind]. rewrite T3. cbn [bind].
      assert (C : mapM (op_call d b) ops = Ok (map (fun o => (op_name o, pp_element (op_in o))) (map ho_op (hp_ops p)))).
      { rewrite map_map. eapply mapM_forall2; [exact F|]. intros x y I H. now apply hop_call. }
      rewrite C. reflexivity.
  Qed.
End H.
