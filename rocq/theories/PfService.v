(** Proofs about services generated from WSDL: the statements (C74). *)
From Coq Require Import String Ascii List ZArith NArith Bool Lia.
From Verif Require Import PyBase PfBase PyVal XsdSimple XsdComplex XsdMeta PyHttp Soap Client Dispatch LibClasses Py2Xsd Py2Wsdl GenNames
  Xsd2Py PyLoad PyUrl PfUrl SpecUrl Wsdl2Py PyService SpecNames SpecGenCode SpecService PfGenCode.
Import ListNotations.
Open Scope nat_scope.
Open Scope string_scope.
Open Scope list_scope.

(** ** Looking things up *)
Lemma has_get o n v : has o n v -> py_get o n = Ok v.
Proof. intros (c & xe & fs & -> & E). unfold py_get, obj_parts, getattr. cbn. now rewrite E. Qed.
Lemma has_jattr o n v : has o n v -> jattr (JVal o) n = Ok (JVal v).
Proof. intros (c & xe & fs & -> & E). unfold jattr. now rewrite E. Qed.
Lemma has_fun o n v w : has o n v -> has o n w -> v = w.
Proof. intros (c & xe & fs & -> & E) (c' & xe' & fs' & [= <- <- <-] & E'). congruence. Qed.
Lemma has_object o n v : has o n v -> o <> VNone.
Proof. intros (c & xe & fs & -> & E). discriminate. Qed.

Lemma last_cons {A} (x y : A) l d : last (x :: y :: l) d = last (y :: l) d.
Proof. reflexivity. Qed.
Lemma split_last c a n : ~ In c n -> last (split_l c (a ++ c :: n)) [] = n.
Proof.
  intros N. assert (S1 : split_l c n = [n]).
  { induction n as [|x n IH]; [reflexivity|]. cbn [split_l]. destruct (Ascii.eqb_spec x c) as [-> | Q]; [destruct N; now left|].
    rewrite IH; [reflexivity|]. intros H. apply N. now right. }
  induction a as [|x a IH]; cbn [app split_l].
  - rewrite Ascii.eqb_refl, S1. reflexivity.
  - assert (T : exists p q l, split_l c (a ++ c :: n) = p :: q :: l).
    { clear. induction a as [|y a (p & q & l & E)]; cbn [app split_l].
      - rewrite Ascii.eqb_refl. destruct (split_l c n) as [|p l] eqn:E; [|now exists [], p, l].
        destruct n as [|x n]; [discriminate|]. cbn in E. destruct (Ascii.eqb x c); [discriminate|]. destruct (split_l c n); discriminate.
      - rewrite E. destruct (Ascii.eqb y c); [now exists [], p, (q :: l)|now exists (y :: p), q, l]. }
    destruct T as (p & q & l & E). rewrite E in *. destruct (Ascii.eqb x c); exact IH.
Qed.
Lemma refers_last ref n : refers_to ref n -> last (str_split ":" ref) "" = n.
Proof.
  intros (C & H). unfold str_split. change "" with (of_l []).
  assert (M : forall l, last (map of_l l) (of_l []) = of_l (last l [])).
  { induction l as [|x [|y l] IH]; try reflexivity. cbn [map] in *. rewrite !last_cons. exact IH. }
  rewrite M. destruct H as [-> | (p & ->)].
  - assert (S1 : split_l ":" (to_l n) = [to_l n]).
    { unfold colon_free in C. change (list_ascii_of_string n) with (to_l n) in C. induction (to_l n) as [|x l IH]; [reflexivity|]. cbn [split_l].
      destruct (Ascii.eqb_spec x ":") as [-> | Q]; [destruct C; now left|]. rewrite IH; [reflexivity|]. intros H. apply C. now right. }
    rewrite S1. apply of_to.
  - rewrite to_l_app. cbn [to_l list_ascii_of_string append]. rewrite split_last by exact C. apply of_to.
Qed.
Lemma refers_local ref n : refers_to ref n -> n <> "" -> local_part (VStr ref) = n.
Proof.
  intros R N. unfold local_part, remove_namespace. destruct ref as [|c ref].
  - destruct R as (_ & [<- | (p & E)]); [congruence|]. now destruct p.
  - apply refers_last. exact R.
Qed.
Lemma refers_nonempty ref n : refers_to ref n -> n <> "" -> ref <> "".
Proof. intros (_ & [-> | (p & ->)]) N; [exact N|]. now destruct p. Qed.

Lemma first_named_app before x after name :
  has x "name" (VStr name) -> Forall (fun y => exists n, has y "name" (VStr n) /\ n <> name) before ->
  first_named (before ++ x :: after) name = Ok x.
Proof.
  intros X. induction 1 as [|y before (n & Y & N) _ IH]; cbn [app first_named].
  - rewrite (has_get _ _ _ X). cbn. now rewrite String.eqb_refl.
  - rewrite (has_get _ _ _ Y). cbn. destruct (String.eqb_spec n name); [contradiction|]. exact IH.
Qed.
Lemma called_found o coll name x ref : first_called o coll name x -> last (str_split ":" ref) "" = name ->
  exists l, py_get o coll = Ok l /\ get_by_name l (VStr ref) = Ok x.
Proof.
  intros (b & before & after & H & N & F) R. exists (VList b (before ++ x :: after)). split; [now apply has_get|].
  cbn [get_by_name]. rewrite R. now apply first_named_app.
Qed.

Section D.
  Variables (d : pyval).
  Lemma message_found b op n pto x m : has op "name" (VStr n) -> abstract_op d b n pto -> message_at d pto x m ->
    get_message_object d b op x = Ok m.
  Proof.
    intros On (ref & tname & pt & T & R & P & C & F) (io & mref & mname & I & M & MR & MF).
    unfold get_message_object.
    destruct (called_found _ _ _ _ ref P (refers_last _ _ R)) as (l & -> & E). cbn [bind]. rewrite (has_get _ _ _ T). cbn [bind].
    rewrite E. cbn [bind]. clear E l.
    destruct (called_found _ _ _ _ n F) as (l & -> & E). { apply refers_last. split; [exact C|now left]. }
    cbn [bind]. rewrite (has_get _ _ _ On). cbn [bind]. rewrite E. cbn [bind]. clear E l.
    rewrite (has_get _ _ _ I). cbn [bind]. pose proof (has_object _ _ _ M) as NN.
    destruct (called_found _ _ _ _ mref MF (refers_last _ _ MR)) as (l & E1 & E). rewrite E1, (has_get _ _ _ M). cbn [bind].
    destruct io; auto. congruence.
  Qed.
  Lemma message_absent b op n pto x : has op "name" (VStr n) -> abstract_op d b n pto -> has pto x VNone ->
    get_message_object d b op x = Ok VNone.
  Proof.
    intros On (ref & tname & pt & T & R & P & C & F) I.
    unfold get_message_object.
    destruct (called_found _ _ _ _ ref P (refers_last _ _ R)) as (l & -> & E). cbn [bind]. rewrite (has_get _ _ _ T). cbn [bind].
    rewrite E. cbn [bind]. clear E l.
    destruct (called_found _ _ _ _ n F) as (l & -> & E). { apply refers_last. split; [exact C|now left]. }
    cbn [bind]. rewrite (has_get _ _ _ On). cbn [bind]. rewrite E. cbn [bind]. clear E l.
    now rewrite (has_get _ _ _ I).
  Qed.
  Lemma one_part m b part : has m "parts" (VList b [part]) -> jpart (JVal m) = Ok (JVal part).
  Proof.
    intros H. pose proof (has_object _ _ _ H) as N. unfold jpart. destruct m; try congruence;
      try (destruct H as (? & ? & ? & Q & _); discriminate Q).
    unfold message_part. rewrite (has_get _ _ _ H). reflexivity.
  Qed.

  (** What the template sees of a message. *)
  Definition part_facts (m : pyval) (p : part_plan) : Prop :=
    exists part eref, jpart (JVal m) = Ok (JVal part) /\ jattr (JVal part) "element" = Ok (JVal (VStr eref)) /\
      jattr (JVal part) "name" = Ok (JVal (VStr (pp_name p))) /\ local_part (VStr eref) = pp_element p /\ eref <> "" /\
      exists b x, jattr (JVal m) "parts" = Ok (JVal (VList b [x])).
  Lemma takes_facts b op n pto x p : has op "name" (VStr n) -> abstract_op d b n pto -> takes d pto x p ->
    exists m, get_message_object d b op x = Ok m /\ part_facts m p.
  Proof.
    intros On A (m & f & part & eref & M & P & N & E & R & NE). exists m. split; [eapply message_found; eauto|].
    exists part, eref. repeat split.
    - eapply one_part; eauto.
    - now apply has_jattr.
    - now apply has_jattr.
    - now apply refers_local.
    - eapply refers_nonempty; eauto.
    - exists f, part. now apply has_jattr.
  Qed.
  Lemma message_args_facts x part_arg m p : part_facts m p ->
    message_args x part_arg (JVal m) = Ok [(x, WText (pp_element p)); (part_arg, WText (pp_name p))].
  Proof.
    intros (part & eref & P & E & N & L & NE & f & y & Q). unfold message_args. rewrite Q. cbn [bind jtrue py_truthy].
    rewrite P. cbn [bind]. rewrite E. cbn [bind jtrue py_truthy]. destruct (String.eqb_spec eref ""); [contradiction|]. cbn [negb].
    rewrite N. cbn [bind jprint jtext jlocal]. now rewrite L.
  Qed.
  Lemma no_header op x : without_headers op -> In x ["input"; "output"] ->
    exists r, get_message_header d op x = Ok r /\ (match r with VList _ l => l | _ => [] end) = [].
  Proof.
    intros H I. destruct (H x I) as (io & Hio & C). unfold get_message_header. rewrite (has_get _ _ _ Hio). cbn [bind].
    destruct C as [-> | (b & C)]; [now exists VNone|]. pose proof (has_object _ _ _ C) as N.
    rewrite (has_get _ _ _ C). cbn [bind mapM]. exists (VList false []). split; [|reflexivity]. destruct io; congruence.
  Qed.

  Definition action_text (o : op_plan) : string := match op_action o with Some a => a | None => "None" end.
  Definition plan_kw (server : bool) (o : op_plan) : list (string * wexpr) :=
    (if server then [("function", WName (op_name o))] else []) ++
    [("soapAction", WText (action_text o))] ++
    [("input", WText (pp_element (op_in o))); ("inputPartName", WText (pp_name (op_in o)))] ++
    (match op_out o with Some p => [("output", WText (pp_element p)); ("outputPartName", WText (pp_name p))] | None => [] end) ++
    [("operationName", WText (op_name o))] ++
    (match op_style o with Some s => [("style", WText s)] | None => [] end).

  Variables (md5 : string -> string) (checked : string -> bool) (server : bool) (v : soapver).
  Lemma op_method_code b op o : states_operation d b op o -> (forall s, op_style o = Some s -> s <> "") ->
    op_method md5 server d b op = Ok [SMethod (op_name o ++ "_method") (plan_kw server o)].
  Proof.
    intros (N & W & (so & S & A & St) & pto & Ab & I & O) Hst. unfold op_method.
    destruct (takes_facts _ _ _ _ _ _ N Ab I) as (im & EI & FI). rewrite EI. cbn [bind res_map].
    assert (HO : exists om, get_message_object d b op "output" = Ok om /\
                 message_args "output" "outputPartName" (JVal om) =
                   Ok (match op_out o with Some p => [("output", WText (pp_element p)); ("outputPartName", WText (pp_name p))] | None => [] end)).
    { destruct (op_out o) as [p|].
      - destruct (takes_facts _ _ _ _ _ _ N Ab O) as (om & EO & FO). exists om. split; [exact EO|now apply message_args_facts].
      - exists VNone. split; [eapply message_absent; eauto|reflexivity]. }
    destruct HO as (om & EO & FO). rewrite EO. cbn [bind res_map].
    destruct (no_header op "input" W) as (ri & -> & Ri); [cbn; tauto|]. destruct (no_header op "output" W) as (ro & -> & Ro); [cbn; tauto|].
    cbn [bind]. rewrite Ri, Ro. cbn [header_class header_arg bind app]. rewrite (has_jattr _ _ _ N). cbn [bind].
    rewrite (has_jattr _ _ _ S). cbn [bind]. rewrite (has_jattr _ _ _ A). cbn [bind].
    rewrite (message_args_facts _ _ _ _ FI). cbn [bind]. rewrite FO. cbn [bind]. rewrite (has_jattr _ _ _ St). cbn [bind jprint jtext].
    unfold plan_kw, action_text.
    assert (Q : jtext (maybe (op_action o)) = match op_action o with Some a => a | None => "None" end) by now destruct (op_action o).
    rewrite Q. destruct (op_style o) as [s|]; cbn [maybe jtrue py_truthy jtext]; [|reflexivity].
    destruct (String.eqb_spec s "") as [-> | K]; [now destruct (Hst "")|reflexivity].
  Qed.
  Lemma op_call_code b op o : states_operation d b op o -> op_call d b op = Ok (op_name o, pp_element (op_in o)).
  Proof.
    intros (N & W & (so & S & A & St) & pto & Ab & I & O). unfold op_call.
    destruct (takes_facts _ _ _ _ _ _ N Ab I) as (im & EI & (part & eref & P & E & Pn & L & NE & _)). rewrite EI. cbn [bind res_map].
    rewrite (has_jattr _ _ _ N). cbn [bind]. rewrite P. cbn [bind]. rewrite E. cbn [bind jprint jtext jlocal]. now rewrite L.
  Qed.
  Definition out_text (o : op_plan) : string := match op_out o with Some p => pp_element p | None => "" end.
  Lemma op_function_code b op o : states_operation d b op o -> op_out o <> None ->
    op_function d b op = Ok (SFunction (op_name o) (pp_element (op_in o)) (out_text o)).
  Proof.
    intros (N & W & (so & S & A & St) & pto & Ab & I & O) NN. unfold op_function.
    destruct (takes_facts _ _ _ _ _ _ N Ab I) as (im & EI & (part & eref & P & E & Pn & L & NE & _)). rewrite EI. cbn [bind res_map].
    unfold out_text. destruct (op_out o) as [p|]; [|congruence].
    destruct (takes_facts _ _ _ _ _ _ N Ab O) as (om & EO & (part' & eref' & P' & E' & Pn' & L' & NE' & _)). rewrite EO. cbn [bind res_map].
    rewrite (has_jattr _ _ _ N). cbn [bind]. rewrite P. cbn [bind]. rewrite E. cbn [bind]. rewrite P'. cbn [bind]. rewrite E'.
    cbn [bind jprint jtext jlocal]. now rewrite L, L'.
  Qed.
End D.
