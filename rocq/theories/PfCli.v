(** Proofs for C99. *)
From Coq Require Import String Ascii List ZArith NArith Bool Lia.
From Verif Require Import PyBase PyPath Cli SpecCli.
Import ListNotations.
Open Scope nat_scope.
Open Scope string_scope.
Open Scope list_scope.

Lemma words_app a b : words (a ++ b) = words a ++ words b.
Proof. unfold words. apply flat_map_app. Qed.
Lemma prefixes_in : forall text s, In s (prefixes text) <-> exists more, text = (s ++ more)%string.
Proof.
  induction text as [|c t IH]; intros s; cbn [prefixes].
  - split.
    + intros [<- | []]. now exists "".
    + intros [more H]. destruct s; [now left|discriminate].
  - cbn [In]. rewrite in_map_iff. split.
    + intros [<- | (s' & <- & H)]; [now exists (String c t)|]. apply IH in H. destruct H as [more ->]. now exists more.
    + intros [more H]. destruct s as [|c' s']; [now left|]. right. cbn in H. injection H as -> H. exists s'. split; [reflexivity|]. apply IH. now exists more.
Qed.
Lemma prefixes_last : forall text, exists l, prefixes text = l ++ [text].
Proof.
  induction text as [|c t (l & IH)]; cbn [prefixes]; [now exists []|]. rewrite IH, map_app. cbn [map]. exists ("" :: map (String c) l). reflexivity.
Qed.
Lemma writing_last w k text : exists l, writing w k text = l ++ [written_to w k text].
Proof. unfold writing. destruct (prefixes_last text) as [l ->]. rewrite map_app. now eexists. Qed.
Lemma writing_in w k text x : In x (writing w k text) -> exists s more, text = (s ++ more)%string /\ x = written_to w k s.
Proof.
  unfold writing. rewrite in_map_iff. intros (s & <- & H). apply prefixes_in in H. destruct H as [more ->]. now exists s, more.
Qed.

Lemma byte_space c : is_byte_space c = true <-> white c.
Proof.
  assert (H : Bool.eqb (is_byte_space c) (existsb (Nat.eqb (nat_of_ascii c)) [9; 10; 11; 12; 13; 32]) = true).
  { destruct c as [[] [] [] [] [] [] [] []]; vm_compute; reflexivity. }
  apply Bool.eqb_prop in H. rewrite H, existsb_exists. unfold white. split.
  - intros (x & X & E). apply Nat.eqb_eq in E. now subst x.
  - intros X. exists (nat_of_ascii c). split; [exact X|apply Nat.eqb_refl].
Qed.
Lemma lstrip_split p l : exists a, l = a ++ lstrip_l p l /\ Forall (fun c => p c = true) a /\ (forall c t, lstrip_l p l = c :: t -> p c = false).
Proof.
  induction l as [|x l (a & IH1 & IH2 & IH3)]; cbn; [exists []; repeat split; [constructor|discriminate]|].
  destruct (p x) eqn:P.
  - exists (x :: a). cbn. rewrite <- IH1. repeat split; [now constructor|exact IH3].
  - exists []. repeat split; [constructor|]. intros c t [= <- _]. exact P.
Qed.
Lemma strip_stripped code : stripped code (bytes_strip code).
Proof.
  unfold stripped, bytes_strip. change (list_ascii_of_string (of_l (strip_l is_byte_space (to_l code)))) with (to_l (of_l (strip_l is_byte_space (to_l code)))). rewrite (list_ascii_of_string_of_list_ascii (strip_l is_byte_space (to_l code))). unfold strip_l.
  change (list_ascii_of_string code) with (to_l code). set (l := to_l code).
  destruct (lstrip_split is_byte_space l) as (a & A1 & A2 & A3). destruct (lstrip_split is_byte_space (rev (lstrip_l is_byte_space l))) as (b & B1 & B2 & B3).
  set (m := lstrip_l is_byte_space (rev (lstrip_l is_byte_space l))) in *. apply (f_equal (@rev ascii)) in B1. rewrite rev_involutive, rev_app_distr in B1.
  exists a, (rev b). repeat split.
  - rewrite <- B1. exact A1.
  - eapply Forall_impl; [|exact A2]. intros c. apply byte_space.
  - apply Forall_rev. eapply Forall_impl; [|exact B2]. intros c. apply byte_space.
  - intros c t E W. apply byte_space in W. rewrite E in B1. cbn in B1. rewrite (A3 c _ B1) in W. discriminate.
  - intros t c E W. apply byte_space in W. apply (f_equal (@rev ascii)) in E. rewrite rev_involutive, rev_app_distr in E. cbn in E. rewrite (B3 c _ E) in W. discriminate.
Qed.

Section Cli.
  Variable real : string -> string.
  Variable can_write can_read : string -> bool.
  Variable getcwd stdin : string.
  Variable fetch : string -> res string.
  Variable usage : string.
  Variable code_from_xsd : (string -> option string) -> string -> string -> res string.
  Variable code_from_wsdl : (string -> option string) -> string -> option flag -> bool -> string -> res string.
  Variable wsdl_of_module xsd_of_module : (string -> option string) -> string -> res string.
  Notation consume := (consume real can_write).
  Notation take := (take usage).
  Notation parse_args := (parse_args real can_write usage).
  Notation make := (make real can_read getcwd stdin fetch code_from_xsd code_from_wsdl wsdl_of_module xsd_of_module).
  Notation main := (main real can_write can_read getcwd stdin fetch usage code_from_xsd code_from_wsdl wsdl_of_module xsd_of_module).

  Lemma take_files t w o f : match take t w o f with inl (w', o') => w' = w /\ op_input o' = op_input o /\ op_output o' = op_output o | inr (w', _) => w_files w' = w_files w end.
  Proof. unfold Cli.take. destruct f, (has_target t), (op_target o) as [[| | | |]|]; cbn; auto. Qed.

  Lemma parse_some t : forall args run w o ws w' r, op_input o <> None -> parse_args t args run w o = (ws, w', r) ->
    (forall x, In x (ws ++ [w']) -> w_files x = w_files w) /\
    (forall o', r = inl o' -> w' = w /\ op_input o' = op_input o /\ op_output o' = op_output o /\ op_extras o' = [] /\
       exists l, op_extras o' = op_extras o ++ run ++ words args ++ l).
  Proof.
    induction args as [|a args IH]; intros run w o ws w' r I H; cbn [Cli.parse_args] in H.
    - unfold Cli.consume in H. destruct (op_input o) as [i|] eqn:Ei; [|now destruct I]. injection H as <- <- <-. split.
      + intros x [<- | []]. reflexivity.
      + intros o' E. unfold finish in E. cbn [op_input op_target op_extras] in E. destruct (has_target t && _); [discriminate|].
        destruct (op_extras o ++ run) eqn:Ex; [|discriminate]. injection E as <-. cbn [op_input op_output op_extras words flat_map]. repeat split.
        exists []. rewrite !app_nil_r. now rewrite Ex.
    - destruct a as [s|f].
      + destruct (IH (run ++ [s]) w o ws w' r I H) as [A B]. split; [exact A|]. intros o' E. destruct (B o' E) as (B1 & B2 & B3 & B4 & l & B5). repeat split; try assumption.
        exists l. rewrite B5. cbn [words flat_map]. now rewrite <- !app_assoc.
      + unfold Cli.consume in H. destruct (op_input o) as [i|] eqn:Ei; [|now destruct I].
        match type of H with context [take t w ?oo f] => set (o1 := oo) in * end.
        pose proof (take_files t w o1 f) as T. destruct (take t w o1 f) as [[w2 o2] | [w2 n]] eqn:Et.
        * destruct T as (-> & T1 & T2). destruct (parse_args t args [] w o2) as [[ws3 w3] r3] eqn:E3. injection H as <- <- <-.
          assert (I2 : op_input o2 <> None) by (rewrite T1; discriminate).
          destruct (IH [] w o2 ws3 w3 r3 I2 E3) as [A B]. split.
          -- intros x [<- | [<- | X]]; [reflexivity|reflexivity|exact (A x X)].
          -- intros o' E. destruct (B o' E) as (B1 & B2 & B3 & B4 & l & B5). repeat split; [exact B1|now rewrite B2, T1|now rewrite B3, T2|exact B4|].
             assert (X : exists l2, op_extras o2 = op_extras o1 ++ l2).
             { clear - Et. unfold Cli.take in Et. destruct f, (has_target t), (op_target o1) as [[| | | |]|]; cbn in Et; try discriminate Et; injection Et as <-; cbn [op_extras]; try (exists []; now rewrite app_nil_r); now eexists. }
             destruct X as [l2 X]. rewrite X in B5. rewrite B4 in *. symmetry in B5. apply app_eq_nil in B5. destruct B5 as [B5 B6].
             apply app_eq_nil in B5. destruct B5 as [B5 ->]. apply app_eq_nil in B6. destruct B6 as [_ B6]. apply app_eq_nil in B6. destruct B6 as [B6 ->].
             cbn [op_extras o1] in B5. apply app_eq_nil in B5. destruct B5 as [B5 ->]. exists []. cbn [words flat_map]. fold (words args). now rewrite B5, B6.
        * injection H as <- <- <-. split; [|discriminate]. intros x [<- | [<- | []]]; [reflexivity|exact T].
  Qed.

  Definition opened (ws : list string) (w : world) (x : world) (p : string) : Prop :=
    (exists i more, ws = i :: p :: more) /\ p <> "-" /\ can_write (real p) = true /\ w_files x = emptied (w_files w) (real p).

  Lemma parse_none t : forall args run w o ws w' r, op_input o = None -> parse_args t args run w o = (ws, w', r) ->
    (forall x, In x (ws ++ [w']) -> w_files x = w_files w \/ exists p, opened (run ++ words args) w x p) /\
    (forall o', r = inl o' -> op_extras o' = [] /\ w_out w' = w_out w /\
       exists i, op_input o' = Some i /\
         ((run ++ words args = [i] /\ w' = w /\ op_output o' = Stdout) \/
          (run ++ words args = [i; "-"] /\ w' = w /\ op_output o' = Stdout) \/
          exists p, run ++ words args = [i; p] /\ opened (run ++ words args) w w' p /\ op_output o' = File (real p))).
  Proof.
    induction args as [|a args IH]; intros run w o ws w' r I H; cbn [Cli.parse_args] in H.
    - unfold Cli.consume in H. rewrite I in H. cbn [words flat_map]. rewrite app_nil_r.
      destruct run as [|i [|p more]].
      + injection H as <- <- <-. split; [intros x [<- | []]; now left|]. unfold finish. rewrite I. discriminate.
      + injection H as <- <- <-. split; [intros x [<- | []]; now left|]. intros o' E. unfold finish in E. cbn [op_input op_target op_extras] in E.
        destruct (has_target t && _); [discriminate|]. destruct (op_extras o); [|discriminate]. injection E as <-. cbn. repeat split. exists i. split; [reflexivity|]. now left.
      + unfold open_output in H. destruct (String.eqb_spec p "-") as [-> | N].
        * injection H as <- <- <-. split; [intros x [<- | []]; now left|]. intros o' E. unfold finish in E. cbn [op_input op_target op_extras] in E.
          destruct (has_target t && _); [discriminate|]. destruct (op_extras o); [|discriminate]. destruct more; [|discriminate]. injection E as <-. cbn. repeat split. exists i. split; [reflexivity|]. right. now left.
        * destruct (can_write (real p)) eqn:C; injection H as <- <- <-.
          -- assert (Op : opened (i :: p :: more) w (set_file w (real p) "") p) by (repeat split; [now exists i, more|assumption|assumption]).
             split; [intros x [<- | []]; right; now exists p|]. intros o' E. unfold finish in E. cbn [op_input op_target op_extras] in E.
             destruct (has_target t && _); [discriminate|]. destruct (op_extras o); [|discriminate]. destruct more; [|discriminate]. injection E as <-. cbn [op_extras op_input op_output app].
             repeat split. exists i. split; [reflexivity|]. right. right. exists p. split; [reflexivity|]. split; [exact Op|reflexivity].
          -- split; [intros x [<- | []]; now left|discriminate].
    - destruct a as [s|f].
      + destruct (IH (run ++ [s]) w o ws w' r I H) as [A B]. cbn [words flat_map]. fold (words args). cbn [app]. rewrite <- app_assoc in A, B. cbn [app] in A, B. now split.
      + cbn [words flat_map]. cbn [app]. fold (words args). unfold Cli.consume in H. rewrite I in H. destruct run as [|i [|p more]].
        * pose proof (take_files t w o f) as T. destruct (take t w o f) as [[w2 o2] | [w2 n]] eqn:Et.
          -- destruct T as (-> & T1 & T2). destruct (parse_args t args [] w o2) as [[ws3 w3] r3] eqn:E3. injection H as <- <- <-.
             destruct (IH [] w o2 ws3 w3 r3 (eq_trans T1 I) E3) as [A B]. split; [|exact B]. intros x [<- | [<- | X]]; [now left|now left|exact (A x X)].
          -- injection H as <- <- <-. split; [|discriminate]. intros x [<- | [<- | []]]; left; [reflexivity|exact T].
        * match type of H with context [take t w ?oo f] => set (o1 := oo) in * end.
          pose proof (take_files t w o1 f) as T. destruct (take t w o1 f) as [[w2 o2] | [w2 n]] eqn:Et.
          -- destruct T as (-> & T1 & T2). destruct (parse_args t args [] w o2) as [[ws3 w3] r3] eqn:E3. injection H as <- <- <-.
             assert (I2 : op_input o2 <> None) by (rewrite T1; discriminate).
             destruct (parse_some t args [] w o2 ws3 w3 r3 I2 E3) as [A B]. split.
             ++ intros x [<- | [<- | X]]; [now left|now left|left; exact (A x X)].
             ++ intros o' E. destruct (B o' E) as (-> & B2 & B3 & B4 & l & B5). split; [exact B4|]. split; [reflexivity|]. exists i. split; [now rewrite B2, T1|]. left.
                rewrite B4 in B5. symmetry in B5. apply app_eq_nil in B5. destruct B5 as [_ B5]. apply app_eq_nil in B5. destruct B5 as [_ B5]. apply app_eq_nil in B5. destruct B5 as [B5 _].
                repeat split; [now rewrite B5|now rewrite B3, T2].
          -- injection H as <- <- <-. split; [|discriminate]. intros x [<- | [<- | []]]; left; [reflexivity|exact T].
        * unfold open_output in H. destruct (String.eqb_spec p "-") as [-> | N]; [|destruct (can_write (real p)) eqn:C].
          -- match type of H with context [take t w ?oo f] => set (o1 := oo) in * end.
             pose proof (take_files t w o1 f) as T. destruct (take t w o1 f) as [[w2 o2] | [w2 n]] eqn:Et.
             ++ destruct T as (-> & T1 & T2). destruct (parse_args t args [] w o2) as [[ws3 w3] r3] eqn:E3. injection H as <- <- <-.
                assert (I2 : op_input o2 <> None) by (rewrite T1; discriminate).
                destruct (parse_some t args [] w o2 ws3 w3 r3 I2 E3) as [A B]. split.
                ** intros x [<- | [<- | X]]; [now left|now left|left; exact (A x X)].
                ** intros o' E. destruct (B o' E) as (-> & B2 & B3 & B4 & l & B5). split; [exact B4|]. split; [reflexivity|]. exists i. split; [now rewrite B2, T1|]. right. left.
                   rewrite B4 in B5. symmetry in B5. apply app_eq_nil in B5. destruct B5 as [B6 B5]. apply app_eq_nil in B5. destruct B5 as [_ B5]. apply app_eq_nil in B5. destruct B5 as [B5 _].
                   assert (M : more = []).
                   { clear - Et B6. unfold Cli.take in Et. destruct f, (has_target t), (op_target o1) as [[| | | |]|]; cbn in Et; try discriminate Et; injection Et as <-; cbn [op_extras o1] in B6;
                       apply app_eq_nil in B6; try exact (proj2 B6); destruct B6 as [B6 _]; apply app_eq_nil in B6; exact (proj2 B6). }
                   subst more. repeat split; [now rewrite B5|now rewrite B3, T2].
             ++ injection H as <- <- <-. split; [|discriminate]. intros x [<- | [<- | []]]; left; [reflexivity|exact T].
          -- assert (Op : forall x, w_files x = w_files (set_file w (real p) "") -> opened ((i :: p :: more) ++ words args) w x p).
             { intros x X. repeat split; [now exists i, (more ++ words args)|assumption|assumption|exact X]. }
             match type of H with context [take t _ ?oo f] => set (o1 := oo) in * end.
             pose proof (take_files t (set_file w (real p) "") o1 f) as T. destruct (take t (set_file w (real p) "") o1 f) as [[w2 o2] | [w2 n]] eqn:Et.
             ++ destruct T as (-> & T1 & T2). destruct (parse_args t args [] _ o2) as [[ws3 w3] r3] eqn:E3. injection H as <- <- <-.
                assert (I2 : op_input o2 <> None) by (rewrite T1; discriminate).
                destruct (parse_some t args [] _ o2 ws3 w3 r3 I2 E3) as [A B]. split.
                ** intros x [<- | [<- | X]]; right; exists p; apply Op; [reflexivity|reflexivity|exact (A x X)].
                ** intros o' E. destruct (B o' E) as (-> & B2 & B3 & B4 & l & B5). split; [exact B4|]. split; [reflexivity|]. exists i. split; [now rewrite B2, T1|]. right. right. exists p.
                   rewrite B4 in B5. symmetry in B5. apply app_eq_nil in B5. destruct B5 as [B6 B5]. apply app_eq_nil in B5. destruct B5 as [_ B5]. apply app_eq_nil in B5. destruct B5 as [B5 _].
                   assert (M : more = []).
                   { clear - Et B6. unfold Cli.take in Et. destruct f, (has_target t), (op_target o1) as [[| | | |]|]; cbn in Et; try discriminate Et; injection Et as <-; cbn [op_extras o1] in B6;
                       apply app_eq_nil in B6; try exact (proj2 B6); destruct B6 as [B6 _]; apply app_eq_nil in B6; exact (proj2 B6). }
                   split; [now rewrite M, B5|]. split; [apply Op; reflexivity|now rewrite B3, T2].
             ++ injection H as <- <- <-. split; [|discriminate]. intros x [<- | [<- | []]]; right; exists p; apply Op; [reflexivity|exact T].
          -- injection H as <- <- <-. split; [|discriminate]. intros x [<- | []]. now left.
  Qed.

  (** All states of a run. *)
  Lemma run_states : forall t args w x, passes (main t args w) x -> forall q,
    w_files x q = w_files w q \/
    exists i p more, words args = i :: p :: more /\ p <> "-" /\ q = real p /\ can_write q = true /\
      (w_files x q = Some "" \/
       exists w' s rest, ends (main t args w) w' (Returns 0) /\ w_files x q = Some s /\ w_files w' q = Some (s ++ rest)%string).
  Proof.
    intros t args w x P q. unfold passes in P. unfold main in *. destruct (parse_args t args [] w no_options) as [[ws w1] r] eqn:E.
    destruct (parse_none t args [] w no_options ws w1 r eq_refl E) as [A B]. cbn [app] in A, B.
    assert (D : In x (w :: ws ++ [w1]) -> w_files x q = w_files w q \/
      exists i p more, words args = i :: p :: more /\ p <> "-" /\ q = real p /\ can_write q = true /\ w_files x q = Some "").
    { intros [<- | X]; [now left|]. destruct (A x X) as [-> | (p & (i & more & Ew) & N & C & F)]; [now left|]. rewrite F. unfold emptied.
      destruct (String.eqb_spec q (real p)) as [-> | N']; [|now left]. right. exists i, p, more. now repeat split. }
    assert (D' : In x (w :: ws ++ [w1]) -> forall Q : world -> Prop, w_files x q = w_files w q \/
      exists i p more, words args = i :: p :: more /\ p <> "-" /\ q = real p /\ can_write q = true /\
        (w_files x q = Some "" \/ exists w' s rest, Q w' /\ w_files x q = Some s /\ w_files w' q = Some (s ++ rest)%string)).
    { intros X Q. destruct (D X) as [Y | (i & p & more & Y1 & Y2 & Y3 & Y4 & Y5)]; [now left|]. right. exists i, p, more. auto 6. }
    destruct r as [o|n]; [|exact (D' P _)].
    destruct (op_input o) as [input|] eqn:Ei; [|exact (D' P _)].
    destruct (make t w1 (op_target o) (op_wsa o) input) as [text|e] eqn:Em; [|exact (D' P _)].
    cbn [fst] in P. change (w :: (ws ++ [w1]) ++ writing w1 (op_output o) text) with ((w :: ws ++ [w1]) ++ writing w1 (op_output o) text) in P.
    apply in_app_or in P. destruct P as [P|P]; [exact (D' P _)|].
    apply writing_in in P. destruct P as (s & rest & -> & ->).
    destruct (B o eq_refl) as (_ & _ & i & _ & [ (_ & -> & K) | [ (_ & -> & K) | (p & Ew & ((i' & more & Ew') & N & C & F) & K) ] ]); rewrite K.
    - now left.
    - now left.
    - cbn [written_to set_file w_files]. destruct (String.eqb_spec q (real p)) as [-> | N'].
      + right. exists i', p, more. repeat split; try assumption. right. destruct (writing_last w1 (File (real p)) (s ++ rest)) as [l L]. rewrite L.
        exists (written_to w1 (File (real p)) (s ++ rest)), s, rest. split; [|split; [reflexivity|]].
        * exists ((w :: ws ++ [w1]) ++ l). now rewrite <- !app_assoc.
        * cbn. now rewrite String.eqb_refl.
      + left. rewrite F. unfold emptied. now destruct (String.eqb_spec q (real p)).
  Qed.

  (** Runs without a second argument, or with "-" there. *)
  Lemma run_stdout : forall t args w x, (forall i p more, words args = i :: p :: more -> p = "-") -> passes (main t args w) x -> no_file_changes w x.
  Proof.
    intros t args w x H P q. destruct (run_states t args w x P q) as [D | (i & p & more & E & N & _)]; [exact D|]. now destruct (N (H i p more E)).
  Qed.

  (** A run that does not return. *)
  Lemma run_failed : forall t args w w' o, ends (main t args w) w' o -> o <> Returns 0 -> forall q,
    w_files w' q = w_files w q \/ exists i p more, words args = i :: p :: more /\ q = real p /\ w_files w' q = Some "".
  Proof.
    intros t args w w' o [past E] N q. destruct (run_states t args w w') with (q := q) as [D | (i & p & more & H1 & H2 & H3 & H4 & [H5 | (w2 & s & rest & [past' E'] & _)])].
    - unfold passes. rewrite E. cbn. apply in_or_app. right. now left.
    - now left.
    - right. now exists i, p, more.
    - rewrite E in E'. now injection E' as _ ->.
  Qed.

  (** ** Runs that succeed *)
  Definition with_flags (o : options) (target : option flag) (wsa : bool) : options := mkOpts (op_input o) (op_output o) target wsa (op_extras o).
  Lemma consume_none w o : consume w o [] = Some (w, o).
  Proof. unfold Cli.consume. destruct o as [[i|] k tg wsa ex]; cbn; [now rewrite app_nil_r|reflexivity]. Qed.

  Lemma parse_flags : forall fs target rest w o, (target = Client \/ target = Server) -> (forall f, In f fs -> f = target \/ f = UseWsa) ->
    (op_target o = None \/ op_target o = Some target) ->
    exists tg wsa ws, (tg = Some target <-> In target fs \/ op_target o = Some target) /\ (tg = None \/ tg = Some target) /\ (wsa = true <-> In UseWsa fs \/ op_wsa o = true) /\
      parse_args Wsdl2py (map Flag fs ++ rest) [] w o =
        (let '(ws', w', r) := parse_args Wsdl2py rest [] w (with_flags o tg wsa) in (ws ++ ws', w', r)).
  Proof.
    induction fs as [|f fs IH]; intros target rest w o T F O.
    - exists (op_target o), (op_wsa o), []. cbn [map app]. split; [split; [now right|intros [[] | X]; exact X]|]. split; [exact O|]. split; [split; [now right|intros [[] | X]; exact X]|].
      destruct o; cbn. now destruct (parse_args Wsdl2py rest [] w _) as [[? ?] ?].
    - assert (F' : forall g, In g fs -> g = target \/ g = UseWsa) by (intros g G; apply F; now right).
      cbn [map app Cli.parse_args]. rewrite consume_none. destruct (F f (or_introl eq_refl)) as [-> | ->].
      + assert (E : take Wsdl2py w o target = inl (w, with_flags o (Some target) (op_wsa o))).
        { destruct T as [-> | ->], O as [O|O]; unfold Cli.take; cbn [has_target negb]; rewrite O; reflexivity. }
        rewrite E. destruct (IH target rest w (with_flags o (Some target) (op_wsa o)) T F' (or_intror eq_refl)) as (tg & wsa & ws & H1 & H2 & H3 & H4).
        rewrite H4. exists tg, wsa, (w :: w :: ws). split; [|split; [exact H2|split]].
        * split; [intros _; left; now left|]. intros _. apply H1. now right.
        * cbn [with_flags op_wsa] in H3. rewrite H3. split; [intros [X|X]; [left; now right|now right]|]. intros [[X | X]|X]; [|now left|now right]. destruct T as [-> | ->]; discriminate X.
        * unfold with_flags at 2. cbn [with_flags op_input op_output op_extras]. now destruct (parse_args Wsdl2py rest [] w _) as [[? ?] ?].
      + cbn [Cli.take has_target negb].
        destruct (IH target rest w (with_flags o (op_target o) true) T F' O) as (tg & wsa & ws & H1 & H2 & H3 & H4). unfold with_flags at 1 in H4. rewrite H4.
        exists tg, wsa, (w :: w :: ws). split; [|split; [exact H2|split]].
        * cbn [with_flags op_target] in H1. rewrite H1. split; [intros [X|X]; [left; now right|now right]|]. intros [[X | X]|X]; [|now left|now right]. destruct T as [-> | ->]; discriminate X.
        * split; [intros _; left; now left|]. intros _. apply H3. now right.
        * unfold with_flags at 2. cbn [with_flags op_input op_output op_extras]. now destruct (parse_args Wsdl2py rest [] w _) as [[? ?] ?].
  Qed.

  Lemma parse_line t args input output target wsa w : line_to t args input output target wsa -> output <> "-" -> can_write (real output) = true ->
    exists ws, parse_args t args [] w no_options = (ws, set_file w (real output) "", inl (mkOpts (Some input) (File (real output)) target wsa [])).
  Proof.
    intros (fs & gs & -> & L) N C. apply String.eqb_neq in N. destruct t.
    1, 3, 4: destruct L as (-> & -> & -> & ->); cbn; unfold open_output; rewrite N, C; cbn; now eexists.
    destruct L as (tg & -> & T & I & F & W).
    assert (F1 : forall f, In f fs -> f = tg \/ f = UseWsa) by (intros f X; apply F; apply in_or_app; now left).
    assert (F2 : forall f, In f gs -> f = tg \/ f = UseWsa) by (intros f X; apply F; apply in_or_app; now right).
    destruct (parse_flags fs tg ([Pos input; Pos output] ++ map Flag gs) w no_options T F1 (or_introl eq_refl)) as (t1 & w1 & ws1 & H1 & H2 & H3 & H4).
    rewrite H4. set (w0 := set_file w (real output) "").
    set (o1 := mkOpts (Some input) (File (real output)) t1 w1 []).
    assert (O1 : op_target o1 = None \/ op_target o1 = Some tg) by exact H2.
    destruct (parse_flags gs tg [] w0 o1 T F2 O1) as (t2 & w2 & ws2 & J1 & J2 & J3 & J4).
    rewrite app_nil_r in J4.
    assert (E : exists l, parse_args Wsdl2py ([Pos input; Pos output] ++ map Flag gs) [] w (with_flags no_options t1 w1) =
                          (let '(ws', w', r) := parse_args Wsdl2py (map Flag gs) [] w0 o1 in (l ++ ws', w', r))).
    { destruct gs as [|g gs]; cbn [app map Cli.parse_args].
      - unfold Cli.consume at 1. cbn [with_flags no_options op_input app]. unfold open_output. rewrite N, C. rewrite consume_none. exists []. reflexivity.
      - unfold Cli.consume at 1. cbn [with_flags no_options op_input app]. unfold open_output. rewrite N, C. rewrite consume_none. exists []. cbn [op_target op_wsa op_extras app with_flags no_options]. fold w0. fold o1.
        destruct (take Wsdl2py w0 o1 g) as [[w3 o3] | [w3 n]]; [|reflexivity]. now destruct (parse_args Wsdl2py (map Flag gs) [] w3 o3) as [[? ?] ?]. }
    destruct E as [l E]. rewrite E, J4. cbn [Cli.parse_args]. rewrite consume_none.
    assert (T2 : t2 = Some tg).
    { apply J1. apply in_app_or in I. destruct I as [I|I]; [right; apply H1; now left|now left]. }
    assert (W2 : w2 = wsa).
    { apply eq_true_iff_eq. rewrite J3, W, in_app_iff. cbn [op_wsa o1]. rewrite H3. cbn [no_options op_wsa]. split; [intros [X | [X | X]]; [now right|now left|discriminate X]|intros [X | X]; [right; now left|now left]]. }
    subst t2 w2. unfold finish, with_flags. cbn [o1 op_input op_output op_extras op_target has_target andb]. now eexists.
  Qed.
  Lemma run_line t args input output target wsa w : line_to t args input output target wsa -> output <> "-" -> can_write (real output) = true ->
    match make t (set_file w (real output) "") target wsa input with
    | Ok text => exists w', ends (main t args w) w' (Returns 0) /\ only_changes w w' (real output) text
    | Err e => exists w', ends (main t args w) w' (Raises e) /\ only_changes w w' (real output) ""
    end.
  Proof.
    intros L N C. destruct (parse_line t args input output target wsa w L N C) as [ws E]. unfold main. rewrite E. cbn [op_input op_target op_wsa op_output].
    destruct (make t (set_file w (real output) "") target wsa input) as [text|e].
    - destruct (writing_last (set_file w (real output) "") (File (real output)) text) as [l L2]. rewrite L2.
      eexists. split; [eexists; rewrite app_assoc; reflexivity|]. split; [|split]; cbn.
      + now rewrite String.eqb_refl.
      + intros p P. apply String.eqb_neq in P. now rewrite P.
      + reflexivity.
    - eexists. split; [exists (w :: ws); reflexivity|]. split; [|split]; cbn.
      + now rewrite String.eqb_refl.
      + intros p P. apply String.eqb_neq in P. now rewrite P.
      + reflexivity.
  Qed.

  Lemma document_read files out path xml : document real can_read stdin fetch files path xml <-> read_input real can_read stdin fetch (mkW files out) path = Ok xml.
  Proof.
    unfold read_input. split.
    - intros D. inversion D; subst.
      + reflexivity.
      + apply String.eqb_neq in H. now rewrite H, H0.
      + apply String.eqb_neq in H. cbn [w_files]. now rewrite H, H0, H2, H1.
    - destruct (String.eqb_spec path "-") as [-> | N]; [intros [= <-]; constructor|]. destruct (is_url path) eqn:U; [now apply doc_url|].
      cbn [w_files]. destruct (files (real path)) as [text|] eqn:F; [|discriminate]. destruct (can_read (real path)) eqn:C; [|discriminate]. intros [= <-]. now apply doc_file.
  Qed.

  Lemma xsd2py_written : forall input output w xml code, output <> "-" -> can_write (real output) = true ->
    document real can_read stdin fetch (emptied (w_files w) (real output)) input xml ->
    code_from_xsd (emptied (w_files w) (real output)) xml (folder getcwd input) = Ok code ->
    exists w' text, stripped code text /\ ends (main Xsd2py [Pos input; Pos output] w) w' (Returns 0) /\ only_changes w w' (real output) text.
  Proof.
    intros input output w xml code N C D G.
    assert (L : line_to Xsd2py [Pos input; Pos output] input output None false) by (exists [], []; now repeat split).
    pose proof (run_line _ _ _ _ _ _ w L N C) as R. cbn [Cli.make] in R. apply (document_read _ (w_out w)) in D.
    change (set_file w (real output) "") with (mkW (emptied (w_files w) (real output)) (w_out w)) in R. rewrite D in R. cbn [bind w_files] in R. change (directory getcwd input) with (folder getcwd input) in R. rewrite G in R.
    destruct R as (w' & R). exists w', (bytes_strip code). split; [apply strip_stripped|exact R].
  Qed.
  Lemma wsdl2py_written : forall fs gs input output target wsa w xml code, chooses (fs ++ gs) target wsa -> output <> "-" -> can_write (real output) = true ->
    document real can_read stdin fetch (emptied (w_files w) (real output)) input xml ->
    code_from_wsdl (emptied (w_files w) (real output)) xml (Some target) wsa (folder getcwd input) = Ok code ->
    exists w' text, stripped code text /\ ends (main Wsdl2py (map Flag fs ++ [Pos input; Pos output] ++ map Flag gs) w) w' (Returns 0) /\ only_changes w w' (real output) text.
  Proof.
    intros fs gs input output target wsa w xml code Ch N C D G.
    assert (L : line_to Wsdl2py (map Flag fs ++ [Pos input; Pos output] ++ map Flag gs) input output (Some target) wsa) by (exists fs, gs; split; [reflexivity|now exists target]).
    pose proof (run_line _ _ _ _ _ _ w L N C) as R. cbn [Cli.make] in R. apply (document_read _ (w_out w)) in D.
    change (set_file w (real output) "") with (mkW (emptied (w_files w) (real output)) (w_out w)) in R. rewrite D in R. cbn [bind w_files] in R. change (directory getcwd input) with (folder getcwd input) in R. rewrite G in R.
    destruct R as (w' & R). exists w', (bytes_strip code). split; [apply strip_stripped|exact R].
  Qed.
  Lemma module_written : forall t input output w text, (t = Py2wsdl \/ t = Py2xsd) -> output <> "-" -> can_write (real output) = true ->
    (match t with Py2wsdl => wsdl_of_module | _ => xsd_of_module end) (emptied (w_files w) (real output)) input = Ok text ->
    exists w', ends (main t [Pos input; Pos output] w) w' (Returns 0) /\ only_changes w w' (real output) text.
  Proof.
    intros t input output w text T N C G.
    assert (L : line_to t [Pos input; Pos output] input output None false) by (exists [], []; destruct T as [-> | ->]; now repeat split).
    pose proof (run_line _ _ _ _ _ _ w L N C) as R. destruct T as [-> | ->]; cbn [Cli.make] in R;
      change (w_files (set_file w (real output) "")) with (emptied (w_files w) (real output)) in R; now rewrite G in R.
  Qed.

  (** The output names the input. *)
  Lemma in_place : forall t args input output target wsa w, line_to t args input output target wsa -> (t = Xsd2py \/ t = Wsdl2py) ->
    input <> "-" -> is_url input = false -> output <> "-" -> real output = real input -> can_write (real output) = true ->
    (forall files cwd, exists e, code_from_xsd files "" cwd = Err e) -> (forall files tg wsa cwd, exists e, code_from_wsdl files "" tg wsa cwd = Err e) ->
    exists w' e, ends (main t args w) w' (Raises e) /\ only_changes w w' (real input) "".
  Proof.
    intros t args input output target wsa w L T N1 U N2 R C X Y. pose proof (run_line _ _ _ _ _ _ w L N2 C) as H.
    assert (E : exists e, make t (set_file w (real output) "") target wsa input = Err e).
    { apply String.eqb_neq in N1. assert (I : read_input real can_read stdin fetch (set_file w (real output) "") input = if can_read (real input) then Ok "" else Err OSError).
      { unfold read_input. rewrite N1, U. cbn [set_file w_files]. now rewrite R, String.eqb_refl. }
      destruct T as [-> | ->]; cbn [Cli.make]; rewrite I; destruct (can_read (real input)); cbn [bind]; try now eexists.
      - destruct (X (w_files (set_file w (real output) "")) (directory getcwd input)) as [e ->]. now exists e.
      - destruct (Y (w_files (set_file w (real output) "")) target wsa (directory getcwd input)) as [e ->]. now exists e. }
    destruct E as [e E]. rewrite E in H. destruct H as (w' & H1 & H2). rewrite R in H2. now exists w', e.
  Qed.

  (** Options between the input and the output. *)
  Lemma between : forall t i f args p more w, 
    (forall x, passes (main t (Pos i :: Flag f :: args ++ Pos p :: more) w) x -> no_file_changes w x) /\
    forall n, snd (main t (Pos i :: Flag f :: args ++ Pos p :: more) w) <> Returns n.
  Proof.
    intros t i f args p more w. unfold main. cbn [Cli.parse_args app]. cbn [Cli.consume no_options op_input op_target op_wsa op_extras].
    set (o1 := mkOpts (Some i) Stdout None false []). pose proof (take_files t w o1 f) as T.
    destruct (take t w o1 f) as [[w2 o2] | [w2 n]].
    - destruct T as (-> & T1 & T2). destruct (parse_args t (args ++ Pos p :: more) [] w o2) as [[ws w3] r] eqn:E.
      assert (I2 : op_input o2 <> None) by (rewrite T1; discriminate). destruct (parse_some t (args ++ Pos p :: more) [] w o2 ws w3 r I2 E) as [A B].
      destruct r as [o|n].
      + destruct (B o eq_refl) as (_ & _ & _ & B4 & l & B5). rewrite B4, words_app in B5. symmetry in B5. apply app_eq_nil in B5. destruct B5 as [_ B5]. apply app_eq_nil in B5. destruct B5 as [_ B5].
        apply app_eq_nil in B5. destruct B5 as [B5 _]. apply app_eq_nil in B5. destruct B5 as [_ B5]. discriminate B5.
      + split; [|discriminate]. intros x X q. destruct X as [<- | [<- | [<- | X]]]; try reflexivity. now rewrite (A x X).
    - split; [|discriminate]. intros x X q. destruct X as [<- | [<- | [<- | []]]]; [reflexivity|reflexivity|]. now rewrite T.
  Qed.

  (** ** What wsdl2py was told *)
  Lemma consume_keeps w o run w1 o1 : consume w o run = Some (w1, o1) ->
    op_target o1 = op_target o /\ op_wsa o1 = op_wsa o /\ exists l, op_extras o1 = op_extras o ++ l.
  Proof.
    unfold Cli.consume. destruct (op_input o) as [i|].
    - intros [= <- <-]. cbn. repeat split. now exists run.
    - destruct run as [|i [|p more]].
      + intros [= <- <-]. repeat split. exists []. now rewrite app_nil_r.
      + intros [= <- <-]. cbn. repeat split. exists []. now rewrite app_nil_r.
      + destruct (open_output real can_write w p) as [[w' k]|]; [|discriminate]. intros [= <- <-]. cbn. repeat split. now exists more.
  Qed.
  Lemma finish_keeps t w o o' : finish t w o = inl o' -> o' = o /\ op_extras o = [] /\ (has_target t = true -> op_target o <> None).
  Proof.
    unfold finish. destruct (op_input o); [|discriminate]. destruct (has_target t) eqn:H, (op_target o) eqn:Ht; cbn [andb]; try discriminate;
      destruct (op_extras o) eqn:X; try discriminate; intros [= <-]; repeat split; try assumption; discriminate.
  Qed.
  Lemma parse_target : forall args run w o ws w' o', parse_args Wsdl2py args run w o = (ws, w', inl o') ->
    (op_target o = None \/ op_target o = Some Client \/ op_target o = Some Server) ->
    op_extras o = [] /\
    exists tg, op_target o' = Some tg /\ (tg = Client \/ tg = Server) /\ (op_target o = None \/ op_target o = Some tg) /\
      (In tg (flags args) \/ op_target o = Some tg) /\ (forall f, In f (flags args) -> f = tg \/ f = UseWsa) /\
      (op_wsa o' = true <-> In UseWsa (flags args) \/ op_wsa o = true).
  Proof.
    induction args as [|a args IH]; intros run w o ws w' o' H O; cbn [Cli.parse_args] in H.
    - destruct (consume w o run) as [[w1 o1]|] eqn:C; [|discriminate]. injection H as <- <- H. apply finish_keeps in H. destruct H as (-> & X & T).
      apply consume_keeps in C. destruct C as (C1 & C2 & l & C3). rewrite X in C3. symmetry in C3. apply app_eq_nil in C3. split; [exact (proj1 C3)|].
      specialize (T eq_refl). rewrite C1 in T. rewrite C1, C2. cbn [flags flat_map In].
      destruct O as [O | [O | O]]; [contradiction| |]; rewrite O; eexists; (split; [reflexivity|]); (split; [auto|]); (split; [now right|]); (split; [now right|]); (split; [intros f []|]); (split; [now right|intros [[] | Y]; exact Y]).
    - destruct a as [s|f]; [exact (IH _ _ _ _ _ _ H O)|].
      destruct (consume w o run) as [[w1 o1]|] eqn:C; [|discriminate]. apply consume_keeps in C. destruct C as (C1 & C2 & l & C3).
      destruct (take Wsdl2py w1 o1 f) as [[w2 o2] | [w2 n]] eqn:Et; [|discriminate].
      destruct (parse_args Wsdl2py args [] w2 o2) as [[ws3 w3] r3] eqn:E3. injection H as _ <- ->.
      cbn [flags flat_map app In]. fold (flags args).
      assert (D : (op_target o2 = None \/ op_target o2 = Some Client \/ op_target o2 = Some Server) /\
                  ((f = Client \/ f = Server) /\ op_target o2 = Some f /\ (op_target o = None \/ op_target o = Some f) /\ op_wsa o2 = op_wsa o /\ op_extras o2 = op_extras o1 \/
                   f = UseWsa /\ op_target o2 = op_target o /\ op_wsa o2 = true /\ op_extras o2 = op_extras o1 \/ op_extras o2 <> [])).
      { clear - Et C1 C2 O. unfold Cli.take in Et. cbn [has_target negb] in Et. rewrite C1 in Et. destruct f; [| | |discriminate|].
        - destruct O as [O | [O | O]]; rewrite O in *; try discriminate Et; injection Et as <- <-; cbn; rewrite C2; auto 8.
        - destruct O as [O | [O | O]]; rewrite O in *; try discriminate Et; injection Et as <- <-; cbn; rewrite C2; auto 8.
        - injection Et as <- <-. cbn. split; [exact O|]. right. left. auto.
        - injection Et as <- <-. cbn. split; [exact O|]. right. right. intros Y. apply app_eq_nil in Y. now destruct Y. }
      destruct D as [O2 D]. destruct (IH [] w2 o2 ws3 w3 o' E3 O2) as (X & tg & H1 & H2 & H3 & H4 & H5 & H6).
      destruct D as [(F & D1 & D2 & D3 & D4) | [(F & D1 & D2 & D3) | D]]; [| |contradiction].
      + rewrite D4, C3 in X. apply app_eq_nil in X. split; [exact (proj1 X)|]. assert (E : tg = f). { rewrite D1 in H3. destruct H3 as [H3|H3]; [discriminate|now injection H3]. } subst tg.
        exists f. split; [exact H1|]. split; [exact H2|]. split; [exact D2|]. split; [left; now left|]. split; [intros g [<- | G]; [now left|exact (H5 g G)]|].
        rewrite H6, D3. split; [intros [Y|Y]; [left; now right|now right]|]. intros [[Y|Y]|Y]; [subst f; destruct F; discriminate|now left|now right].
      + rewrite D3, C3 in X. apply app_eq_nil in X. split; [exact (proj1 X)|]. exists tg. rewrite D1 in H3, H4. subst f.
        split; [exact H1|]. split; [exact H2|]. split; [exact H3|]. split; [destruct H4 as [Y|Y]; [left; now right|now right]|]. split; [intros g [<- | G]; [now right|exact (H5 g G)]|].
        split; [intros _; left; now left|]. intros _. apply H6. now right.
  Qed.
  Lemma wsdl2py_told : forall args w, snd (main Wsdl2py args w) = Returns 0 ->
    exists target wsa input more files xml code text w', chooses (flags args) target wsa /\ words args = input :: more /\
      document real can_read stdin fetch files input xml /\ code_from_wsdl files xml (Some target) wsa (folder getcwd input) = Ok code /\ stripped code text /\
      ends (main Wsdl2py args w) w' (Returns 0) /\
      (((more = [] \/ more = ["-"]) /\ files = w_files w /\ w_files w' = w_files w /\ w_out w' = (w_out w ++ text)%string) \/
       exists output, more = [output] /\ files = emptied (w_files w) (real output) /\ only_changes w w' (real output) text).
  Proof.
    intros args w. unfold main. destruct (parse_args Wsdl2py args [] w no_options) as [[ws w1] r] eqn:E. destruct r as [o|n]; [|discriminate].
    destruct (parse_none Wsdl2py args [] w no_options ws w1 (inl o) eq_refl E) as [_ B]. destruct (B o eq_refl) as (_ & Wo & i & Ei & K).
    destruct (parse_target args [] w no_options ws w1 o E (or_introl eq_refl)) as (_ & tg & H1 & H2 & _ & H4 & H5 & H6). rewrite Ei.
    destruct (make Wsdl2py w1 (op_target o) (op_wsa o) i) as [text|e] eqn:M; [|discriminate]. intros _.
    cbn [Cli.make] in M. destruct (read_input real can_read stdin fetch w1 i) as [xml|] eqn:Rd; [|discriminate]. cbn [bind] in M.
    destruct (code_from_wsdl (w_files w1) xml (op_target o) (op_wsa o) (directory getcwd i)) as [code|] eqn:Cd; [|discriminate]. cbn [bind] in M. injection M as <-.
    rewrite H1 in Cd.
    destruct (writing_last w1 (op_output o) (bytes_strip code)) as [l L]. rewrite L.
    assert (Ch : chooses (flags args) tg (op_wsa o)).
    { split; [exact H2|]. split; [destruct H4 as [H4|H4]; [exact H4|discriminate]|]. split; [exact H5|]. rewrite H6. cbn. intuition discriminate. }
    assert (Dc : document real can_read stdin fetch (w_files w1) i xml) by (apply (document_read _ (w_out w1)); destruct w1; exact Rd).
    pose proof (strip_stripped code) as St. cbn [app] in K. exists tg, (op_wsa o), i. destruct K as [ (K1 & -> & K3) | [ (K1 & -> & K3) | (p & K1 & (_ & N & C & F) & K3) ] ]; rewrite K3.
    - exists [], (w_files w), xml, code, (bytes_strip code), (written_to w Stdout (bytes_strip code)). repeat (split; [assumption|]). split; [eexists; rewrite app_assoc; reflexivity|]. left. auto.
    - exists ["-"], (w_files w), xml, code, (bytes_strip code), (written_to w Stdout (bytes_strip code)). repeat (split; [assumption|]). split; [eexists; rewrite app_assoc; reflexivity|]. left. auto.
    - exists [p], (w_files w1), xml, code, (bytes_strip code), (written_to w1 (File (real p)) (bytes_strip code)). repeat (split; [assumption|]). split; [eexists; rewrite app_assoc; reflexivity|]. right.
      exists p. split; [reflexivity|]. split; [exact F|]. split; [|split]; cbn.
      + now rewrite String.eqb_refl.
      + intros q Q. apply String.eqb_neq in Q. rewrite Q, F. unfold emptied. now rewrite Q.
      + exact Wo.
  Qed.

  Lemma xsd2py_stdout : forall input rest w xml, (rest = [] \/ rest = [Pos "-"]) -> document real can_read stdin fetch (w_files w) input xml ->
    match code_from_xsd (w_files w) xml (folder getcwd input) with
    | Ok code => exists w' text, stripped code text /\ ends (main Xsd2py (Pos input :: rest) w) w' (Returns 0) /\ no_file_changes w w' /\ w_out w' = (w_out w ++ text)%string
    | Err e => ends (main Xsd2py (Pos input :: rest) w) w (Raises e)
    end.
  Proof.
    intros input rest w xml R D. apply (document_read _ (w_out w)) in D. replace (mkW (w_files w) (w_out w)) with w in D by now destruct w.
    assert (P : parse_args Xsd2py (Pos input :: rest) [] w no_options = ([], w, inl (mkOpts (Some input) Stdout None false []))) by (destruct R as [-> | ->]; reflexivity).
    unfold main. rewrite P. cbn [op_input op_target op_wsa op_output Cli.make]. rewrite D. cbn [bind].
    change (directory getcwd input) with (folder getcwd input). destruct (code_from_xsd (w_files w) xml (folder getcwd input)) as [code|e]; cbn [bind].
    - destruct (writing_last w Stdout (bytes_strip code)) as [l L]. rewrite L. eexists. exists (bytes_strip code). split; [apply strip_stripped|]. split; [eexists; rewrite app_assoc; reflexivity|]. split; [intros q; reflexivity|reflexivity].
    - exists [w]. reflexivity.
  Qed.
End Cli.
