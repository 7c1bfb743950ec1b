(** C99: the command line programs and the files. *)
From Coq Require Import String Ascii List ZArith NArith Bool.
From Verif Require Import PyBase PyPath Cli SpecCli PfCli ExCli.
Import ListNotations.
Open Scope nat_scope.
Open Scope string_scope.
Open Scope list_scope.

(** xsd2py writes the code for the document into the output file and changes
    nothing else. *)
Theorem C99_xsd2py :
  forall real can_write can_read getcwd stdin fetch usage code_from_xsd code_from_wsdl wsdl_of_module xsd_of_module input output w xml code,
  output <> "-" -> can_write (real output) = true ->
  document real can_read stdin fetch (emptied (w_files w) (real output)) input xml ->
  code_from_xsd (emptied (w_files w) (real output)) xml (folder getcwd input) = Ok code ->
  exists w' text, stripped code text /\
    ends (main real can_write can_read getcwd stdin fetch usage code_from_xsd code_from_wsdl wsdl_of_module xsd_of_module
                        Xsd2py [Pos input; Pos output] w) w' (Returns 0) /\
    only_changes w w' (real output) text.
Proof. exact xsd2py_written. Qed.
Print Assumptions C99_xsd2py.
(** Without an output file, or with "-" for it, the code goes to the standard
    output; if there is none, nothing does. *)
Theorem C99_stdout :
  forall real can_write can_read getcwd stdin fetch usage code_from_xsd code_from_wsdl wsdl_of_module xsd_of_module input rest w xml,
  (rest = [] \/ rest = [Pos "-"]) -> document real can_read stdin fetch (w_files w) input xml ->
  let run := main real can_write can_read getcwd stdin fetch usage code_from_xsd code_from_wsdl wsdl_of_module xsd_of_module Xsd2py (Pos input :: rest) w in
  match code_from_xsd (w_files w) xml (folder getcwd input) with
  | Ok code => exists w' text, stripped code text /\ ends run w' (Returns 0) /\ no_file_changes w w' /\ w_out w' = (w_out w ++ text)%string
  | Err e => ends run w (Raises e)
  end.
Proof. exact xsd2py_stdout. Qed.
Print Assumptions C99_stdout.
(** So does wsdl2py, for the target chosen by its options, which may stand before
    and after the two paths in any order. *)
Theorem C99_wsdl2py :
  forall real can_write can_read getcwd stdin fetch usage code_from_xsd code_from_wsdl wsdl_of_module xsd_of_module fs gs input output target wsa w xml code,
  chooses (fs ++ gs) target wsa -> output <> "-" -> can_write (real output) = true ->
  document real can_read stdin fetch (emptied (w_files w) (real output)) input xml ->
  code_from_wsdl (emptied (w_files w) (real output)) xml (Some target) wsa (folder getcwd input) = Ok code ->
  exists w' text, stripped code text /\
    ends (main real can_write can_read getcwd stdin fetch usage code_from_xsd code_from_wsdl wsdl_of_module xsd_of_module
                        Wsdl2py (map Flag fs ++ [Pos input; Pos output] ++ map Flag gs) w) w' (Returns 0) /\
    only_changes w w' (real output) text.
Proof. exact wsdl2py_written. Qed.
Print Assumptions C99_wsdl2py.
(** Whenever wsdl2py succeeds, it was told exactly one target, and that is what it
    generated. *)
Theorem C99_told :
  forall real can_write can_read getcwd stdin fetch usage code_from_xsd code_from_wsdl wsdl_of_module xsd_of_module args w,
  let run := main real can_write can_read getcwd stdin fetch usage code_from_xsd code_from_wsdl wsdl_of_module xsd_of_module Wsdl2py args w in
  snd run = Returns 0 ->
  exists target wsa input more files xml code text w', chooses (flags args) target wsa /\ words args = input :: more /\
    document real can_read stdin fetch files input xml /\ code_from_wsdl files xml (Some target) wsa (folder getcwd input) = Ok code /\
    stripped code text /\ ends run w' (Returns 0) /\
    (((more = [] \/ more = ["-"]) /\ files = w_files w /\ w_files w' = w_files w /\ w_out w' = (w_out w ++ text)%string) \/
     exists output, more = [output] /\ files = emptied (w_files w) (real output) /\ only_changes w w' (real output) text).
Proof. exact wsdl2py_told. Qed.
Print Assumptions C99_told.
(** py2wsdl and py2xsd. *)
Theorem C99_module :
  forall real can_write can_read getcwd stdin fetch usage code_from_xsd code_from_wsdl wsdl_of_module xsd_of_module t input output w text,
  (t = Py2wsdl \/ t = Py2xsd) -> output <> "-" -> can_write (real output) = true ->
  (match t with Py2wsdl => wsdl_of_module | _ => xsd_of_module end) (emptied (w_files w) (real output)) input = Ok text ->
  exists w', ends (main real can_write can_read getcwd stdin fetch usage code_from_xsd code_from_wsdl wsdl_of_module xsd_of_module
                        t [Pos input; Pos output] w) w' (Returns 0) /\
    only_changes w w' (real output) text.
Proof. exact module_written. Qed.
Print Assumptions C99_module.
(** Wherever any of the programs is interrupted, whatever its command line is: a
    file that is not as before is the one named second, and is empty or holds a
    beginning of what the program would have left there. *)
Theorem C99_interrupted :
  forall real can_write can_read getcwd stdin fetch usage code_from_xsd code_from_wsdl wsdl_of_module xsd_of_module t args w x,
  let run := main real can_write can_read getcwd stdin fetch usage code_from_xsd code_from_wsdl wsdl_of_module xsd_of_module t args w in
  passes run x -> forall file,
  w_files x file = w_files w file \/
  exists input output more, words args = input :: output :: more /\ output <> "-" /\ file = real output /\ can_write file = true /\
    (w_files x file = Some "" \/
     exists w' s rest, ends run w' (Returns 0) /\ w_files x file = Some s /\ w_files w' file = Some (s ++ rest)%string).
Proof. exact run_states. Qed.
Print Assumptions C99_interrupted.
(** Without a second path no file is ever changed. *)
Theorem C99_no_output :
  forall real can_write can_read getcwd stdin fetch usage code_from_xsd code_from_wsdl wsdl_of_module xsd_of_module t args w x,
  (forall input output more, words args = input :: output :: more -> output = "-") ->
  passes (main real can_write can_read getcwd stdin fetch usage code_from_xsd code_from_wsdl wsdl_of_module xsd_of_module t args w) x ->
  no_file_changes w x.
Proof. exact run_stdout. Qed.
Print Assumptions C99_no_output.
(** A run that fails changes no file: this is wrong.  The output file is emptied
    before the input is read, and even before the command line is refused. *)
Theorem C99_failed_refuted :
  exists real can_write can_read getcwd stdin fetch usage code_from_xsd code_from_wsdl wsdl_of_module xsd_of_module w args1 w1 e args2 w2 file text,
  let run t args := main real can_write can_read getcwd stdin fetch usage code_from_xsd code_from_wsdl wsdl_of_module xsd_of_module t args w in
  w_files w file = Some text /\ text <> "" /\
  ends (run Xsd2py args1) w1 (Raises e) /\ w_files w1 file = Some "" /\
  ends (run Wsdl2py args2) w2 (Exits 2) /\ w_files w2 file = Some "".
Proof.
  exists e_real, e_writable, e_readable, "/home", "", e_fetch, "usage", e_xsd, e_wsdl, e_module, e_module, e_world.
  exists [Pos "missing.xsd"; Pos "shop.py"], (set_file e_world "shop.py" ""), OSError.
  exists [Pos "shop.wsdl"; Pos "./shop.py"], (set_file e_world "shop.py" ""), "shop.py", "# written by hand".
  cbn. repeat split; try discriminate; [exists [e_world]|exists [e_world]]; reflexivity.
Qed.
Print Assumptions C99_failed_refuted.
(** What is true: it changes none but the output file, which is empty then. *)
Theorem C99_failed_partial :
  forall real can_write can_read getcwd stdin fetch usage code_from_xsd code_from_wsdl wsdl_of_module xsd_of_module t args w w' o,
  ends (main real can_write can_read getcwd stdin fetch usage code_from_xsd code_from_wsdl wsdl_of_module xsd_of_module t args w) w' o ->
  o <> Returns 0 -> forall file,
  w_files w' file = w_files w file \/
  exists input output more, words args = input :: output :: more /\ file = real output /\ w_files w' file = Some "".
Proof. exact run_failed. Qed.
Print Assumptions C99_failed_partial.
(** A document cannot be replaced by its code: if the output is the input, the run
    fails and the document is lost. *)
Theorem C99_in_place :
  forall real can_write can_read getcwd stdin fetch usage code_from_xsd code_from_wsdl wsdl_of_module xsd_of_module t args input output target wsa w,
  line_to t args input output target wsa -> (t = Xsd2py \/ t = Wsdl2py) ->
  input <> "-" -> is_url input = false -> output <> "-" -> real output = real input -> can_write (real output) = true ->
  (forall files cwd, exists e, code_from_xsd files "" cwd = Err e) -> (forall files tg wsa cwd, exists e, code_from_wsdl files "" tg wsa cwd = Err e) ->
  exists w' e, ends (main real can_write can_read getcwd stdin fetch usage code_from_xsd code_from_wsdl wsdl_of_module xsd_of_module t args w) w' (Raises e) /\
    only_changes w w' (real input) "".
Proof. exact in_place. Qed.
Print Assumptions C99_in_place.
(** Options cannot stand between the two paths: such a run never succeeds, and
    changes no file. *)
Theorem C99_between :
  forall real can_write can_read getcwd stdin fetch usage code_from_xsd code_from_wsdl wsdl_of_module xsd_of_module t input f args output more w,
  let run := main real can_write can_read getcwd stdin fetch usage code_from_xsd code_from_wsdl wsdl_of_module xsd_of_module
               t (Pos input :: Flag f :: args ++ Pos output :: more) w in
  (forall x, passes run x -> no_file_changes w x) /\ forall n, snd run <> Returns n.
Proof. exact between. Qed.
Print Assumptions C99_between.

(** A file is overwritten; a server with -w after the paths; both targets; an option
    between the paths; the document itself as the output; the standard output. *)
Example C99_nonvacuous :
  e_end (e_main Xsd2py [Pos "shop.wsdl"; Pos "./shop.py"] e_world) = (Some "<definitions/>", Some "# XSD <definitions/> in /home", "", Returns 0) /\
  e_end (e_main Wsdl2py [Flag Server; Pos "shop.wsdl"; Pos "shop.py"; Flag UseWsa] e_world) = (Some "<definitions/>", Some "# server wsa", "", Returns 0) /\
  e_end (e_main Wsdl2py [Pos "shop.wsdl"; Pos "shop.py"; Flag Client; Flag Server] e_world) = (Some "<definitions/>", Some "", "", Exits 2) /\
  e_end (e_main Wsdl2py [Pos "shop.wsdl"; Flag Client; Pos "shop.py"] e_world) = (Some "<definitions/>", Some "# written by hand", "", Exits 2) /\
  e_end (e_main Wsdl2py [Flag Client; Pos "shop.wsdl"; Pos "./shop.wsdl"] e_world) = (Some "", Some "# written by hand", "", Raises (Exn EXMLSyntaxError "")) /\
  e_end (e_main Xsd2py [Pos "shop.wsdl"; Pos "-"] e_world) = (Some "<definitions/>", Some "# written by hand", "# XSD <definitions/> in /home", Returns 0) /\
  e_end (e_main Py2xsd [Pos "shop.py"] e_world) = (Some "<definitions/>", Some "# written by hand", "<xml/>", Returns 0) /\
  length (fst (e_main Xsd2py [Pos "shop.wsdl"; Pos "shop.py"] e_world)) = 32 /\
  In (Some "# XSD <defi") (map (fun w => w_files w "shop.py") (fst (e_main Xsd2py [Pos "shop.wsdl"; Pos "shop.py"] e_world))).
Proof.
  do 8 (split; [vm_compute; reflexivity|]). vm_compute. repeat (first [left; reflexivity | right]).
Qed.
Example C99_hypotheses :
  document e_real e_readable "" e_fetch (emptied e_files "shop.py") "shop.wsdl" "<definitions/>" /\
  chooses [Server; UseWsa] Server true /\
  line_to Wsdl2py [Flag Client; Pos "shop.wsdl"; Pos "./shop.wsdl"] "shop.wsdl" "./shop.wsdl" (Some Client) false /\
  (forall files cwd, exists e, e_xsd files "" cwd = Err e).
Proof.
  split; [|split; [|split]].
  - apply doc_file; try reflexivity. discriminate.
  - split; [now right|]. split; [now left|]. split; [intros f [<- | [<- | []]]; auto|]. split; [intros _; right; now left|reflexivity].
  - exists [Client], []. split; [reflexivity|]. exists Client. split; [reflexivity|]. split; [now left|]. split; [now left|]. split; [intros f [<- | []]; now left|]. split; [discriminate|intros [X | []]; discriminate X].
  - intros files cwd. now eexists.
Qed.
