(** The command line programs: main of /repo/soapfish/xsd2py.py:159-180,
    /repo/soapfish/wsdl2py.py:111-139, /repo/soapfish/py2wsdl.py:126-145 and
    /repo/soapfish/py2xsd.py:259-277, with open_document
    (/repo/soapfish/utils.py:29-36).

    A run is the list of all states the outside world goes through, so that it can
    be interrupted anywhere.

    Simplifications:
    - what the generators return is a parameter, a function of the files at the
      time; the generators are modelled elsewhere (XsdFiles.v, PyModule.v,
      Py2Wsdl.v, Py2Xsd.v).  Loading a module of the user's is assumed to change no
      file;
    - a command line is a list of positional arguments and options; that argparse
      also takes abbreviated and joined options, and "--", is not modelled;
    - the logger writes nowhere;
    - nobody else changes the files during the run. *)
From Coq Require Import String Ascii List ZArith NArith Bool.
From Verif Require Import PyBase PyPath.
Import ListNotations.
Open Scope nat_scope.
Open Scope string_scope.
Open Scope list_scope.

(** -c, -s, -w, -h and all others. *)
Inductive flag := Client | Server | UseWsa | Help | Other (s : string).
Inductive arg := Pos (s : string) | Flag (f : flag).

(** The contents of the files, by their real names, and what was written to the
    standard output. *)
Record world := mkW { w_files : string -> option string; w_out : string }.
Definition set_file (w : world) (name text : string) : world :=
  mkW (fun p => if String.eqb p name then Some text else w_files w p) (w_out w).

(** Where the result goes. *)
Inductive sink := Stdout | File (name : string).
Definition written_to (w : world) (k : sink) (text : string) : world :=
  match k with
  | Stdout => mkW (w_files w) (w_out w ++ text)
  | File name => set_file w name text
  end.
(** [opt.output.write(text)]: the text arrives bit by bit. *)
Fixpoint prefixes (s : string) : list string :=
  match s with "" => [""] | String c t => "" :: map (String c) (prefixes t) end.
Definition writing (w : world) (k : sink) (text : string) : list world := map (written_to w k) (prefixes text).

(** How main ends: it returns, argparse exits, or an exception passes. *)
Inductive outcome := Returns (n : nat) | Exits (n : nat) | Raises (e : exn).
(** The status of the process, [sys.exit(main())]. *)
Definition exit_status (o : outcome) : nat :=
  match o with Returns n => n | Exits n => n | Raises _ => 1 end.

(** bytes.strip() *)
Definition is_byte_space (c : ascii) : bool :=
  match N_of_ascii c with 32%N | 9%N | 10%N | 11%N | 12%N | 13%N => true | _ => false end.
Definition bytes_strip (s : string) : string := of_l (strip_l is_byte_space (to_l s)).

(** The namespace argparse fills in. *)
Record options := mkOpts {
  op_input : option string;
  op_output : sink;
  op_target : option flag;
  op_wsa : bool;
  op_extras : list string }.
Definition no_options : options := mkOpts None Stdout None false [].

(** The four programs; only wsdl2py has options of its own. *)
Inductive tool := Xsd2py | Wsdl2py | Py2wsdl | Py2xsd.
Definition has_target (t : tool) : bool := match t with Wsdl2py => true | _ => false end.

(** open() fails. *)
Definition OSError : exn := Exn (EOther "OSError") "".

Section Programs.
  (** Which file a path names, whether it can be opened for writing and for
      reading, os.getcwd(), the standard input, and requests.get(url).content. *)
  Variable real : string -> string.
  Variable can_write can_read : string -> bool.
  Variable getcwd stdin : string.
  Variable fetch : string -> res string.
  Variable usage : string.

  (** argparse.FileType('wb'): the file is emptied. *)
  Definition open_output (w : world) (path : string) : option (world * sink) :=
    if String.eqb path "-" then Some (w, Stdout)
    else if can_write (real path) then Some (set_file w (real path) "", File (real path))
    else None.

  (** The positional arguments between two options.  The first ones are taken as
      input and output together; the output has its default if there is only one.
      What is too much is remembered. *)
  Definition consume (w : world) (o : options) (run : list string) : option (world * options) :=
    match op_input o, run with
    | Some _, _ => Some (w, mkOpts (op_input o) (op_output o) (op_target o) (op_wsa o) (op_extras o ++ run))
    | None, [] => Some (w, o)
    | None, [i] => Some (w, mkOpts (Some i) Stdout (op_target o) (op_wsa o) (op_extras o))
    | None, i :: p :: more =>
        match open_output w p with
        | None => None
        | Some (w', k) => Some (w', mkOpts (Some i) k (op_target o) (op_wsa o) (op_extras o ++ more))
        end
    end.

  (** One option.  The two targets exclude each other (wsdl2py.py:119-125). *)
  Definition take (t : tool) (w : world) (o : options) (f : flag) : (world * options) + (world * nat) :=
    let unknown := inl (w, mkOpts (op_input o) (op_output o) (op_target o) (op_wsa o) (op_extras o ++ ["-"])) in
    match f with
    | Help => inr (mkW (w_files w) (w_out w ++ usage), 0)
    | Client =>
        if negb (has_target t) then unknown
        else match op_target o with
             | Some Server => inr (w, 2)
             | _ => inl (w, mkOpts (op_input o) (op_output o) (Some Client) (op_wsa o) (op_extras o))
             end
    | Server =>
        if negb (has_target t) then unknown
        else match op_target o with
             | Some Client => inr (w, 2)
             | _ => inl (w, mkOpts (op_input o) (op_output o) (Some Server) (op_wsa o) (op_extras o))
             end
    | UseWsa =>
        if negb (has_target t) then unknown
        else inl (w, mkOpts (op_input o) (op_output o) (op_target o) true (op_extras o))
    | Other _ => unknown
    end.

  (** The end of parser.parse_args: what is required is there and nothing is left. *)
  Definition finish (t : tool) (w : world) (o : options) : options + nat :=
    match op_input o with
    | None => inr 2
    | Some _ =>
        if has_target t && match op_target o with None => true | Some _ => false end then inr 2
        else match op_extras o with [] => inl o | _ => inr 2 end
    end.
  (** parser.parse_args: the states of the world on the way, the last one, and the
      options or the status argparse exits with. *)
  Fixpoint parse_args (t : tool) (args : list arg) (run : list string) (w : world) (o : options) : list world * world * (options + nat) :=
    match args with
    | Pos s :: rest => parse_args t rest (run ++ [s]) w o
    | Flag f :: rest =>
        match consume w o run with
        | None => ([], w, inr 2)
        | Some (w1, o1) =>
            match take t w1 o1 f with
            | inr (w2, n) => ([w1], w2, inr n)
            | inl (w2, o2) => let '(ws, w3, r) := parse_args t rest [] w2 o2 in (w1 :: w2 :: ws, w3, r)
            end
        end
    | [] =>
        match consume w o run with
        | None => ([], w, inr 2)
        | Some (w1, o1) => ([], w1, finish t w1 o1)
        end
    end.

  (** [stdin.read() if path == '-' else open_document(path)] *)
  Definition read_input (w : world) (path : string) : res string :=
    if String.eqb path "-" then Ok stdin
    else if is_url path then fetch path
    else match w_files w (real path) with
         | Some text => if can_read (real path) then Ok text else Err OSError
         | None => Err OSError
         end.
  (** xsd2py.py:174-175, wsdl2py.py:133-134 *)
  Definition directory (path : string) : string := dirname (if is_url path then path else abspath getcwd path).

  (** The generators: generate_code_from_xsd(xml, cwd=cwd),
      generate_code_from_wsdl(xml, target, use_wsa, cwd=cwd), and
      etree.tostring(generate_wsdl(module.SERVICE)),
      etree.tostring(generate_xsd(module.Schema)) for the module with the path. *)
  Variable code_from_xsd : (string -> option string) -> string -> string -> res string.
  Variable code_from_wsdl : (string -> option string) -> string -> option flag -> bool -> string -> res string.
  Variable wsdl_of_module xsd_of_module : (string -> option string) -> string -> res string.

  (** The text the program writes: xsd2py.py:173-178, wsdl2py.py:132-137,
      py2wsdl.py:140-143, py2xsd.py:272-275. *)
  Definition make (t : tool) (w : world) (target : option flag) (wsa : bool) (path : string) : res string :=
    match t with
    | Xsd2py =>
        xml <- read_input w path ;;
        code <- code_from_xsd (w_files w) xml (directory path) ;;
        Ok (bytes_strip code)
    | Wsdl2py =>
        xml <- read_input w path ;;
        code <- code_from_wsdl (w_files w) xml target wsa (directory path) ;;
        Ok (bytes_strip code)
    | Py2wsdl => wsdl_of_module (w_files w) path
    | Py2xsd => xsd_of_module (w_files w) path
    end.

  (** main: the states of the world, the first one being the one before, and how it
      ends. *)
  Definition main (t : tool) (args : list arg) (w : world) : list world * outcome :=
    let '(ws, w1, r) := parse_args t args [] w no_options in
    let past := w :: ws ++ [w1] in
    match r with
    | inr n => (past, Exits n)
    | inl o =>
        match op_input o with
        | None => (past, Exits 2)
        | Some input =>
            match make t w1 (op_target o) (op_wsa o) input with
            | Err e => (past, Raises e)
            | Ok text => (past ++ writing w1 (op_output o) text, Returns 0)
            end
        end
    end.
End Programs.
