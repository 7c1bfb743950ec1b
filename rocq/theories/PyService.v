(** What Python makes of the statements for services (Wsdl2Py.v): xsd.Method
    (/repo/soapfish/xsd.py:1164-1184), soap.Service (/repo/soapfish/soap.py:39-59) and the
    subclasses of soap.Stub (/repo/soapfish/soap.py:80-140).

    The statements run after those for the schemas, which have bound the
    variables Schema_... and the names of the classes: that state is where they
    start from.  A later statement may bind a name again.

    Simplifications:
    - Python compiles the module before it runs it; here a statement that cannot
      be compiled fails when its turn comes, which is failing all the same;
    - a name that is no identifier is an error (as in [def a-b]: every operation
      is also the name of a function or method);
    - a header part that is given by a type is not modelled: its text is glued to
      the line before it;
    - a function that has been replaced before its Method is made (by the Method of
      another operation) is not modelled;
    - an operation called like one of the modules used by the code that follows
      fails here when the function is defined, in Python in the next statement. *)
From Coq Require Import String Ascii List ZArith NArith Bool.
From Verif Require Import PyBase PyRe PyVal XsdSimple XsdComplex XsdMeta PyHttp Soap Client Dispatch Xsd2Py PyLoad PyUrl Wsdl2Py.
Import ListNotations.
Open Scope nat_scope.
Open Scope string_scope.
Open Scope list_scope.

Record gfunction := mkFn { fn_name : string; fn_parameter : string; fn_result : string }.
(** xsd.Method.  [input] and [output] as in Dispatch.v; the classes of the headers by
    number. *)
Record gmethod := mkGm {
  gm_op : string;
  gm_action : string;
  gm_in : iospec;
  gm_out : iospec;
  gm_in_part : string;
  gm_out_part : string;
  gm_ih : option nat;
  gm_oh : option nat;
  gm_fn : option gfunction;
  gm_style : string }.
(** What get_element_by_name of a Schema finds: Element objects by number. *)
Definition elements_of := list (string * nat).
(** soap.Service *)
Record gservice := mkGsv {
  gv_name : string;
  gv_tns : string;
  gv_location : string;
  gv_schemas : list elements_of;
  gv_version : soapver;
  gv_methods : list gmethod }.
(** A subclass of soap.Stub: its attributes SERVICE, SCHEME and HOST, and its
    methods, each of which passes its parameter to [self.call] with the name of an operation. *)
Record gstub := mkGst {
  gt_service : gservice;
  gt_scheme : string;
  gt_host : string;
  gt_calls : list (string * string) }.

Inductive wval :=
| WvSchema (elements : elements_of)
| WvClass (c : nat)
| WvFunction (f : gfunction)
| WvMethod (m : gmethod)
| WvService (s : gservice)
| WvStub (t : gstub)
| WvOther.
Record wstate := mkWst { st_world : world; st_names : list (string * wval) }.
Definition bind_name (st : wstate) (n : string) (x : wval) : wstate := mkWst (st_world st) (assoc_set n x (st_names st)).

Definition NotModelled := Exn (EOther "not modelled") "".
Definition lookup (st : wstate) (n : string) : res wval :=
  if identifier n then match assoc n (st_names st) with Some x => Ok x | None => Err NameError end else Err SyntaxError.

Section exec.
  Variables (rt : runtime) (base : nat).

  (** A string argument, or the default. *)
  Definition text_arg (kw : list (string * wexpr)) (k default : string) : res string :=
    match assoc k kw with
    | Some (WText t) => literal rt false t
    | Some (WName _) => Err TypeError
    | None => Ok default
    end.
  Definition io_arg (st : wstate) (kw : list (string * wexpr)) (k : string) : res iospec :=
    match assoc k kw with
    | Some (WText t) => res_map IOName (literal rt false t)
    | Some (WName n) => lookup st n ;;; Ok (IOClass n)
    | None => Ok IONone
    end.
  Definition header_value (st : wstate) (kw : list (string * wexpr)) (k : string) : res (option nat) :=
    match assoc k kw with
    | Some (WName n) => x <- lookup st n ;; match x with WvClass c => Ok (Some c) | _ => Err TypeError end
    | Some (WText _) => Err TypeError
    | None => Ok None
    end.
  Definition function_value (st : wstate) (kw : list (string * wexpr)) : res (option gfunction) :=
    match assoc "function" kw with
    | Some (WName n) => x <- lookup st n ;; match x with WvFunction f => Ok (Some f) | _ => Err NotModelled end
    | Some (WText _) => Err TypeError
    | None => Ok None
    end.
  (** xsd.Method(...), xsd.py:1172-1184 *)
  Definition new_method (st : wstate) (kw : list (string * wexpr)) : res gmethod :=
    fn <- function_value st kw ;;
    action <- text_arg kw "soapAction" "" ;;
    i <- io_arg st kw "input" ;;
    ip <- text_arg kw "inputPartName" "body" ;;
    ih <- header_value st kw "input_header" ;;
    o <- io_arg st kw "output" ;;
    op <- text_arg kw "outputPartName" "body" ;;
    oh <- header_value st kw "output_header" ;;
    name <- text_arg kw "operationName" "" ;;
    style <- text_arg kw "style" "document" ;;
    Ok (mkGm name action i o ip op ih oh fn style).

  (** The fields of a header class: [part = SCHEMA.get_element_by_name('element')] *)
  Definition header_entry (elements : elements_of) (d : namespace) (p : string * wexpr) : res namespace :=
    match snd p with
    | WText e =>
        if negb (identifier (fst p)) then Err SyntaxError
        else if String.eqb (fst p) "SCHEMA" then Err NotModelled
        else
          e <- literal rt false e ;;
          Ok (assoc_set (fst p) (match assoc e elements with Some n => ADesc n | None => AOther end) d)
    | WName _ => Err NotModelled
    end.

  Definition names_used : list string := ["soap"; "xsd"; "BaseHeader"].
  Definition exec_stmt (st : wstate) (s : wstmt) : res wstate :=
    match s with
    | SFunction n p r =>
        if identifier n && identifier p && negb (String.eqb p "request") && (identifier r || String.eqb r "None") then
          if str_in n names_used then Err NotModelled else Ok (bind_name st n (WvFunction (mkFn n p r)))
        else Err SyntaxError
    | SHeaders n schema parts =>
        if negb (identifier n) then Err SyntaxError
        else
          x <- lookup st schema ;;
          match x with
          | WvSchema elements =>
              d <- foldM (header_entry elements) [("SCHEMA", AOther)] parts ;;
              let w := st_world st in
              let mro := match nth_error (w_classes w) base with Some k => k_mro k | None => [base] end in
              w' <- exec w (DefClass d mro) ;;
              Ok (bind_name (mkWst w' (st_names st)) n (WvClass (length (w_classes w))))
          | _ => Err AttributeError
          end
    | SMethod n kw =>
        if negb (identifier n) then Err SyntaxError
        else m <- new_method st kw ;; Ok (bind_name st n (WvMethod m))
    | SService n port tns location schemas v methods =>
        if negb (identifier n) then Err SyntaxError
        else
          name <- literal rt false port ;;
          tns <- literal rt false tns ;;
          location <- literal rt false location ;;
          ss <- mapM (fun s => x <- lookup st s ;; match x with WvSchema e => Ok e | _ => Err TypeError end) schemas ;;
          ms <- mapM (fun m => x <- lookup st m ;; match x with WvMethod m => Ok m | _ => Err TypeError end) methods ;;
          Ok (bind_name st n (WvService (mkGsv name tns location ss v ms)))
    | SStub n service scheme host calls =>
        if negb (identifier n) then Err SyntaxError
        else
          x <- lookup st service ;;
          match x with
          | WvService s =>
              scheme <- literal rt false scheme ;;
              host <- literal rt false host ;;
              cs <- foldM (fun cs c =>
                      let '(op, p) := c in
                      if identifier op && identifier p && negb (str_in p ["self"; "header"]) then
                        Ok (assoc_set op op cs)
                      else Err SyntaxError) [] calls ;;
              Ok (bind_name st n (WvStub (mkGst s scheme host cs)))
          | _ => Err TypeError
          end
    end.
  Definition exec_service (st : wstate) (code : list wstmt) : res wstate := foldM exec_stmt st code.
End exec.

(** ** Using a stub *)

(** The attributes of an instance, set in Stub.__init__ (soap.py:87-101), come before the methods
    of its class; those of Stub come last. *)
Definition instance_attributes : list string := ["username"; "password"; "service"; "location"].
(** The name of the operation that [stub.name(x)] passes to Stub.call: none if
    the attribute is something else.  A method called [call] calls itself. *)
Definition stub_operation (t : gstub) (name : string) : option string :=
  if str_in name instance_attributes then None
  else match assoc "call" (gt_calls t) with
       | Some _ => None
       | None => assoc name (gt_calls t)
       end.
(** The location of an instance made without arguments. *)
Definition stub_posts_to (t : gstub) : res string :=
  stub_location (gv_location (gt_service t)) (gt_scheme t) (gt_host t) LNone.
(** Service.get_method, soap.py:58-59 *)
Definition method_of (s : gservice) (op : string) : option gmethod :=
  find (fun m => String.eqb (gm_op m) op) (gv_methods s).
