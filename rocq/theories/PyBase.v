(** Python primitives used throughout the model: exceptions, results, [str]
    and [int].

    Simplification: a Python [str] is a Coq [string], i.e. a sequence of code
    points 0..255 (Latin-1).  Code points above 255 are not representable.
    Nothing in the modelled code treats them specially. *)
From Coq Require Import String Ascii List ZArith NArith Bool.
Import ListNotations.
Open Scope string_scope.
Open Scope list_scope.

(** ** Exceptions as values *)

(** The exception classes the modelled code raises or lets escape.
    [EOutOfFuel] is not a Python exception: it marks that a fuelled model
    function ran out of fuel; theorems exclude it.  Python's own
    RecursionError is [ERecursion]. *)
Inductive exn_class :=
| EValueError | ETypeError | EAttributeError | EKeyError | EIndexError
| ENotImplementedError | ERecursion | EUnboundLocalError | EOverflowError
| EParseError          (* iso8601.ParseError *)
| EXMLSyntaxError      (* lxml.etree.XMLSyntaxError *)
| EDocumentInvalid     (* lxml.etree.DocumentInvalid *)
| EStopIteration
| EAssertionError
| EOther (name : string)
| EOutOfFuel.

(** An exception: either an ordinary one (class and message) or
    [soapfish.core.SOAPError] with its code, message and actor
    (/repo/soapfish/core.py:4-11).
    Simplification: messages built from [repr] of the offending value are
    modelled as the empty string. *)
Inductive exn :=
| Exn (c : exn_class) (msg : string)
| SOAPError (code msg : string) (actor : option string).

Definition ValueError := Exn EValueError "".
Definition TypeError := Exn ETypeError "".
Definition AttributeError := Exn EAttributeError "".
Definition KeyError := Exn EKeyError "".
Definition IndexError := Exn EIndexError "".
Definition OutOfFuel := Exn EOutOfFuel "".
Definition RecursionError := Exn ERecursion "".

(** [isinstance(e, ValueError)]-style tests. *)
Definition is_value_error (e : exn) : bool :=
  match e with Exn EValueError _ => true | _ => false end.

Inductive res (A : Type) :=
| Ok (a : A)
| Err (e : exn).
Arguments Ok {A} _.
Arguments Err {A} _.

Definition bind {A B} (r : res A) (f : A -> res B) : res B :=
  match r with Ok a => f a | Err e => Err e end.
Notation "x <- r ;; k" := (bind r (fun x => k))
  (at level 61, r at next level, right associativity).
Notation "r ;;; k" := (bind r (fun _ => k)) (at level 61, right associativity).

Definition res_map {A B} (f : A -> B) (r : res A) : res B :=
  match r with Ok a => Ok (f a) | Err e => Err e end.

Definition is_ok {A} (r : res A) : bool :=
  match r with Ok _ => true | Err _ => false end.

(** [for x in l: acc = f(acc, x)] where the body may raise. *)
Fixpoint foldM {A B} (f : A -> B -> res A) (acc : A) (l : list B) : res A :=
  match l with
  | [] => Ok acc
  | x :: t => acc' <- f acc x ;; foldM f acc' t
  end.

(** [[f(x) for x in l]] where [f] may raise. *)
Fixpoint mapM {A B} (f : A -> res B) (l : list A) : res (list B) :=
  match l with
  | [] => Ok []
  | x :: t => y <- f x ;; ys <- mapM f t ;; Ok (y :: ys)
  end.

(** ** Characters *)

Definition code (c : ascii) : N := N_of_ascii c.
Definition chr (n : N) : ascii := ascii_of_N n.

Definition in_range (lo hi : N) (c : ascii) : bool :=
  (lo <=? code c)%N && (code c <=? hi)%N.

(** [\d] restricted to code points 0..255. *)
Definition is_digit (c : ascii) : bool := in_range 48 57 c.

(** [\s] / [str.isspace] restricted to code points 0..255: \t \n \v \f \r
    0x1c-0x1f space 0x85 0xa0. *)
Definition is_space (c : ascii) : bool :=
  in_range 9 13 c || in_range 28 32 c || (code c =? 133)%N || (code c =? 160)%N.

(** White space stripped by [int(str)]: as [is_space] without 0x1c-0x1f. *)
Definition is_int_space (c : ascii) : bool :=
  in_range 9 13 c || (code c =? 32)%N || (code c =? 133)%N || (code c =? 160)%N.

(** [str.lower] / [str.upper] on one code point.  Simplification: the three
    code points whose upper case leaves Latin-1 (0xb5 0xdf 0xff) are fixed. *)
Definition lower_char (c : ascii) : ascii :=
  if in_range 65 90 c || (in_range 192 222 c && negb (code c =? 215)%N)
  then chr (code c + 32) else c.
Definition upper_char (c : ascii) : ascii :=
  if in_range 97 122 c || (in_range 224 254 c && negb (code c =? 247)%N)
  then chr (code c - 32) else c.

Definition nl : ascii := chr 10.
Definition space : ascii := chr 32.

(** ** Strings *)

Notation to_l := list_ascii_of_string.
Notation of_l := string_of_list_ascii.

(** [len(s)] *)
Definition slen (s : string) : Z := Z.of_nat (String.length s).

(** [s in l] for a list of strings. *)
Definition str_in (s : string) (l : list string) : bool :=
  existsb (String.eqb s) l.

(** [c in s] for a one-character [c]. *)
Definition char_in (c : ascii) (s : string) : bool :=
  existsb (Ascii.eqb c) (to_l s).

Definition str_map (f : ascii -> ascii) (s : string) : string :=
  of_l (map f (to_l s)).

(** [s.lower()], [s.upper()] *)
Definition str_lower (s : string) : string := str_map lower_char s.
Definition str_upper (s : string) : string := str_map upper_char s.

(** [s.split(c)] for a one-character separator: always at least one piece. *)
Fixpoint split_l (c : ascii) (l : list ascii) : list (list ascii) :=
  match l with
  | [] => [[]]
  | x :: t =>
      if Ascii.eqb x c then [] :: split_l c t
      else match split_l c t with
           | [] => [[x]]
           | p :: ps => (x :: p) :: ps
           end
  end.
Definition str_split (c : ascii) (s : string) : list string :=
  map of_l (split_l c (to_l s)).

(** [s.split(c, 1)] : the part before the first [c] and, if there is one, the
    rest. *)
Fixpoint partition_l (c : ascii) (l : list ascii) : list ascii * option (list ascii) :=
  match l with
  | [] => ([], None)
  | x :: t =>
      if Ascii.eqb x c then ([], Some t)
      else let '(p, r) := partition_l c t in (x :: p, r)
  end.
Definition str_partition (c : ascii) (s : string) : string * option string :=
  let '(p, r) := partition_l c (to_l s) in (of_l p, option_map of_l r).

(** [s.lstrip()], [s.strip()] with a given notion of white space. *)
Fixpoint lstrip_l (p : ascii -> bool) (l : list ascii) : list ascii :=
  match l with
  | [] => []
  | x :: t => if p x then lstrip_l p t else l
  end.
Definition strip_l (p : ascii -> bool) (l : list ascii) : list ascii :=
  rev (lstrip_l p (rev (lstrip_l p l))).
Definition str_strip (s : string) : string := of_l (strip_l is_space (to_l s)).

(** ** Decimal numerals *)

Definition digit_char (d : N) : ascii := chr (48 + d).
Definition digit_val (c : ascii) : N := (code c - 48)%N.

(** Digits of [n], most significant first; [fuel] at least the number of
    digits. *)
Fixpoint dec_digits (fuel : nat) (n : N) (acc : list ascii) : list ascii :=
  match fuel with
  | O => acc
  | S f =>
      let acc' := digit_char (n mod 10) :: acc in
      if (n <? 10)%N then acc' else dec_digits f (n / 10) acc'
  end.
Definition dec_fuel (n : N) : nat := S (N.to_nat (N.log2 n)).

(** [str(n)] for a non-negative int, as characters. *)
Definition dec_l (n : N) : list ascii := dec_digits (dec_fuel n) n [].
Definition dec_N (n : N) : string := of_l (dec_l n).

(** [str(z)] for an int. *)
Definition dec_Z (z : Z) : string :=
  match z with
  | Z0 => "0"
  | Zpos p => dec_N (Npos p)
  | Zneg p => String "-"%char (dec_N (Npos p))
  end.

(** ['%0kd' % n] for [0 <= n < 10^k]: exactly [k] digits. *)
Fixpoint fixed_l (k : nat) (n : N) : list ascii :=
  match k with
  | O => []
  | S k' => fixed_l k' (n / 10) ++ [digit_char (n mod 10)]
  end.

(** ['%02d' % n] / ['{n:02d}'] for a non-negative int. *)
Definition pad2_l (n : N) : list ascii :=
  if (n <? 10)%N then "0"%char :: dec_l n else dec_l n.

(** Value of a digit string, most significant first. *)
Definition digits_value (l : list ascii) : N :=
  fold_left (fun acc c => acc * 10 + digit_val c)%N l 0%N.

(** The digits part of [int(str)]: digits with single underscores between
    them. *)
Fixpoint int_body (l : list ascii) (acc : N) (prev_digit : bool) : option N :=
  match l with
  | [] => if prev_digit then Some acc else None
  | c :: t =>
      if is_digit c then int_body t (acc * 10 + digit_val c)%N true
      else if Ascii.eqb c "_" && prev_digit then int_body t acc false
      else None
  end.

(** [int(s)] for a str (base 10).
    Simplification: CPython >= 3.11's 4300-digit limit is not modelled. *)
Definition int_of_str (s : string) : res Z :=
  let l := strip_l is_int_space (to_l s) in
  let r := match l with
           | "-"%char :: t => option_map (fun n => (- Z.of_N n)%Z) (int_body t 0 false)
           | "+"%char :: t => option_map Z.of_N (int_body t 0 false)
           | _ => option_map Z.of_N (int_body l 0 false)
           end in
  match r with Some z => Ok z | None => Err ValueError end.

(** ** Dictionaries as association lists (insertion order, unique keys) *)

Fixpoint assoc {A} (k : string) (l : list (string * A)) : option A :=
  match l with
  | [] => None
  | (k', v) :: t => if String.eqb k k' then Some v else assoc k t
  end.

(** [d[k] = v]: update in place or append. *)
Fixpoint assoc_set {A} (k : string) (v : A) (l : list (string * A)) : list (string * A) :=
  match l with
  | [] => [(k, v)]
  | (k', v') :: t => if String.eqb k k' then (k', v) :: t else (k', v') :: assoc_set k v t
  end.

(** [x or y] for an optional string: [None] and [''] are falsy. *)
Definition truthy_str (o : option string) : bool :=
  match o with None => false | Some "" => false | Some _ => true end.
