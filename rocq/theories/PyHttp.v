(** Python library functions on HTTP texts: [cgi.parse_header],
    [urllib.parse.parse_qs], [string.Template.safe_substitute],
    [str.replace].  Modelled after CPython 3.11. *)
From Coq Require Import String Ascii List ZArith NArith Bool.
From Verif Require Import PyBase.
Import ListNotations.
Open Scope string_scope.
Open Scope list_scope.

Definition quote_c : ascii := chr 34.      (* double quote *)
Definition bslash : ascii := chr 92.       (* backslash *)
Definition semi : ascii := ";"%char.

(** [s.replace(c, '')] for one character. *)
Definition str_remove (c : ascii) (s : string) : string :=
  of_l (filter (fun x => negb (Ascii.eqb x c)) (to_l s)).

(** [s.replace(ab, r)] for a two-character text [ab] and one character [r]. *)
Fixpoint replace2_l (a b r : ascii) (l : list ascii) : list ascii :=
  match l with
  | x :: ((y :: t2) as t1) =>
      if Ascii.eqb x a && Ascii.eqb y b then r :: replace2_l a b r t2
      else x :: replace2_l a b r t1
  | _ => l
  end.

(** ** cgi.parse_header *)

(** The first parameter of [cgi._parseparam]: up to the first [';'] before which
    the number of quotes that do not follow a backslash is even.  (CPython
    counts quotes minus backslash-quote pairs in the text before the [';'],
    which is that number.) *)
Fixpoint param_split (prev_bs odd : bool) (l : list ascii) : list ascii * list ascii :=
  match l with
  | [] => ([], [])
  | c :: t =>
      if Ascii.eqb c semi && negb odd then ([], l)
      else
        let odd' := if Ascii.eqb c quote_c && negb prev_bs then negb odd else odd in
        let '(p, r) := param_split (Ascii.eqb c bslash) odd' t in (c :: p, r)
  end.
(** [cgi._parseparam(s)] where [s] starts with [';'] or is empty; [n] at least
    the length of [l]. *)
Fixpoint parse_params (n : nat) (l : list ascii) : list (list ascii) :=
  match n, l with
  | S n', c :: t =>
      if Ascii.eqb c semi then
        let '(p, r) := param_split false false t in
        strip_l is_space p :: parse_params n' r
      else []
  | _, _ => []
  end.

(** The value of a parameter: quotes removed, escapes undone. *)
Definition unquote_param (v : list ascii) : list ascii :=
  match v with
  | q :: t =>
      match rev t with
      | q' :: r => if Ascii.eqb q quote_c && Ascii.eqb q' quote_c
                   then replace2_l bslash quote_c quote_c (replace2_l bslash bslash bslash (rev r))
                   else v
      | [] => v
      end
  | [] => v
  end.
Definition param_pair (p : list ascii) : option (string * string) :=
  match partition_l "="%char p with
  | (name, Some value) =>
      Some (of_l (map lower_char (strip_l is_space name)), of_l (unquote_param (strip_l is_space value)))
  | (_, None) => None
  end.
(** [cgi.parse_header(line)] *)
Definition parse_header (line : string) : string * list (string * string) :=
  match parse_params (S (S (String.length line))) (semi :: to_l line) with
  | [] => ("", [])
  | key :: parts =>
      (of_l key,
       fold_left (fun d p => match param_pair p with Some (k, v) => assoc_set k v d | None => d end) parts [])
  end.

(** ** urllib.parse.parse_qs(qs, keep_blank_values=True) *)

Definition hex_val (c : ascii) : option N :=
  if is_digit c then Some (code c - 48)%N
  else if in_range 65 70 c then Some (code c - 55)%N
  else if in_range 97 102 c then Some (code c - 87)%N
  else None.
(** [unquote_plus].  Simplification: percent escapes above 7F denote the code
    point of that number (CPython decodes runs of them as UTF-8). *)
Fixpoint unquote_l (l : list ascii) : list ascii :=
  match l with
  | [] => []
  | c :: t =>
      if Ascii.eqb c "+" then space :: unquote_l t
      else if Ascii.eqb c "%" then
        match t with
        | a :: b :: t' =>
            match hex_val a, hex_val b with
            | Some x, Some y => chr (16 * x + y) :: unquote_l t'
            | _, _ => c :: unquote_l t
            end
        | _ => c :: unquote_l t
        end
      else c :: unquote_l t
  end.
(** The list of (name, value) pairs; [parse_qs] groups them by name. *)
Definition parse_qsl (qs : string) : list (string * string) :=
  flat_map (fun nv =>
    match nv with
    | [] => []
    | _ => let '(n, v) := partition_l "="%char nv in
           [(of_l (unquote_l n), of_l (unquote_l (match v with Some v => v | None => [] end)))]
    end) (split_l "&"%char (to_l qs)).
(** [name in parse_qs(qs)] *)
Definition qs_has (name : string) (q : list (string * string)) : bool :=
  match assoc name q with Some _ => true | None => false end.

(** ** string.Template.safe_substitute *)

Definition dollar : ascii := "$"%char.
Definition id_start (c : ascii) : bool :=
  in_range 65 90 c || in_range 97 122 c || Ascii.eqb c "_".
Definition id_char (c : ascii) : bool := id_start c || is_digit c.
(** The longest prefix of identifier characters and the rest. *)
Fixpoint span_id (l : list ascii) : list ascii * list ascii :=
  match l with
  | c :: t => if id_char c then let '(p, r) := span_id t in (c :: p, r) else ([], l)
  | [] => ([], [])
  end.
(** [Template(s).safe_substitute] with keywords [mapping]; [n] at least the length of [l]. *)
Fixpoint subst_l (n : nat) (mapping : list (string * string)) (l : list ascii) : list ascii :=
  match n, l with
  | S n', c :: t =>
      if Ascii.eqb c dollar then
        match t with
        | d :: t' =>
            if Ascii.eqb d dollar then dollar :: subst_l n' mapping t'
            else if id_start d then
              let '(p, r) := span_id t in
              match assoc (of_l p) mapping with
              | Some v => to_l v ++ subst_l n' mapping r
              | None => c :: p ++ subst_l n' mapping r
              end
            else if Ascii.eqb d "{" then
              let '(p, r) := span_id t' in
              match p, r with
              | i :: _, e :: r' =>
                  if id_start i && Ascii.eqb e "}" then
                    match assoc (of_l p) mapping with
                    | Some v => to_l v ++ subst_l n' mapping r'
                    | None => c :: d :: p ++ e :: subst_l n' mapping r'
                    end
                  else c :: subst_l n' mapping t
              | _, _ => c :: subst_l n' mapping t
              end
            else c :: subst_l n' mapping t
        | [] => [c]
        end
      else c :: subst_l n' mapping t
  | _, _ => l
  end.
Definition safe_substitute (mapping : list (string * string)) (s : string) : string :=
  of_l (subst_l (String.length s) mapping (to_l s)).
