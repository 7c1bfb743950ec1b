(** Specification of the simple types, written against XML Schema and the
    documentation rather than against the code. *)
From Coq Require Import String Ascii List ZArith NArith Bool QArith.
From Verif Require Import PyBase PyRe Xml PyVal XsdSimple.
Import ListNotations.
Open Scope Z_scope.

(** ** White space *)

(** [l'] is [l] with every white-space character replaced by a space. *)
Definition ws_replaced (l l' : list ascii) : Prop :=
  Forall2 (fun c c' => if is_space c then c' = space else c' = c) l l'.

Definition starts_with_ws (l : list ascii) : bool :=
  match l with c :: _ => is_space c | [] => false end.

(** [l'] is [l] with every maximal run of white space replaced by one space. *)
Inductive ws_collapsed : list ascii -> list ascii -> Prop :=
| wc_nil : ws_collapsed [] []
| wc_char c l l' : is_space c = false -> ws_collapsed l l' -> ws_collapsed (c :: l) (c :: l')
| wc_run w l l' : w <> [] -> forallb is_space w = true -> starts_with_ws l = false ->
    ws_collapsed l l' -> ws_collapsed (w ++ l) (space :: l').

(** The normalised form of a string under a whiteSpace setting. *)
Definition ws_normal (ws : option string) (s s' : string) : Prop :=
  if match ws with Some w => String.eqb w "replace" | None => false end
  then ws_replaced (to_l s) (to_l s')
  else if match ws with Some w => String.eqb w "collapse" | None => false end
  then ws_collapsed (to_l s) (to_l s')
  else s' = s.

(** ** String facets *)

(** A value satisfies a pattern when all of it matches; Python's [$] also
    tolerates one final newline. *)
Definition pattern_sat (r : re) (s : string) : Prop :=
  full_match r (to_l s) \/ full_match_nl r (to_l s).

Definition facets_sat (f : sfacets) (s : string) : Prop :=
  (forall r, sf_pattern f = Some r -> pattern_sat r s) /\
  (forall l, sf_enum f = Some l -> In s l) /\
  (forall n, sf_length f = Some n -> slen s = n) /\
  (forall n, sf_minLength f = Some n -> n <= slen s) /\
  (forall n, sf_maxLength f = Some n -> slen s <= n).

(** Facet declarations for which the code enforces what it should: no zero
    lengths, no empty enumeration, no top-level alternation in the pattern. *)
Definition facets_proper (f : sfacets) : Prop :=
  sf_enum f <> Some [] /\ sf_length f <> Some 0 /\ sf_minLength f <> Some 0 /\
  sf_maxLength f <> Some 0 /\ (forall r, sf_pattern f = Some r -> no_top_alt r = true).

(** ** Integer ranges (XML Schema Part 2, section 3.3) *)
Definition int_lo (c : intcls) : option Z :=
  match c with
  | CInteger | CNonPositiveInteger | CNegativeInteger => None
  | CNonNegativeInteger => Some 0
  | CPositiveInteger => Some 1
  | CLong => Some (- 2 ^ 63) | CInt => Some (- 2 ^ 31)
  | CShort => Some (- 2 ^ 15) | CByte => Some (- 2 ^ 7)
  | CUnsignedLong | CUnsignedInt | CUnsignedShort | CUnsignedByte => Some 0
  end.
Definition int_hi (c : intcls) : option Z :=
  match c with
  | CInteger | CNonNegativeInteger | CPositiveInteger => None
  | CNonPositiveInteger => Some 0
  | CNegativeInteger => Some (-1)
  | CLong => Some (2 ^ 63 - 1) | CInt => Some (2 ^ 31 - 1)
  | CShort => Some (2 ^ 15 - 1) | CByte => Some (2 ^ 7 - 1)
  | CUnsignedLong => Some (2 ^ 64 - 1) | CUnsignedInt => Some (2 ^ 32 - 1)
  | CUnsignedShort => Some (2 ^ 16 - 1) | CUnsignedByte => Some (2 ^ 8 - 1)
  end.
Definition in_int_range (c : intcls) (z : Z) : Prop :=
  (forall b, int_lo c = Some b -> b <= z) /\ (forall b, int_hi c = Some b -> z <= b).

(** ** Order on numbers; a NaN is comparable to nothing *)
Definition num_le (a b : num) : Prop :=
  match a, b with
  | NNaN, _ | _, NNaN => False
  | NNInf, _ | _, NPInf => True
  | NFin p, NFin q => (p <= q)%Q
  | _, _ => False
  end.
Definition num_lt (a b : num) : Prop :=
  match a, b with
  | NNaN, _ | _, NNaN => False
  | NNInf, NNInf | NPInf, NPInf => False
  | NNInf, _ | _, NPInf => True
  | NFin p, NFin q => (p < q)%Q
  | _, _ => False
  end.

(** Bounds of a numeric type, for a value of mathematical value [x] and bounds
    that are numbers. *)
Definition bounds_sat (f : dfacets) (x : num) : Prop :=
  (forall b y, df_maxEx f = Some b -> num_of b = Some y -> num_lt x y) /\
  (forall b y, df_maxIn f = Some b -> num_of b = Some y -> num_le x y) /\
  (forall b y, df_minEx f = Some b -> num_of b = Some y -> num_lt y x) /\
  (forall b y, df_minIn f = Some b -> num_of b = Some y -> num_le y x).

(** All declared bounds are numbers (ints, floats, decimals) other than NaN. *)
Definition is_number (v : pyval) : Prop :=
  exists x, num_of v = Some x /\ x <> NNaN.
Definition bounds_numeric (f : dfacets) : Prop :=
  (forall b, df_maxEx f = Some b -> is_number b) /\
  (forall b, df_maxIn f = Some b -> is_number b) /\
  (forall b, df_minEx f = Some b -> is_number b) /\
  (forall b, df_minIn f = Some b -> is_number b).

(** The textual facets as documented: the number of digits after the point is
    exactly [fractionDigits] (none and no point for 0), and the text has at most
    [totalDigits] characters other than the point. *)
Definition fraction_ok (text : string) (n : Z) : Prop :=
  (n = 0 /\ ~ In "."%char (to_l text)) \/
  (n <> 0 /\ exists ip fp rest, to_l text = ip ++ "."%char :: fp ++ rest /\
     ~ In "."%char ip /\ ~ In "."%char fp /\
     (rest = [] \/ exists r, rest = "."%char :: r) /\ Z.of_nat (length fp) = n).
Definition total_ok (text : string) (n : Z) : Prop :=
  (~ In "."%char (to_l text) /\ slen text <= n) \/
  (In "."%char (to_l text) /\ slen text - 1 <= n).
Definition text_sat (f : dfacets) (text : string) : Prop :=
  (forall n, df_fraction f = Some n -> fraction_ok text n) /\
  (forall r, df_pattern f = Some r -> pattern_sat r text) /\
  (forall n, df_total f = Some n -> total_ok text n).

(** Patterns the [+ '$'] concatenation anchors properly. *)
Definition pattern_proper (f : dfacets) : Prop :=
  forall r, df_pattern f = Some r -> no_top_alt r = true.

(** Membership in an enumeration of numbers is by numeric value. *)
Definition enum_sat (f : dfacets) (x : num) : Prop :=
  forall l, df_enum f = Some l ->
    exists e y, In e l /\ num_of e = Some y /\ num_le x y /\ num_le y x.

(** ** Texts of integers *)

(** Groups of digits separated by single underscores. *)
Fixpoint join_us (gs : list (list ascii)) : list ascii :=
  match gs with
  | [] => []
  | [g] => g
  | g :: t => g ++ "_"%char :: join_us t
  end.
Definition int_groups (gs : list (list ascii)) : Prop :=
  gs <> [] /\ Forall (fun g => g <> [] /\ forallb is_digit g = true) gs.

(** [s] is an integer literal as Python's [int()] reads it: optional white
    space, optional sign, digits with optional single underscores between them. *)
Definition int_text (s : string) (z : Z) : Prop :=
  exists w1 sg gs w2,
    to_l s = w1 ++ sg ++ join_us gs ++ w2 /\
    forallb is_int_space w1 = true /\ forallb is_int_space w2 = true /\
    int_groups gs /\
    ((sg = [] /\ z = Z.of_N (digits_value (concat gs))) \/
     (sg = ["+"%char] /\ z = Z.of_N (digits_value (concat gs))) \/
     (sg = ["-"%char] /\ z = - Z.of_N (digits_value (concat gs)))).

(** ** Texts of decimal numbers *)

(** [[-]ip[.fp][E(+|-)ex]] and the number it denotes. *)
Definition decimal_text (s : string) (x : Q) : Prop :=
  exists neg ip fp ex exs,
    to_l s = (if neg : bool then ["-"%char] else []) ++ ip ++
             (match fp with [] => [] | _ => "."%char :: fp end) ++ exs /\
    ip <> [] /\ forallb is_digit ip = true /\ forallb is_digit fp = true /\
    (exs = [] /\ ex = 0 \/
     exists sg ds, exs = "E"%char :: sg :: ds /\ ds <> [] /\ forallb is_digit ds = true /\
       (sg = "+"%char /\ ex = Z.of_N (digits_value ds) \/
        sg = "-"%char /\ ex = - Z.of_N (digits_value ds))) /\
    (x == (if neg then -1 else 1) * inject_Z (Z.of_N (digits_value (ip ++ fp)))
          * pow10 (ex - Z.of_nat (length fp)))%Q.

(** A facet set with one facet replaced. *)
Definition with_maxIn (b : option pyval) (f : dfacets) : dfacets :=
  {| df_enum := df_enum f; df_fraction := df_fraction f; df_maxEx := df_maxEx f;
     df_maxIn := b; df_minEx := df_minEx f; df_minIn := df_minIn f;
     df_pattern := df_pattern f; df_total := df_total f |}.
Definition with_minIn (b : option pyval) (f : dfacets) : dfacets :=
  {| df_enum := df_enum f; df_fraction := df_fraction f; df_maxEx := df_maxEx f;
     df_maxIn := df_maxIn f; df_minEx := df_minEx f; df_minIn := b;
     df_pattern := df_pattern f; df_total := df_total f |}.
Definition with_pattern (r : option re) (f : dfacets) : dfacets :=
  {| df_enum := df_enum f; df_fraction := df_fraction f; df_maxEx := df_maxEx f;
     df_maxIn := df_maxIn f; df_minEx := df_minEx f; df_minIn := df_minIn f;
     df_pattern := r; df_total := df_total f |}.

(** A numeric bound is declared. *)
Definition has_numeric_bound (f : dfacets) : Prop :=
  exists b, is_number b /\
    (df_maxEx f = Some b \/ df_maxIn f = Some b \/ df_minEx f = Some b \/ df_minIn f = Some b).

Definition dfacets_sat (f : dfacets) (x : num) (text : string) : Prop :=
  enum_sat f x /\ bounds_sat f x /\ text_sat f text.

(** The characters other than white space, in order. *)
Definition nonws (l : list ascii) : list ascii := filter (fun c => negb (is_space c)) l.

(** No two adjacent white-space characters. *)
Fixpoint no_double (l : list ascii) : Prop :=
  match l with
  | c :: ((d :: _) as t) => (is_space c = true -> is_space d = true -> False) /\ no_double t
  | _ => True
  end.
