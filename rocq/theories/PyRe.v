(** Python [re] restricted to what facet patterns need: a syntax tree, its
    relational meaning and an executable matcher.

    The tree records the grouping of the pattern *source*: [RAlt] is a bare
    [a|b], [RGroup] a parenthesised (sub)pattern.  This matters because the code
    under study concatenates pattern texts ([pattern + '$']).
    Not modelled: backreferences, look-around, flags, invalid patterns. *)
From Coq Require Import String Ascii List ZArith NArith Bool Lia.
From Verif Require Import PyBase.
Import ListNotations.

Inductive re :=
| REps
| RSet (p : ascii -> bool)      (* one character of a set *)
| RBol                          (* ^ *)
| REol                          (* $ *)
| RSeq (a b : re)
| RAlt (a b : re)
| RStar (a : re)
| RGroup (a : re).

(** Position in the subject: are we at the start, and what is left. *)
Definition st : Type := (bool * list ascii)%type.

(** [rm r s s']: [r] can match from position [s] up to position [s'].
    [$] (no MULTILINE) holds at the end and before a final newline. *)
Inductive rm : re -> st -> st -> Prop :=
| rm_eps s : rm REps s s
| rm_set p b c t : p c = true -> rm (RSet p) (b, c :: t) (false, t)
| rm_bol t : rm RBol (true, t) (true, t)
| rm_eol b : rm REol (b, []) (b, [])
| rm_eol_nl b : rm REol (b, [nl]) (b, [nl])
| rm_seq a b s s1 s2 : rm a s s1 -> rm b s1 s2 -> rm (RSeq a b) s s2
| rm_alt_l a b s s' : rm a s s' -> rm (RAlt a b) s s'
| rm_alt_r a b s s' : rm b s s' -> rm (RAlt a b) s s'
| rm_star_nil a s : rm (RStar a) s s
| rm_star_cons a s s1 s2 : rm a s s1 -> rm (RStar a) s1 s2 -> rm (RStar a) s s2
| rm_group a s s' : rm a s s' -> rm (RGroup a) s s'.

Fixpoint star_ends (step : st -> list st) (fuel : nat) (s : st) : list st :=
  s :: match fuel with
       | O => []
       | S f => flat_map (fun s' => if Nat.ltb (length (snd s')) (length (snd s))
                                    then star_ends step f s' else []) (step s)
       end.

(** All positions reachable by a match. *)
Fixpoint ends (r : re) (s : st) : list st :=
  match r with
  | REps => [s]
  | RSet p => match snd s with
              | c :: t => if p c then [(false, t)] else []
              | [] => []
              end
  | RBol => if fst s then [s] else []
  | REol => match snd s with
            | [] => [s]
            | [c] => if Ascii.eqb c nl then [s] else []
            | _ => []
            end
  | RSeq a b => flat_map (ends b) (ends a s)
  | RAlt a b => ends a s ++ ends b s
  | RStar a => star_ends (ends a) (length (snd s)) s
  | RGroup a => ends a s
  end.

(** [re.match(r, s) is not None] *)
Definition re_match (r : re) (s : string) : bool :=
  match ends r (true, to_l s) with [] => false | _ => true end.

(** The pattern whose source is the source of [r] followed by ['$']: the
    dollar binds to the last top-level alternative. *)
Fixpoint append_dollar (r : re) : re :=
  match r with
  | RAlt a b => RAlt a (append_dollar b)
  | _ => RSeq r REol
  end.

(** Derived forms. *)
Definition r_opt (a : re) : re := RGroup (RAlt a REps).
Definition r_plus (a : re) : re := RSeq a (RStar a).
Definition r_char (c : ascii) : re := RSet (Ascii.eqb c).
Definition r_digit : re := RSet is_digit.
Fixpoint r_lit (l : list ascii) : re :=
  match l with [] => REps | [c] => r_char c | c :: t => RSeq (r_char c) (r_lit t) end.

(** ** Vocabulary for statements about patterns *)

(** Patterns without a top-level alternation. *)
Definition no_top_alt (r : re) : bool := match r with RAlt _ _ => false | _ => true end.

(** [r] matches exactly the characters [l]. *)
Definition full_match (r : re) (l : list ascii) : Prop :=
  exists b, rm r (true, l) (b, []).
(** [r] matches [l] up to a final newline. *)
Definition full_match_nl (r : re) (l : list ascii) : Prop :=
  exists b, rm r (true, l) (b, [nl]).

(** Top-level alternatives, left to right. *)
Fixpoint alts (r : re) : list re :=
  match r with RAlt a b => a :: alts b | _ => [r] end.
