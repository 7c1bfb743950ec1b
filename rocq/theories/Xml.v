(** lxml element trees.

    A node is an element (tag in Clark notation [{ns}local], attributes in
    order, content), a piece of text, a comment or a processing instruction.
    lxml's [.text] is the text before the first child node, [.tail] texts are
    the [Text] nodes after a child.  Serialisation to bytes is not modelled:
    a document is its tree. *)
From Coq Require Import String Ascii List ZArith NArith Bool.
From Verif Require Import PyBase.
Import ListNotations.
Open Scope string_scope.
Open Scope list_scope.

Inductive node :=
| Elem (tag : string) (attrs : list (string * string)) (kids : list node)
| Text (s : string)
| Comment (s : string)
| PI (s : string).

(** Characters lxml accepts in text and attribute values (else ValueError):
    no control characters except tab, newline, carriage return. *)
Definition xml_char_ok (c : ascii) : bool :=
  (32 <=? code c)%N || (code c =? 9)%N || (code c =? 10)%N || (code c =? 13)%N.
Definition xml_text_ok (s : string) : bool := forallb xml_char_ok (to_l s).

(** NCName, restricted to code points 0..255. *)
Definition name_start (c : ascii) : bool :=
  in_range 65 90 c || in_range 97 122 c || (code c =? 95)%N ||
  in_range 192 214 c || in_range 216 246 c || in_range 248 255 c.
Definition name_char (c : ascii) : bool :=
  name_start c || is_digit c || (code c =? 45)%N || (code c =? 46)%N || (code c =? 183)%N.
Definition ncname_ok (s : string) : bool :=
  match to_l s with
  | [] => false
  | c :: t => name_start c && forallb name_char t
  end.

(** The tag argument of [etree.Element] / the name argument of [set] and
    [get]: split [{ns}local].  An empty namespace counts as none; a missing
    ['}'] or an invalid local name is a ValueError.  Simplification: the
    namespace text itself is not checked. *)
Definition clark_split (s : string) : res (string * string) :=
  match s with
  | String "{" rest =>
      match str_partition "}" rest with
      | (ns, Some local) => if ncname_ok local then Ok (ns, local) else Err ValueError
      | (_, None) => Err ValueError
      end
  | _ => if ncname_ok s then Ok ("", s) else Err ValueError
  end.

(** ['{%s}%s' % (ns, local)] *)
Definition clark (ns local : string) : string :=
  String "{" (ns ++ String "}" local).

(** lxml's canonical spelling of a qualified name. *)
Definition qname (ns local : string) : string :=
  if String.eqb ns "" then local else clark ns local.

Definition norm_name (s : string) : res string :=
  p <- clark_split s ;; Ok (qname (fst p) (snd p)).

(** [etree.Element(tag)] *)
Definition mk_element (tag : string) : res node :=
  t <- norm_name tag ;; Ok (Elem t [] []).

(** [el.append(child)] *)
Definition el_append (parent child : node) : node :=
  match parent with
  | Elem t a k => Elem t a (k ++ [child])
  | n => n
  end.

(** [el.set(name, value)] *)
Definition el_set (el : node) (name value : string) : res node :=
  n <- norm_name name ;;
  if xml_text_ok value then
    match el with
    | Elem t a k => Ok (Elem t (assoc_set n value a) k)
    | _ => Err TypeError
    end
  else Err ValueError.

Definition el_attrs (el : node) : list (string * string) :=
  match el with Elem _ a _ => a | _ => [] end.
Definition el_kids (el : node) : list node :=
  match el with Elem _ _ k => k | _ => [] end.
Definition el_tag (el : node) : string :=
  match el with Elem t _ _ => t | _ => "" end.

(** [el.get(name)] for a name given in canonical spelling. *)
Definition el_get (el : node) (name : string) : option string :=
  assoc name (el_attrs el).

Definition is_text (n : node) : bool := match n with Text _ => true | _ => false end.

(** [[sub for sub in el]]: element, comment and PI children. *)
Definition el_children (el : node) : list node :=
  filter (fun n => negb (is_text n)) (el_kids el).

Fixpoint lead_text (k : list node) : option string :=
  match k with
  | Text s :: t => match lead_text t with
                   | None => Some s
                   | Some s' => Some (s ++ s')%string
                   end
  | _ => None
  end.

(** [el.text] *)
Definition el_text (el : node) : option string := lead_text (el_kids el).

(** [el.text = s] on an element that has no text yet. [None] and [''] add no
    content that survives serialisation; an in-memory [''] is kept as an empty
    [Text] node. *)
Definition el_set_text (el : node) (s : option string) : res node :=
  match s with
  | None => Ok el
  | Some s =>
      if xml_text_ok s then
        match el with
        | Elem t a k => Ok (Elem t a (Text s :: k))
        | _ => Err TypeError
        end
      else Err ValueError
  end.

(** Namespace names used by the code (/repo/soapfish/namespaces.py). *)
Definition ns_xsi : string := "http://www.w3.org/2001/XMLSchema-instance".
Definition xsi_nil : string := clark ns_xsi "nil".

(** [etree.fromstring(etree.tostring(t))]: what is left of a tree after going
    over the wire.  Empty text disappears and adjacent texts merge. *)
Fixpoint merge_text (k : list node) : list node :=
  match k with
  | [] => []
  | Text s :: t =>
      match merge_text t with
      | Text s' :: t' => Text (s ++ s')%string :: t'
      | t' => if String.eqb s "" then t' else Text s :: t'
      end
  | n :: t => n :: merge_text t
  end.
Fixpoint wire (n : node) : node :=
  match n with
  | Elem t a k => Elem t a (merge_text (map wire k))
  | n => n
  end.
