(** Vocabulary for the schemas of classes. *)
From Coq Require Import String Ascii List ZArith NArith Bool.
From Verif Require Import PyBase PyVal XsdSimple XsdComplex SchemaHist.
Import ListNotations.
Open Scope nat_scope.
Open Scope string_scope.
Open Scope list_scope.

(** The call names the class: in one of its lists, or by an element that was
    given an instance of it. *)
Definition names_class (P : nat -> passed) (call : schema_call) (c : string) : Prop :=
  In c (sc_simple call) \/ In c (sc_attrgroups call) \/ In c (sc_groups call) \/ In c (sc_complex call) \/
  exists name e, In (name, e) (sc_elements call) /\ P e = PObject c.
Definition has_element (call : schema_call) (e : nat) : Prop := exists name, In (name, e) (sc_elements call).
(** [call] is the last of the calls that names the class. *)
Definition last_naming (P : nat -> passed) (calls : list schema_call) (c : string) (call : schema_call) : Prop :=
  exists before after, calls = before ++ call :: after /\ names_class P call c /\ forall x, In x after -> ~ names_class P x c.
Definition never_named (P : nat -> passed) (calls : list schema_call) (c : string) : Prop :=
  forall x, In x calls -> ~ names_class P x c.
(** The class [c] with these bases belongs to the schema of the last call that
    names it; if none does, to that of its next base. *)
Inductive belongs (P : nat -> passed) (calls : list schema_call) : list string -> option sinfo -> Prop :=
| Belongs_here c bases call : last_naming P calls c call ->
    belongs P calls (c :: bases) (Some {| si_tns := Some (sc_tns call); si_efd := sc_efd call |})
| Belongs_base c bases s : never_named P calls c -> belongs P calls bases s -> belongs P calls (c :: bases) s
| Belongs_none : belongs P calls [] None.
