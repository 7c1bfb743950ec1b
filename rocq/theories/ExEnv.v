(** An example set of classes, used to show that theorems are not vacuous. *)
From Coq Require Import String Ascii List ZArith NArith Bool.
From Verif Require Import PyBase Xml PyVal XsdSimple XsdComplex.
Import ListNotations.
Open Scope Z_scope.

Definition t_str : ftype := TSimple (SString "String" no_sfacets).
Definition t_int : ftype := TSimple (SInteger CInteger no_dfacets).

(** [Element(t)] *)
Definition ex_elem (name : string) (t : ftype) : field :=
  mkField name KElement t None (Some 1) ONone false VNone None.
(** [Element(t, nillable=True)] *)
Definition ex_nil (name : string) (t : ftype) : field :=
  mkField name KElement t None (Some 1) ONone true VNone None.
(** [Attribute(t, use=...)] *)
Definition ex_attr (name : string) (t : ftype) (required : bool) : field :=
  mkField name KAttribute t None (Some (if required then 1 else 0)) ONone false VNone None.
(** [ListElement(t, tag, minOccurs, maxOccurs)] *)
Definition ex_list (name tag : string) (t : ftype) (mn : option Z) (mx : occurs) : field :=
  mkField name KList t (Some tag) mn mx false VNone None.
(** [Ref(t)] *)
Definition ex_ref (name : string) (t : ftype) : field :=
  mkField name KRef t None (Some 1) ONone false VNone None.

Definition ex_si : sinfo := {| si_tns := Some "urn:air"%string; si_efd := qualified |}.

(** [class Leg(ComplexType): origin = Element(String); seats = Element(Integer, nillable)] *)
Definition cd_leg : classdef :=
  mkClass ["Leg"%string] CKPlain [ex_elem "origin" t_str; ex_nil "seats" t_int] ISequence (Some ex_si).
(** [class Extra(Group): note = Element(String); lang = Attribute(String, optional)] *)
Definition cd_extra : classdef :=
  mkClass ["Extra"%string] CKGroup [ex_elem "note" t_str; ex_attr "lang" t_str false] ISequence (Some ex_si).
(** [class Flight(ComplexType)] *)
Definition flight_fields : list field :=
  [ex_attr "id" t_str true; ex_elem "number" t_int;
   ex_list "legs" "leg" (TComplex "Leg") (Some 1) (OInt 3); ex_ref "extra" (TComplex "Extra")].
Definition cd_flight : classdef :=
  mkClass ["Flight"%string] CKPlain flight_fields ISequence (Some ex_si).
(** [class Charter(Flight): customer = Element(String)] *)
Definition cd_charter : classdef :=
  mkClass ["Charter"; "Flight"]%string CKPlain (flight_fields ++ [ex_elem "customer" t_str]) ISequence (Some ex_si).
(** [class Booking(ComplexType): flight = Element(Flight)] *)
Definition cd_booking : classdef :=
  mkClass ["Booking"%string] CKPlain [ex_elem "flight" (TComplex "Flight")] ISequence (Some ex_si).
(** [class Tags(ComplexType)]: attributes only. *)
Definition cd_tags : classdef :=
  mkClass ["Tags"%string] CKPlain [ex_attr "a" t_str true; ex_attr "b" t_str false] ISequence None.

(** [class Tagged(ComplexType): code = Attribute(String, tagname='id'); note = Element(String)] *)
Definition ex_tagged_attr : field :=
  mkField "code" KAttribute t_str (Some "id"%string) (Some 1) ONone false VNone None.
Definition cd_tagged : classdef :=
  mkClass ["Tagged"%string] CKPlain [ex_tagged_attr; ex_elem "note" t_str] ISequence None.
(** [class Result(ComplexType): INDICATOR = Choice; code = Element(Integer); message = Element(String)] *)
Definition cd_result : classdef :=
  mkClass ["Result"%string] CKPlain [ex_elem "code" t_int; ex_elem "message" t_str] IChoice None.
(** [class Order(ComplexType): first = Ref(Leg)] *)
Definition cd_order : classdef :=
  mkClass ["Order"%string] CKPlain [ex_ref "first" (TComplex "Leg")] ISequence (Some ex_si).
(** [class Memo(ComplexType): title = Element(String, nillable); lines = ListElement(String, 'line', nillable);
    lang = Attribute(String)] *)
Definition ex_memo_lines : field :=
  mkField "lines" KList t_str (Some "line"%string) (Some 0) ONone true VNone None.
Definition cd_memo : classdef :=
  mkClass ["Memo"%string] CKPlain [ex_nil "title" t_str; ex_memo_lines; ex_attr "lang" t_str true] ISequence None.

Definition ex_env : env :=
  mkEnv (fun c => assoc c [("Leg", cd_leg); ("Extra", cd_extra); ("Flight", cd_flight);
                           ("Charter", cd_charter); ("Booking", cd_booking); ("Tags", cd_tags);
                           ("Tagged", cd_tagged); ("Result", cd_result); ("Order", cd_order);
                           ("Memo", cd_memo)]%string) 50.

Definition ex_oracle : oracle :=
  {| o_float := fun _ => Err ValueError; o_year_pad := false; o_iso := fun _ => Err ValueError;
     o_str := fun _ => ""%string |}.

Definition ex_leg (o : string) (s : pyval) : pyval := VObj "Leg" None [("origin", VStr o); ("seats", s)]%string.
Definition ex_extra : pyval := VObj "Extra" None [("note", VStr "late"); ("lang", VStr "en")]%string.
Definition ex_flight_fs (id : pyval) : list (string * pyval) :=
  [("id", id); ("number", VInt 7); ("legs", VList true [ex_leg "OSL" (VInt 180); ex_leg "LHR" VNil]);
   ("extra", ex_extra)]%string.
Definition ex_flight : pyval := VObj "Flight" None (ex_flight_fs (VStr "F1")).
Definition ex_charter : pyval :=
  VObj "Charter" None (ex_flight_fs (VStr "C9") ++ [("customer"%string, VStr "ACME")]).

Definition air (l : string) : string := clark "urn:air" l.
Definition ex_flight_kids : list node :=
  [Elem (air "number") [] [Text "7"];
   Elem (air "leg") [] [Elem (air "origin") [] [Text "OSL"]; Elem (air "seats") [] [Text "180"]];
   Elem (air "leg") [] [Elem (air "origin") [] [Text "LHR"]; Elem (air "seats") [(xsi_nil, "true"%string)] []];
   Elem (air "note") [] [Text "late"]].
Definition ex_flight_xml : node :=
  Elem (air "flight") [("id", "F1"); ("lang", "en")]%string ex_flight_kids.
