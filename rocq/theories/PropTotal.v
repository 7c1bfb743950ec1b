(** Properties C33, C64, C65: reading any document ends in an object or a
    ValueError; defaults of absent attributes; classes that contain themselves. *)
From Coq Require Import QArith String Ascii List ZArith NArith Bool Lia.
From Verif Require Import PyBase Xml PyVal XsdSimple XsdComplex SpecObject SpecParse SpecTotal ExEnv PfTotal.
Import ListNotations.
Open Scope Z_scope.

(** ** C33 *)
(** Whatever the element tree, as long as it has no processing instruction,
    reading it gives an object or a ValueError, given enough stack (bounded by
    the depth of the tree and the longest chain of references). *)
Theorem C33_object_or_ValueError_partial :
  forall O E P rank top, tame_classes O (eq ValueError) E P rank top ->
  forall n c x, P c -> no_pi x -> (height x * S top + rank c < n)%nat ->
  ok_or_ValueError (parse_obj n O E c x).
Proof. exact total_value. Qed.
Print Assumptions C33_object_or_ValueError_partial.
(** With fields of all types, reading gives an object, a ValueError, or one of the
    errors that Date and DateTime fields add (see [tame]). *)
Theorem C33_object_or_error_partial :
  forall allowed : exn -> Prop, allowed ValueError -> forall O E P rank top, tame_classes O allowed E P rank top ->
  forall n c x, P c -> no_pi x -> (height x * S top + rank c < n)%nat ->
  ok_or allowed (parse_obj n O E c x).
Proof. exact total. Qed.
Print Assumptions C33_object_or_error_partial.
(** A processing instruction inside the element is a TypeError, for every class
    that has a child element and no attribute. *)
Theorem C33_pi_refuted :
  forall n O E c d f F x p fs0, e_cls E c = Some d -> cd_ind d <> IChoice -> new_instance O E c = Ok fs0 ->
  filter is_attr (cd_fields d) = [] -> filter is_plain (cd_fields d) = f :: F -> In (PI p) (el_kids x) ->
  parse_obj (S n) O E c x = Err TypeError.
Proof. exact pi_type_error. Qed.
Print Assumptions C33_pi_refuted.

Definition ex_tame : list string := ["Leg"; "Extra"; "Flight"; "Charter"; "Booking"; "Tags"; "Result"; "Order"; "Memo"]%string.
Definition ex_rank (c : string) : nat := if str_in c ["Flight"; "Charter"; "Order"]%string then 1 else 0.
Example C33_nonvacuous :
  tame_classes ex_oracle (eq ValueError) ex_env (fun c => In c ex_tame) ex_rank 1 /\
  no_pi (Elem "Booking" [] [Text "?"; Comment "c"; Elem "flight" [] [Elem "number" [] [Text "seven"]]]) /\
  parse_obj 9 ex_oracle ex_env "Booking"
    (Elem "Booking" [] [Text "?"; Comment "c"; Elem "flight" [] [Elem "number" [] [Text "seven"]]]) = Err ValueError /\
  (exists v, parse_obj 9 ex_oracle ex_env "Booking"
    (Elem "Booking" [] [Text "?"; Elem "flight" [] [Elem "number" [] [Text "7"]]]) = Ok v) /\
  parse_obj 9 ex_oracle ex_env "Leg" (Elem "Leg" [] [PI "x"]) = Err TypeError.
Proof.
  assert (NF : number_facets no_dfacets) by (repeat split; intros b [=]).
  split; [|split; [|split; [|split]]].
  - intros c Hc. cbn in Hc. repeat (destruct Hc as [<-|Hc]); [..|destruct Hc].
    all: eexists; split; [reflexivity|]; split; [repeat constructor; cbn; intuition discriminate|].
    all: split; [eexists; vm_compute; reflexivity|]; split.
    all: lazymatch goal with |- _ /\ _ => idtac | _ => intros f Hf; cbn in Hf; repeat (destruct Hf as [<-|Hf]); [..|destruct Hf];
      (split; [intros s [= <-]; constructor; exact NF|split; [intros c' [= <-]; cbn; tauto|
        intros Q; first [discriminate Q|split; [eexists; reflexivity|now left]]]]) end.
    all: split; [vm_compute; lia|]; intros c' (d & f & [= <-] & Hf & Ty & G); cbn in Hf;
      repeat (destruct Hf as [<-|Hf]); try destruct Hf; try discriminate Ty; injection Ty as <-; vm_compute;
      try lia; destruct G as [[=]|[=]].
  - repeat constructor.
  - vm_compute. reflexivity.
  - eexists. vm_compute. reflexivity.
  - reflexivity.
Qed.

(** [class Stay: day = Element(Date); at = Element(DateTime)] *)
Definition ex_stay_env : env :=
  mkEnv (fun c => assoc c [("Stay", mkClass ["Stay"%string] CKPlain [ex_elem "day" (TSimple SDate); ex_elem "at" (TSimple SDateTime)] ISequence None)]%string) 9.
Definition ex_stay (day at_ : string) : node := Elem "stay" [] [Elem "day" [] [Text day]; Elem "at" [] [Text at_]].
Definition ex_errors : exn -> Prop := fun e => In e [ValueError; TypeError; Exn EOverflowError ""; XsdDate.ParseError].
Example C33_error_nonvacuous :
  tame_classes ex_oracle ex_errors ex_stay_env (fun c => c = "Stay"%string) (fun _ => 0%nat) 0 /\
  (exists v, parse_obj 2 ex_oracle ex_stay_env "Stay" (ex_stay "2001-10-26+02:00" "2001-10-26T21:32:52") = Ok v) /\
  parse_obj 2 ex_oracle ex_stay_env "Stay" (ex_stay "2001-10-26+02" "2001-10-26T21:32:52") = Err TypeError /\
  parse_obj 2 ex_oracle ex_stay_env "Stay" (ex_stay "99999999999-10-26" "2001-10-26T21:32:52") = Err (Exn EOverflowError "") /\
  parse_obj 2 ex_oracle ex_stay_env "Stay" (ex_stay "2001-10-26" "2001-13-26T21:32:52") = Err XsdDate.ParseError.
Proof.
  split.
  - intros c ->. eexists. split; [reflexivity|]. split; [repeat constructor; cbn; intuition discriminate|].
    split; [eexists; vm_compute; reflexivity|]. split; [|split; [vm_compute; lia|]].
    + intros f Hf. cbn in Hf. destruct Hf as [<- | [<- | []]]; (split; [|split; discriminate]); intros s [= <-].
      * apply tm_date; cbn; auto.
      * apply tm_datetime; [cbn; auto|]. intros s e [= <-]. now left.
    + intros c' (d & f & [= <-] & Hf & Ty & _). cbn in Hf. destruct Hf as [<- | [<- | []]]; discriminate.
  - split; [eexists|split; [|split]]; vm_compute; reflexivity.
Qed.

(** ** C64 *)
(** An absent attribute holds what a new object holds, that is, its default:
    for every type, and every default but "nil" for types other than texts and
    decimal.Decimal objects for Decimal. *)
Theorem C64_absent_attribute_default_partial :
  forall n O E c d x xe fs f s, e_cls E c = Some d -> NoDup (map f_name (cd_fields d)) ->
  In f (cd_fields d) -> is_attr f = true -> f_type f = TSimple s -> kept_default s (f_default f) ->
  el_get x (f_name f) = None -> parse_obj n O E c x = Ok (VObj c xe fs) ->
  exists fs0, new_instance O E c = Ok fs0 /\ assoc (f_name f) fs = assoc (f_name f) fs0.
Proof. exact absent_default. Qed.
Print Assumptions C64_absent_attribute_default_partial.
(** A Boolean, Date, DateTime or Time attribute whose default is a Python value of
    that type makes every document without that attribute unreadable. *)
Theorem C64_native_default_refuted :
  forall n O E c d x f s v, e_cls E c = Some d -> NoDup (map f_name (cd_fields d)) ->
  In f (cd_fields d) -> is_attr f = true -> f_type f = TSimple s -> native_default s (f_default f) ->
  el_get x (f_name f) = None -> parse_obj n O E c x <> Ok v.
Proof. exact native_default_fails. Qed.
Print Assumptions C64_native_default_refuted.
(** With a decimal.Decimal as default of a Decimal attribute, a new object holds
    its text and a parsed object a float. *)
Theorem C64_decimal_default_refuted :
  forall n O E c d x xe fs f cls u q, e_cls E c = Some d -> NoDup (map f_name (cd_fields d)) ->
  In f (cd_fields d) -> is_attr f = true -> f_type f = TSimple (SDecimal cls u) -> f_default f = VDec q ->
  el_get x (f_name f) = None -> parse_obj n O E c x = Ok (VObj c xe fs) ->
  exists fs0 y, new_instance O E c = Ok fs0 /\ assoc (f_name f) fs0 = Some (VStr (dec_str q)) /\
    o_float O (dec_str q) = Ok y /\ assoc (f_name f) fs = Some (VFloat y).
Proof. exact decimal_default_differs. Qed.
Print Assumptions C64_decimal_default_refuted.

Definition ex_default (name : string) (s : stype) (v : pyval) : field :=
  mkField name KAttribute (TSimple s) None (Some 0) ONone false v None.
Definition ex_default_env : env :=
  mkEnv (fun c => assoc c
    [("A", mkClass ["A"%string] CKPlain [ex_default "k" (SInteger CInteger no_dfacets) (VStr "5");
                                         ex_default "s" (SString "String" no_sfacets) (VStr "dflt");
                                         ex_default "t" STime (VStr "10:20:30"); ex_default "m" SMaxOccurs (VStr "unbounded");
                                         ex_default "q" (SDecimal "Decimal" no_dfacets) (VInt 3)] ISequence None);
     ("B", mkClass ["B"%string] CKPlain [ex_default "b" SBoolean (VBool true)] ISequence None);
     ("D", mkClass ["D"%string] CKPlain [ex_default "d" SDate (VDate 2001 10 26)] ISequence None);
     ("P", mkClass ["P"%string] CKPlain [ex_default "p" (SDecimal "Decimal" no_dfacets) (VDec (DecFin false 150 (-2)))] ISequence None)]%string) 9.
Definition ex_half : pyfloat := {| fl_repr := "1.5"; fl_val := NFin (QArith_base.Qmake 3 2) |}.
Definition ex_float_oracle : oracle :=
  {| o_float := fun s => if String.eqb s "1.50" then Ok ex_half else Err ValueError; o_year_pad := false; o_iso := fun _ => Err ValueError; o_str := fun _ => ""%string |}.
Definition ex_teatime : pyval := VTime {| tm_hour := 10; tm_min := 20; tm_sec := 30; tm_us := 0; tm_tz := Some 0%Z |}.
Example C64_nonvacuous :
  res_map erase (parse_obj 3 ex_oracle ex_default_env "A" (Elem "a" [] [])) =
    Ok (VObj "A" None [("k", VInt 5); ("s", VStr "dflt"); ("t", ex_teatime); ("m", UNBOUNDED); ("q", VInt 3)]%string) /\
  new_instance ex_oracle ex_default_env "A" = Ok [("k", VInt 5); ("s", VStr "dflt"); ("t", ex_teatime); ("m", UNBOUNDED); ("q", VInt 3)]%string /\
  parse_obj 3 ex_oracle ex_default_env "B" (Elem "b" [] []) = Err ValueError /\
  new_instance ex_oracle ex_default_env "B" = Ok [("b", VBool true)]%string /\
  parse_obj 3 ex_oracle ex_default_env "D" (Elem "d" [] []) = Err ValueError /\
  new_instance ex_oracle ex_default_env "D" = Ok [("d", VXSDDate 2001 10 26 None)]%string /\
  res_map erase (parse_obj 3 ex_float_oracle ex_default_env "P" (Elem "p" [] [])) = Ok (VObj "P" None [("p", VFloat ex_half)]%string) /\
  new_instance ex_float_oracle ex_default_env "P" = Ok [("p", VStr "1.50")]%string.
Proof. repeat split. Qed.

(** ** C65 *)
(** If each class of a set has a field, not a list, of a type in the set, no
    class of the set can be instantiated, however deep the stack. *)
Theorem C65_self_containing_refuted :
  forall O E (S0 : string -> Prop), (forall c, S0 c -> exists c', S0 c' /\ embeds E c c') ->
  forall n c fs, S0 c -> new_inst n O E c <> Ok fs.
Proof. exact embeds_never. Qed.
Print Assumptions C65_self_containing_refuted.
(** Classes that contain themselves only through lists can be instantiated. *)
Theorem C65_layered_partial :
  forall O E P rank, layered O E P rank ->
  forall n c, P c -> (rank c < n)%nat -> exists fs, new_inst n O E c = Ok fs.
Proof. exact layered_inst. Qed.
Print Assumptions C65_layered_partial.

(** [class Person: name = Element(String); spouse = Element(Person)] and
    [class Tree: label = Element(String); kids = ListElement(Tree, 'kid')] *)
Definition ex_rec_env : env :=
  mkEnv (fun c => assoc c
    [("Person", mkClass ["Person"%string] CKPlain [ex_elem "name" t_str; ex_elem "spouse" (TComplex "Person")] ISequence None);
     ("Tree", mkClass ["Tree"%string] CKPlain [ex_elem "label" t_str; ex_list "kids" "kid" (TComplex "Tree") None OUnbounded]
                ISequence None)]%string) 900.
Example C65_nonvacuous :
  (forall c, c = "Person"%string -> exists c', c' = "Person"%string /\ embeds ex_rec_env c c') /\
  new_instance ex_oracle ex_rec_env "Person" = Err RecursionError /\
  layered ex_oracle ex_rec_env (fun c => c = "Tree"%string) (fun _ => 0%nat) /\
  tame_classes ex_oracle (eq ValueError) ex_rec_env (fun c => c = "Tree"%string) (fun _ => 0%nat) 0.
Proof.
  split; [|split; [|split]].
  - intros c ->. eexists. split; [reflexivity|]. eexists. exists (ex_elem "spouse" (TComplex "Person")). split; [reflexivity|].
    cbn. repeat split; auto. discriminate.
  - vm_compute. reflexivity.
  - intros c ->. eexists. split; [reflexivity|]. split; [repeat constructor; cbn; intuition discriminate|].
    split; [now left|]. split.
    + intros c' (d & f & [= <-] & Hf & K & Ty). cbn in Hf. destruct Hf as [<-|[<-|[]]]; [discriminate|]. now destruct K.
    + intros f Hf. cbn in Hf. destruct Hf as [<-|[<-|[]]]; cbn; eauto.
  - intros c ->. eexists. split; [reflexivity|]. split; [repeat constructor; cbn; intuition discriminate|].
    split; [eexists; vm_compute; reflexivity|]. split.
    + intros f Hf. cbn in Hf. destruct Hf as [<-|[<-|[]]]; (split; [intros s [= <-]; constructor|
        split; [intros c' [= <-]; reflexivity|intros [=]]]).
    + split; [lia|]. intros c' (d & f & [= <-] & Hf & Ty & G). cbn in Hf.
      destruct Hf as [<-|[<-|[]]]; [discriminate|]. destruct G as [[=]|[=]].
Qed.
