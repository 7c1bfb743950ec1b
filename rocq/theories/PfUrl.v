(** Proofs about addresses (C73). *)
From Coq Require Import String Ascii List ZArith NArith Bool Lia.
From Verif Require Import PyBase PfBase PyHttp PfHttp PyUrl SpecUrl.
Import ListNotations.
Open Scope string_scope.
Open Scope list_scope.

Lemma partition_first c a b : ~ In c a -> partition_l c (a ++ c :: b) = (a, Some b).
Proof.
  induction a as [|x a IH]; intros N; cbn [app partition_l].
  - now rewrite Ascii.eqb_refl.
  - destruct (Ascii.eqb_spec x c) as [-> | Q]; [destruct N; now left|]. rewrite IH; [reflexivity|]. intros H. apply N. now right.
Qed.
Lemma partition_none c a : ~ In c a -> partition_l c a = (a, None).
Proof.
  induction a as [|x a IH]; intros N; cbn [partition_l]; [reflexivity|].
  destruct (Ascii.eqb_spec x c) as [-> | Q]; [destruct N; now left|]. rewrite IH; [reflexivity|]. intros H. apply N. now right.
Qed.
Lemma partition_some c l : In c l -> exists a b, l = a ++ c :: b /\ ~ In c a /\ partition_l c l = (a, Some b).
Proof.
  induction l as [|x l IH]; [intros []|]. intros H. cbn [partition_l]. destruct (Ascii.eqb_spec x c) as [-> | Q].
  - exists [], l. repeat split; auto.
  - destruct H as [-> | H]; [congruence|]. destruct (IH H) as (a & b & -> & N & E). exists (x :: a), b. rewrite E. repeat split.
    intros [K | K]; [congruence|auto].
Qed.
Lemma cut_here c a b : ~ In c a -> cut c (a ++ c :: b) = (a, b).
Proof. intros N. unfold cut. now rewrite partition_first. Qed.
Lemma cut_absent c a : ~ In c a -> cut c a = (a, []).
Proof. intros N. unfold cut. now rewrite partition_none. Qed.
Lemma until_stop p a b : (forall c, In c a -> p c = false) -> match b with [] => True | c :: _ => p c = true end ->
  until p (a ++ b) = (a, b).
Proof.
  intros A B. induction a as [|x a IH]; cbn [app until].
  - destruct b as [|c b]; [reflexivity|]. cbn [until]. now rewrite B.
  - rewrite (A x) by now left. rewrite IH; [reflexivity|]. intros c H. apply A. now right.
Qed.
Lemma filter_all {A} (p : A -> bool) l : (forall x, In x l -> p x = true) -> filter p l = l.
Proof.
  induction l as [|x l IH]; intros H; [reflexivity|]. cbn [filter]. rewrite (H x) by now left. f_equal. apply IH.
  intros y Hy. apply H. now right.
Qed.
Lemma in_range_iff lo hi c : in_range lo hi c = true <-> (lo <= code c <= hi)%N.
Proof. unfold in_range. now rewrite andb_true_iff, !N.leb_le. Qed.

Lemma last_slash_app l : forall a b, last_slash l = Some (a, b) -> l = a ++ b.
Proof.
  induction l as [|c l IH]; intros a b; cbn [last_slash]; [discriminate|].
  destruct (last_slash l) as [[a' b']|] eqn:E.
  - intros [= <- <-]. cbn [app]. f_equal. now apply IH.
  - destruct (Ascii.eqb_spec c "/") as [-> | Q]; [|discriminate]. now intros [= <- <-].
Qed.
(** The path and the parameters make up what was split. *)
Lemma split_params_whole l p q : split_params l = (p, q) -> l = p ++ (match q with [] => [] | _ => ";"%char :: q end) \/ (q = [] /\ l = p ++ [";"%char]).
Proof.
  unfold split_params. intros H.
  assert (W : exists a b, (match last_slash l with Some p => p | None => ([], l) end) = (a, b) /\ l = a ++ b).
  { destruct (last_slash l) as [[a b]|] eqn:E; [exists a, b; split; [reflexivity|now apply last_slash_app]|now exists [], l]. }
  destruct W as (a & b & E & ->). rewrite E in H. unfold cut in H.
  destruct (in_dec ascii_dec ";"%char b) as [I | I].
  - destruct (partition_some _ _ I) as (x & y & -> & N & E'). rewrite E' in H. injection H as <- <-.
    destruct y as [|c y]; [right; split; [reflexivity|]; now rewrite <- app_assoc|left; now rewrite <- app_assoc].
  - rewrite (partition_none _ _ I) in H. injection H as <- <-. left. now rewrite !app_nil_r.
Qed.

Lemma letter_alpha c : lower_letter c -> is_alpha c = true.
Proof. intros H. unfold is_alpha. apply orb_true_iff. right. now apply in_range_iff. Qed.
Lemma letter_range c : lower_letter c -> c0_or_space c = false.
Proof.
  intros H. unfold c0_or_space. destruct (in_range 0 32 c) eqn:E; [|reflexivity]. apply in_range_iff in E. unfold lower_letter in H. lia.
Qed.
Lemma lower_same c : (code c < 65 \/ 90 < code c < 128)%N -> lower_char c = c.
Proof.
  intros L. unfold lower_char. destruct (in_range 65 90 c) eqn:E; [apply in_range_iff in E; lia|].
  destruct (in_range 192 222 c) eqn:F; [apply in_range_iff in F; lia|]. reflexivity.
Qed.
Lemma scheme_chars s : (forall c, holds s c -> lower_letter c \/ digit c \/ holds "+-." c) ->
  forallb scheme_char (to_l s) = true /\ map lower_char (to_l s) = to_l s /\ ~ In ":"%char (to_l s).
Proof.
  unfold holds. induction (to_l s) as [|c l IH]; intros H; [repeat split; auto|].
  destruct IH as (A & B & C); [intros d D; apply H; now right|].
  assert (K : scheme_char c = true /\ lower_char c = c /\ c <> ":"%char).
  { destruct (H c (or_introl eq_refl)) as [L | [L | L]].
    - unfold scheme_char. rewrite letter_alpha by exact L. split; [reflexivity|]. unfold lower_letter in L.
      split; [apply lower_same; lia|]. intros ->. cbn in L. lia.
    - unfold scheme_char. unfold digit in L. rewrite (proj2 (is_digit_iff c) L), orb_true_r. split; [reflexivity|].
      split; [apply lower_same; lia|]. intros ->. cbn in L. lia.
    - cbn in L. repeat (destruct L as [<- | L]; [repeat split; discriminate|]). destruct L. }
  destruct K as (K1 & K2 & K3). cbn [forallb map]. rewrite A, K1, B, K2. repeat split. intros [Q | Q]; auto.
Qed.

Lemma prefix_nil s : String.prefix "" s = true.
Proof. now destruct s. Qed.
Lemma without_in l s c : without l s -> holds l c -> ~ In c (to_l s).
Proof. intros W H. exact (W c H). Qed.
Ltac sub_in := unfold holds; cbn; tauto.

Section A.
  Variables (checked : string -> bool) (a : address).
  Hypothesis Hs : exists c t, a_scheme a = String c t /\ lower_letter c.
  Hypothesis Hc : forall c, holds (a_scheme a) c -> lower_letter c \/ digit c \/ holds "+-." c.
  Hypothesis Hn : a_authority a <> "".
  Hypothesis Ha : without "/?#[]" (a_authority a).
  Hypothesis H7 : forall c, holds (a_authority a) c -> (code c < 128)%N.
  Hypothesis Hp : a_path a = "" \/ exists t, a_path a = String "/" t.
  Hypothesis Hp' : without "?#" (a_path a).
  Hypothesis Hq : forall q, a_query a = Some q -> without "#" q.
  Hypothesis Hu : forall c, holds (written a) c -> ~ In (code c) [9; 10; 13]%N.

  Let tail_l : list ascii :=
    to_l (a_path a) ++ (match a_query a with Some q => "?"%char :: to_l q | None => [] end) ++
    (match a_fragment a with Some f => "#"%char :: to_l f | None => [] end).
  Lemma resource_l : to_l (resource a) = tail_l.
  Proof. unfold resource, tail_l. rewrite !to_l_app. now destruct (a_query a), (a_fragment a). Qed.

  Lemma written_l : to_l (written a) = to_l (a_scheme a) ++ ":"%char :: "/"%char :: "/"%char :: to_l (a_authority a) ++ tail_l.
  Proof. unfold written, at_host. rewrite !to_l_app, resource_l. reflexivity. Qed.

  Lemma netloc_fine : netloc_ok checked (to_l (a_authority a)) = true.
  Proof.
    unfold netloc_ok.
    assert (O : existsb (Ascii.eqb "[") (to_l (a_authority a)) = false).
    { destruct (existsb _ _) eqn:E; [|reflexivity]. apply existsb_exists in E. destruct E as (x & I & E). apply Ascii.eqb_eq in E as <-.
      destruct (without_in _ _ "[" Ha); [sub_in|exact I]. }
    assert (C : existsb (Ascii.eqb "]") (to_l (a_authority a)) = false).
    { destruct (existsb (Ascii.eqb "]") _) eqn:E; [|reflexivity]. apply existsb_exists in E. destruct E as (x & I & E). apply Ascii.eqb_eq in E as <-.
      destruct (without_in _ _ "]" Ha); [sub_in|exact I]. }
    rewrite O, C. cbn.
    assert (F : forallb is_ascii (to_l (a_authority a)) = true).
    { apply forallb_forall. intros c I. unfold is_ascii. apply in_range_iff. specialize (H7 c I). lia. }
    now rewrite F.
  Qed.

  Lemma tail_start : match tail_l with [] => True | c :: _ => delimiter c = true end.
  Proof.
    unfold tail_l. destruct Hp as [-> | (t & ->)]; [|reflexivity]. cbn [to_l list_ascii_of_string app].
    now destruct (a_query a), (a_fragment a).
  Qed.

  Lemma cut_fragment : cut "#" tail_l =
    (to_l (a_path a) ++ (match a_query a with Some q => "?"%char :: to_l q | None => [] end),
     match a_fragment a with Some f => to_l f | None => [] end).
  Proof.
    unfold tail_l. rewrite app_assoc.
    assert (N : ~ In "#"%char (to_l (a_path a) ++ match a_query a with Some q => "?"%char :: to_l q | None => [] end)).
    { intros I. apply in_app_iff in I. destruct I as [I | I]; [exact (without_in _ _ "#" Hp' ltac:(sub_in) I)|].
      destruct (a_query a) as [q|] eqn:E; [|destruct I]. destruct I as [I | I]; [discriminate|].
      exact (without_in _ _ "#" (Hq q eq_refl) ltac:(sub_in) I). }
    destruct (a_fragment a) as [f|]; [now apply cut_here|]. rewrite app_nil_r. now apply cut_absent.
  Qed.
  Lemma cut_query : cut "?" (to_l (a_path a) ++ (match a_query a with Some q => "?"%char :: to_l q | None => [] end)) =
    (to_l (a_path a), match a_query a with Some q => to_l q | None => [] end).
  Proof.
    assert (N : ~ In "?"%char (to_l (a_path a))) by exact (without_in _ _ "?" Hp' ltac:(sub_in)).
    destruct (a_query a) as [q|]; [now apply cut_here|]. rewrite app_nil_r. now apply cut_absent.
  Qed.

  Lemma parsed : exists path params, urlparse checked (written a) =
    Ok (mkUrl (a_scheme a) (a_authority a) (of_l path) (of_l params)
          (match a_query a with Some q => q | None => "" end) (match a_fragment a with Some f => f | None => "" end)) /\
    (to_l (a_path a) = path ++ (match params with [] => [] | _ => ";"%char :: params end) \/
     (params = [] /\ to_l (a_path a) = path ++ [";"%char])).
  Proof.
    unfold urlparse. destruct (scheme_chars _ Hc) as (S1 & S2 & S3).
    assert (F : filter (fun c => negb (unsafe_byte c)) (lstrip_l c0_or_space (to_l (written a))) = to_l (written a)).
    { rewrite lstrip_id.
      - apply filter_all. intros c I. specialize (Hu c I). unfold unsafe_byte. apply negb_true_iff, orb_false_iff.
        split; (destruct (in_range _ _ c) eqn:E; [|reflexivity]); apply in_range_iff in E; destruct Hu; cbn; [|lia].
        assert (code c = 9 \/ code c = 10)%N as [-> | ->] by lia; auto.
      - rewrite written_l. destruct Hs as (c & t & -> & L). cbn. now apply letter_range. }
    rewrite F, written_l. clear F.
    assert (E : split_scheme (to_l (a_scheme a) ++ ":"%char :: "/"%char :: "/"%char :: to_l (a_authority a) ++ tail_l) =
                (to_l (a_scheme a), "/"%char :: "/"%char :: to_l (a_authority a) ++ tail_l)).
    { unfold split_scheme. rewrite partition_first by exact S3. destruct Hs as (c & t & Es & L). rewrite Es in *.
      change (to_l (String c t)) with (c :: to_l t) in *. cbv beta iota. rewrite letter_alpha by exact L. rewrite S1. cbn [andb]. now rewrite S2. }
    rewrite E. clear E.
    assert (E : split_netloc ("/"%char :: "/"%char :: to_l (a_authority a) ++ tail_l) = (to_l (a_authority a), tail_l)).
    { cbn [split_netloc]. rewrite !Ascii.eqb_refl. cbn [andb]. apply until_stop; [|exact tail_start].
      intros c I. unfold delimiter. destruct (char_in c "/?#") eqn:E; [|reflexivity]. apply char_in_spec in E.
      destruct (Ha c); [|exact I]. cbn in E |- *. intuition subst; sub_in. }
    rewrite E. clear E. rewrite netloc_fine. cbn [negb]. rewrite cut_fragment, cut_query.
    destruct (str_in _ _ && _).
    - destruct (split_params (to_l (a_path a))) as [p q] eqn:E. exists p, q. rewrite !of_to. split; [|now apply split_params_whole].
      destruct (a_query a), (a_fragment a); now rewrite ?of_to.
    - exists (to_l (a_path a)), []. rewrite !of_to. split; [|left; now rewrite app_nil_r].
      destruct (a_query a), (a_fragment a); now rewrite ?of_to.
  Qed.

  Hypothesis P : no_empty_part a.
  Lemma opt_piece s (o : option string) c : o <> Some "" ->
    (if String.eqb (match o with Some q => q | None => "" end) "" then s
     else (s ++ String c "" ++ match o with Some q => q | None => "" end)%string) =
    (s ++ match o with Some q => String c "" ++ q | None => "" end)%string.
  Proof.
    intros N. destruct o as [q|]; cbn [String.eqb].
    - destruct (String.eqb_spec q "") as [-> | Q]; [congruence|reflexivity].
    - apply to_l_inj. rewrite to_l_app. now rewrite app_nil_r.
  Qed.
  Lemma template_written : url_template checked (written a) = Ok ("${scheme}://${host}" ++ resource a)%string /\
    url_component checked (written a) "scheme" = Ok (a_scheme a) /\ url_component checked (written a) "netloc" = Ok (a_authority a).
  Proof.
    destruct parsed as (path & params & E & W). unfold url_template, url_component. rewrite E. cbn [bind]. split; [|split; reflexivity].
    f_equal. unfold urlunparse. cbn [u_scheme u_netloc u_path u_params u_query u_fragment].
    destruct P as (P1 & P2 & P3).
    assert (Q : (if String.eqb (of_l params) "" then of_l path else (of_l path ++ ";" ++ of_l params)%string) = a_path a).
    { apply to_l_inj. destruct W as [W | [-> W]].
      - rewrite W. destruct params as [|c params]; cbn [of_l string_of_list_ascii String.eqb]; [now rewrite to_of, app_nil_r|].
        rewrite !to_l_app, !to_of. cbn. now rewrite to_of.
      - exfalso. apply (P3 (of_l path)). apply to_l_inj. now rewrite to_l_app, to_of. }
    rewrite Q. clear Q. cbn [String.eqb negb Ascii.eqb orb Bool.eqb andb].
    assert (Q : (if negb (String.eqb (a_path a) "") && negb (String.prefix "/" (a_path a)) then ("/" ++ a_path a)%string else a_path a) = a_path a).
    { destruct Hp as [-> | (t & ->)]; [reflexivity|]. cbn [String.prefix]. destruct (ascii_dec _ _) as [_ | N]; [|congruence]. now rewrite prefix_nil. }
    rewrite Q. rewrite (opt_piece _ (a_query a) "?" P1), (opt_piece _ (a_fragment a) "#" P2). unfold resource.
    apply to_l_inj. rewrite !to_l_app, !app_assoc. reflexivity.
  Qed.
  Lemma substitute_written s h : without "$" (resource a) ->
    stub_location ("${scheme}://${host}" ++ resource a) s h LNone = Ok (at_host s h a).
  Proof.
    intros D. unfold stub_location. f_equal. unfold safe_substitute, at_host. apply to_l_inj. rewrite to_of, !to_l_app.
    assert (N : ~ In dollar (to_l (resource a))) by (apply D; sub_in).
    assert (L : exists n, String.length ("${scheme}://${host}" ++ resource a) = S (3 + S (length (to_l (resource a)) + n))).
    { exists 14. rewrite <- !length_to_l, to_l_app, app_length. cbn. lia. }
    destruct L as (n & ->). change (to_l "${scheme}://${host}") with (to_l "${scheme}" ++ to_l "://" ++ to_l "${host}").
    rewrite <- !app_assoc, subst_scheme. rewrite (subst_lit _ (to_l "://")) by (cbn; intuition discriminate).
    rewrite subst_host. rewrite <- (app_nil_r (to_l (resource a))) at 2. rewrite subst_lit by exact N. now rewrite subst_nil, app_nil_r.
  Qed.
End A.
