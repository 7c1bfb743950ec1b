(** C59, C60, C68: how the generators follow imports. *)
From Coq Require Import String Ascii List ZArith NArith Bool.
From Verif Require Import PyBase PyPath SpecPath GenImports SpecImports PfImports3 PfWsdl PfWsdl2 PfWsdl3 PfWsdl4 PfPath2.
Import ListNotations.
Open Scope nat_scope.
Open Scope string_scope.
Open Scope list_scope.

(** ** xsd2py, started with a local document in the directory [base] *)

(** However the documents import each other: the depth of the recursion is at
    most two more than the number of documents that can be read. *)
Theorem C59_terminates :
  forall getcwd urljoin open base files urls n doc, Forall proper base -> reads_only open files urls ->
  length files + length urls + 1 < n ->
  snd (generate_code_from_xsd getcwd urljoin open n doc (path_of base)) <> Err RecursionError.
Proof. exact (fun g u o b f us n d P => terminates g u o b P f us n d). Qed.
Print Assumptions C59_terminates.
(** Code for imported documents is written at most once under each location, and
    locations of different names are different files. *)
Theorem C59_once :
  forall getcwd urljoin open base n doc, Forall proper base ->
  let w := written (fst (generate_code_from_xsd getcwd urljoin open n doc (path_of base))) in
  NoDup w /\ forall l l', In l w -> In l' w -> ~ remote l -> ~ remote l' -> denotes base l = denotes base l' -> l = l'.
Proof. exact (fun g u o b n d P => written_once g u o b P n d). Qed.
Print Assumptions C59_once.
(** And if nothing fails, at least once for everything that was opened; the
    document itself comes last. *)
Theorem C59_all :
  forall getcwd urljoin open base n doc, Forall proper base ->
  snd (generate_code_from_xsd getcwd urljoin open n doc (path_of base)) = Ok tt ->
  (forall by_ location path, In (Opened by_ location path) (fst (generate_code_from_xsd getcwd urljoin open n doc (path_of base))) ->
    exists l d path', In (Emitted (Some l) d) (fst (generate_code_from_xsd getcwd urljoin open n doc (path_of base))) /\
      open path' = Ok d /\ stands_for base l path /\ stands_for base l path') /\
  exists e, fst (generate_code_from_xsd getcwd urljoin open n doc (path_of base)) = e ++ [Emitted None doc].
Proof. exact (fun g u o b n d P H => conj (fun by_ l p => all_written g u o b P n d by_ l p H) (ends_with g u o b n d H)). Qed.
Print Assumptions C59_all.
(** Not the document itself: if it is imported as well, it is written twice. *)
Theorem C59_root_refuted :
  forall getcwd urljoin base open n f doc, Forall proper base -> proper f ->
  xd_locs doc = [Some f] -> open (path_of (base ++ [f])) = Ok doc ->
  generate_code_from_xsd getcwd urljoin open (S (S (S n))) doc (path_of base) =
  ([Opened None f (path_of (base ++ [f])); Opened (Some (path_of (base ++ [f]))) f (path_of (base ++ [f]));
    Emitted (Some f) doc; Emitted None doc], Ok tt).
Proof. exact (fun g u b o n f d P => root_twice g u b P o n f d). Qed.
Print Assumptions C59_root_refuted.

(** ** wsdl2py *)

(** Documents that import each other by mere names are read once each. *)
Theorem C59_wsdl_partial :
  forall getcwd open base names n doc, Forall proper base ->
  (forall p d, open p = Ok d -> plain_imports d) -> (forall f d, open (path_of (base ++ [f])) = Ok d -> In f names) ->
  (forall p, open p <> Err RecursionError) -> plain_imports doc ->
  let r := merge_imports getcwd open n None doc (path_of base) [] [] in
  (length names < n -> snd r <> Err RecursionError) /\ NoDup (map snd (mg_events (fst r))) /\
  forall by_ location path, In (by_, location, path) (mg_events (fst r)) -> path = path_of (base ++ [location]).
Proof. exact (fun g o b na n d P PO NA NR => plain_merge g o b P PO na NA NR n d). Qed.
Print Assumptions C59_wsdl_partial.
(** A document that imports itself as "./name" is read for ever. *)
Theorem C59_wsdl_refuted :
  forall getcwd open base n f doc, Forall proper base -> proper f -> wd_imports doc = ["./" ++ f]%string ->
  (forall p, denotes [] p = base ++ [f] -> open p = Ok doc) ->
  snd (merge_imports getcwd open n None doc (path_of base) [] []) = Err RecursionError.
Proof. exact reads_for_ever. Qed.
Print Assumptions C59_wsdl_refuted.
(** A schema imported by two schemas of a WSDL document is written twice. *)
Theorem C59_inline_refuted :
  forall getcwd urljoin open base n openw doc s1 s2 f doc', Forall proper base -> proper f ->
  wd_imports doc = [] -> wd_schemas doc = [s1; s2] ->
  xd_locs (ws_doc s1) = [Some f] -> xd_locs (ws_doc s2) = [Some f] -> open (path_of (base ++ [f])) = Ok doc' -> xd_locs doc' = [] ->
  generate_code_from_wsdl getcwd urljoin (S (S n)) open openw doc (path_of base) =
  ([], [Opened None f (path_of (base ++ [f])); Emitted (Some f) doc'; Emitted None (ws_doc s1);
        Opened None f (path_of (base ++ [f])); Emitted (Some f) doc'; Emitted None (ws_doc s2)], Ok tt).
Proof. exact (fun g u o b n ow d s1 s2 f d' P => inline_twice g u o b P n ow d s1 s2 f d'). Qed.
Print Assumptions C59_inline_refuted.

(** ** Relative locations *)

(** xsd2py opens what the location in the document denotes from the directory of
    that document, if this is a local one. *)
Theorem C60_xsd_partial :
  forall getcwd urljoin open base n doc by_ location path, Forall proper base -> reads_files open base ->
  In (Opened by_ location path) (fst (generate_code_from_xsd getcwd urljoin open n doc (path_of base))) ->
  (remote location -> path = location) /\
  (~ remote location -> local by_ -> ~ remote path /\ denotes [] path = denotes (dir_of base by_) location).
Proof. exact (fun g u o b n d by_ l p P => resolves g u o b P n d by_ l p). Qed.
Print Assumptions C60_xsd_partial.
(** In a document with a URL, relative locations become local files. *)
Theorem C60_remote_refuted :
  forall getcwd urljoin base open n url doc doc' f, Forall proper base -> remote url -> proper f ->
  xd_locs doc = [Some url] -> xd_locs doc' = [Some f] -> open url = Ok doc' ->
  In (Opened (Some url) f (path_of (base ++ [f]))) (fst (generate_code_from_xsd getcwd urljoin open (S (S n)) doc (path_of base))).
Proof. exact (fun g u b o n url d d' f P => remote_wrong g u b P o n url d d' f). Qed.
Print Assumptions C60_remote_refuted.
(** Started with a document in s/a, itself a URL, what it imports is looked for in
    s, given that urljoin follows RFC 3986. *)
Theorem C60_url_refuted :
  forall getcwd urljoin open n s a b doc, remote s -> urljoin (s ++ "/" ++ a)%string b = (s ++ "/" ++ b)%string ->
  ~ remote b -> xd_locs doc = [Some b] ->
  In (Opened None b (s ++ "/" ++ b)%string) (fst (generate_code_from_xsd getcwd urljoin open (S n) doc (s ++ "/" ++ a)%string)).
Proof. exact url_base_wrong. Qed.
Print Assumptions C60_url_refuted.
(** wsdl2py: after an import from a subdirectory, the next one is looked for there
    too. *)
Theorem C60_sibling_refuted :
  forall getcwd open base n doc w d f h, Forall proper base -> proper d -> proper f -> proper h -> h <> f ->
  wd_imports doc = [(d ++ "/" ++ f)%string; h] -> open (path_of (base ++ [d; f])) = Ok w -> wd_imports w = [] ->
  In (None, h, path_of (base ++ [d; h])) (mg_events (fst (merge_imports getcwd open (S n) None doc (path_of base) [] []))).
Proof. exact sibling_wrong. Qed.
Print Assumptions C60_sibling_refuted.
(** What a schema in an imported document imports is looked for next to the
    importing one. *)
Theorem C60_inline_refuted :
  forall getcwd urljoin open base n openw doc w d f t s, Forall proper base -> proper d -> proper f -> proper t ->
  wd_imports doc = [(d ++ "/" ++ f)%string] -> wd_schemas doc = [] -> openw (path_of (base ++ [d; f])) = Ok w ->
  wd_imports w = [] -> wd_schemas w = [s] -> xd_locs (ws_doc s) = [Some t] ->
  exists wev e r, generate_code_from_wsdl getcwd urljoin (S n) open openw doc (path_of base) = (wev, Opened None t (path_of (base ++ [t])) :: e, r).
Proof. exact (fun g u o b n ow d w dd f t s P => inline_wrong g u o b P n ow d w dd f t s). Qed.
Print Assumptions C60_inline_refuted.

(** ** What merging collects *)

(** If merging succeeds, the result has exactly the services, bindings, messages
    and port types of the document and of those read, and their schemas up to
    equality; and nothing twice that was not there twice before. *)
Theorem C68_merged :
  forall getcwd open n doc cwd m, merge_imports getcwd open n None doc cwd [] [] = (m, Ok tt) ->
  (forall x, In x (wd_items (mg_defs m)) <-> some_document (fun w => In x (wd_items w)) open doc (mg_events m)) /\
  (forall s, In s (wd_schemas (mg_defs m)) -> some_document (fun w => In s (wd_schemas w)) open doc (mg_events m)) /\
  (forall s, some_document (fun w => In s (wd_schemas w)) open doc (mg_events m) ->
    exists s', In s' (wd_schemas (mg_defs m)) /\ ws_bytes s' = ws_bytes s) /\
  (NoDup (wd_items doc) -> NoDup (map ws_bytes (wd_schemas doc)) ->
    NoDup (wd_items (mg_defs m)) /\ NoDup (map ws_bytes (wd_schemas (mg_defs m)))).
Proof. exact merged_parts. Qed.
Print Assumptions C68_merged.

(** ** Examples *)

Definition ex_base := ["srv"; "api"].
Definition ex_b := mkXD [Some "../../common/./c.xsd"] "b".
Definition ex_c := mkXD [Some "../api/types/b.xsd"; Some "http://example.org/d.xsd"] "c".
Definition ex_d := mkXD [] "d".
Definition ex_doc := mkXD [Some "types/b.xsd"; None] "a".
(** The files /srv/api/types/b.xsd and /srv/common/c.xsd and one URL. *)
Definition ex_open (p : string) : res xdoc :=
  if is_url p then (if String.eqb p "http://example.org/d.xsd" then Ok ex_d else Err (Exn (EOther "ConnectionError") ""))
  else if list_eq_dec string_dec (denotes [] p) ["srv"; "api"; "types"; "b.xsd"] then Ok ex_b
  else if list_eq_dec string_dec (denotes [] p) ["srv"; "common"; "c.xsd"] then Ok ex_c
  else Err (Exn (EOther "FileNotFoundError") "").
Example C59_nonvacuous :
  Forall proper ex_base /\ reads_only ex_open [["srv"; "api"; "types"; "b.xsd"]; ["srv"; "common"; "c.xsd"]] ["http://example.org/d.xsd"] /\
  reads_files ex_open ex_base /\
  generate_code_from_xsd "/" (fun _ _ => "") ex_open 5 ex_doc "/srv/api" =
  ([Opened None "types/b.xsd" "/srv/api/types/b.xsd";
    Opened (Some "/srv/api/types/b.xsd") "../../common/./c.xsd" "/srv/api/../common/c.xsd";
    Opened (Some "/srv/api/../common/c.xsd") "../api/types/b.xsd" "/srv/api/types/b.xsd";
    Opened (Some "/srv/api/../common/c.xsd") "http://example.org/d.xsd" "http://example.org/d.xsd";
    Emitted (Some "http://example.org/d.xsd") ex_d; Emitted (Some "../common/c.xsd") ex_c;
    Emitted (Some "types/b.xsd") ex_b; Emitted None ex_doc], Ok tt).
Proof.
  split; [repeat constructor; try discriminate; cbn; intuition discriminate|]. split; [|split; [|vm_compute; reflexivity]].
  - intros p. unfold ex_open. destruct (is_url p) eqn:U.
    + apply is_url_spec in U. destruct (String.eqb_spec p "http://example.org/d.xsd") as [->|_]; (split; [|discriminate]); [|discriminate].
      intros d _. split; [now left|]. intros N. destruct (N U).
    + apply not_url in U. destruct (list_eq_dec _ _ _) as [->|_]; [split; [|discriminate]; intros d _; split; [contradiction|now left]|].
      destruct (list_eq_dec _ _ _) as [->|_]; [split; [|discriminate]; intros d _; split; [contradiction|now right; left]|].
      split; discriminate.
  - intros p d N. unfold ex_open. rewrite (proj1 (not_url p) N).
    destruct (list_eq_dec _ _ _) as [->|_]; [intros _ (r & E); discriminate|].
    destruct (list_eq_dec _ _ _) as [->|_]; [intros _ (r & E); discriminate|]. discriminate.
Qed.
(** For the refutations: a document that imports itself, by name or with "./". *)
Example C59_refuted_nonvacuous :
  proper "a.xsd" /\ snd (merge_imports "/" (fun p => if list_eq_dec string_dec (denotes [] p) ["srv"; "a.wsdl"] then Ok (mkWD ["./a.wsdl"] [] []) else Err (Exn (EOther "FileNotFoundError") ""))
    5 None (mkWD ["./a.wsdl"] [] []) "/srv" [] []) = Err RecursionError.
Proof. split; [repeat split; try discriminate; cbn; intuition discriminate|vm_compute; reflexivity]. Qed.
(** Two documents that import each other by name. *)
Definition w_a := mkWD ["b.wsdl"] [mkWS "s1" ex_d] ["service"; "message"].
Definition w_b := mkWD ["a.wsdl"] [mkWS "s1" ex_d; mkWS "s2" ex_d] ["message"; "binding"].
Definition w_open (p : string) : res wdoc :=
  if String.eqb p "/srv/a.wsdl" then Ok w_a else if String.eqb p "/srv/b.wsdl" then Ok w_b else Err (Exn (EOther "FileNotFoundError") "").
Example C68_nonvacuous :
  plain_imports w_a /\ plain_imports w_b /\
  merge_imports "/" w_open 4 None w_a "/srv" [] [] =
  (mkMerging ["/srv/a.wsdl"; "/srv/b.wsdl"] [(None, "b.wsdl", "/srv/b.wsdl"); (Some "/srv/b.wsdl", "a.wsdl", "/srv/a.wsdl")]
    (mkWD ["b.wsdl"] [mkWS "s1" ex_d; mkWS "s2" ex_d] ["service"; "message"; "binding"]) "/srv", Ok tt).
Proof. split; [|split; [|reflexivity]]; repeat constructor; try discriminate; cbn; intuition discriminate. Qed.
