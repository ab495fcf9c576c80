(** Properties C68-C74: alphabet files, variant lists, start-up, the [index]
    command and conversions. *)
From Coq Require Import Lia Sorted.
From Coq Require String Ascii.
From Verif Require Import M_Base M_Anahash M_Iter M_Float M_Types M_Model M_Confusable M_ConfList M_Rules M_Utf8 M_Text M_Values M_Cli M_Main.
From Verif Require Import S_Anahash S_Model S_Confusable S_Rules S_Main P_Base P_Model P_Files P_Main P_Convert C_Model.
From stdpp Require Import options.
Import String.StringSyntax Ascii.AsciiSyntax.
#[local] Arguments lit s%string_scope.

(** ** C68: alphabet files *)
(** What a file says, and nothing else, is the alphabet. *)
Theorem C68_reading ws lines A : alphabet_says ws lines A <-> read_alphabet ws lines = A.
Proof. exact (alphabet_spec ws lines A). Qed.
Print Assumptions C68_reading.

(** An alphabet read from at most 167 lines is usable (no empty forms). *)
Theorem C68_usable ws lines :
  length (filter (fun l => l <> None /\ l <> Some []) lines) <= 167 -> alphabet_ok (read_alphabet ws lines).
Proof. exact (read_alphabet_ok ws lines). Qed.
Print Assumptions C68_usable.

(** Exactly the alphabets of writable forms have a file. *)
Theorem C68_writable ws A : ws 32%N = true ->
  (exists lines, Forall (fun l => 10%N ∉ l) lines /\ read_alphabet ws (map Some lines) = A) <-> Forall (Forall (writable ws)) A.
Proof. exact (writable_spec ws A). Qed.
Print Assumptions C68_writable.

Definition exws (c : N) : bool := (c =? 32)%N || (c =? 9)%N || (c =? 10)%N || (c =? 13)%N || (c =? 160)%N.
(** "ch" with a second form, an escaped space among other forms, an empty line,
    a line that is not UTF-8, a blank line, a literal backslash-s *)
Example C68_ex : read_alphabet exws (map Some [lit "ch	CH "; []; lit "\s	.	\t"] ++ [None; Some (lit " 	 "); Some (lit " \s")]) =
  [[lit "ch"; lit "CH"]; [lit " "; lit "."; lit "	"]; []; [lit "\s"]].
Proof. by vm_compute. Qed.
(** a non-breaking space cannot be written *)
Example C68_unwritable : ~ writable exws [160%N] /\ writable exws [32%N].
Proof.
  split; [|by left; left]. intros [H|(_ & [H _] & _)].
  - unfold escapes in H. cbn [map snd] in H. rewrite !elem_of_cons in H. destruct H as [|[|[|H]]]; [done..|by apply elem_of_nil in H].
  - by specialize (H _ eq_refl).
Qed.

(** ** C69: variant lists *)
(** A list that is read: what it says (in the format its lines decide) is added
    and linked, in order, and its name becomes the last lexicon. *)
Theorem C69_list_reads pf m name lines ps tr m' :
  lookups_inverse m -> read_variants pf m name lines ps tr = Ok m' ->
  let i := N.of_nat (as_u8 (length (m_lexicons m))) in
  let p0 := default vocab_params_default ps in
  let p := VocabParams (vp_text_column p0) (vp_freq_column p0) (vp_freq_handling p0) (vp_vocab_type p0) i in
  let tp := if tr then VocabParams (vp_text_column p0) (vp_freq_column p0) (vp_freq_handling p0) (N.lor (vp_vocab_type p0) VT_TRANSPARENT) i else p in
  exists es r L, list_says pf lines es /\ run_adds m (concat (map (line_additions p tp) es)) = Ok r /\
    links_between r (concat (map line_links es)) L /\
    m_encoder m' = m_encoder r /\ m_decoder m' = m_decoder (run_links r L) /\ m_lexicons m' = m_lexicons m ++ [name].
Proof. exact (list_reads pf m name lines ps tr m'). Qed.
Print Assumptions C69_list_reads.
Theorem C69_list_unique pf lines es es' : list_says pf lines es -> list_says pf lines es' -> es = es'.
Proof. exact (list_says_det pf lines es es'). Qed.
Print Assumptions C69_list_unique.
(** A list that says something is read, unless the vocabulary cannot be extended. *)
Theorem C69_list_succeeds pf m name lines ps (tr : bool) es r :
  lookups_inverse m -> list_says pf lines es ->
  let i := N.of_nat (as_u8 (length (m_lexicons m))) in
  let p0 := default vocab_params_default ps in
  let p := VocabParams (vp_text_column p0) (vp_freq_column p0) (vp_freq_handling p0) (vp_vocab_type p0) i in
  let tp := if tr then VocabParams (vp_text_column p0) (vp_freq_column p0) (vp_freq_handling p0) (N.lor (vp_vocab_type p0) VT_TRANSPARENT) i else p in
  run_adds m (concat (map (line_additions p tp) es)) = Ok r ->
  exists m', read_variants pf m name lines ps tr = Ok m'.
Proof. exact (list_succeeds pf m name lines ps tr es r). Qed.
Print Assumptions C69_list_succeeds.
(** A list without frequencies can be misread: two variants, the first a number. *)
Theorem C69_numeric_variant_refuted pf x y :
  pf (lit "0.9") = Some x -> pf (lit "0.8") = Some y -> pf (lit "ii") = None ->
  exists lines es, Forall2 (line_says pf false) lines es /\
    forall m name ps tr m', read_variants pf m name lines ps tr <> Ok m'.
Proof.
  intros Hx Hy Hz. exists [lit "two	2	0.9	ii	0.8"], [ListLine (lit "two") None [(lit "2", x, None); (lit "ii", y, None)]]. split.
  - constructor; [|constructor]. apply (line_nofreq _ _ _ [lit "2"; lit "0.9"; lit "ii"; lit "0.8"]).
    { apply (P_Vocab.split_on_fields 9 (lit "two	2	0.9	ii	0.8")). }
    apply groups2_next; [done|]. apply groups2_next; [done|]. constructor. cbn. lia.
  - intros m name ps tr m' H. unfold read_variants in H. apply rbind_ok in H as ([m1 hf] & E & _). cbn [rfoldl] in E.
    apply rbind_ok in E as ([m2 hf2] & E & _). unfold read_variants_line in E. 
    change (lit "two	2	0.9	ii	0.8") with (116%N :: lit "wo	2	0.9	ii	0.8") in E. cbn iota beta in E.
    change (116%N :: lit "wo	2	0.9	ii	0.8") with (lit "two	2	0.9	ii	0.8") in E.
    assert (Es : split_on 9 (lit "two	2	0.9	ii	0.8") = [lit "two"; lit "2"; lit "0.9"; lit "ii"; lit "0.8"]) by (by vm_compute).
    rewrite Es in E. cbn [lookup list_lookup rexpect rbind] in E. cbn [fst snd] in E.
    assert (Ed : detect_freq None [lit "two"; lit "2"; lit "0.9"; lit "ii"; lit "0.8"] = Ok (Some true, Some 2%N)) by (by vm_compute).
    rewrite Ed in E. cbn [rbind fst snd] in E. apply rbind_ok in E as ([m3 ri] & _ & E). cbn [fst snd] in E. apply rbind_ok in E as (m4 & E & _).
    cbn [drop read_variants_freq] in E. rewrite Hz in E. done.
Qed.
Print Assumptions C69_numeric_variant_refuted.

Definition expf (s : str) : option f64 :=
  if bool_decide (s = lit "0.9") then Some f1 else if bool_decide (s = lit "0.8") then Some f2 else None.
Definition exabc : alphabet := map (fun c => [[c]]) [97; 98; 99; 105; 116; 119; 111]%N.
(** with and without frequencies *)
Example C69_ex :
  (exists es, list_says expf [lit "two	7	ii	0.9	3"; []; lit "cab	5	bac	0.8	1	abc	0.9	2"] es /\ length es = 2) /\
  match read_variants expf (new_with_alphabet exabc w1) (lit "l") [lit "two	ii	0.9"; []; lit "cab	bac	0.8	abc	0.9"] None true with
  | Ok m => map (fun v => (vv_text v, vv_frequency v, vv_type v)) (drop 3 (m_decoder m)) =
      [(lit "two", 1%N, 1%N); (lit "ii", 1%N, 5%N); (lit "cab", 1%N, 1%N); (lit "bac", 1%N, 5%N); (lit "abc", 1%N, 5%N)]
  | Panic _ => False
  end.
Proof.
  split; [|by vm_compute].
  assert (exists m, read_variants expf (new_with_alphabet exabc w1) [] [lit "two	7	ii	0.9	3"; []; lit "cab	5	bac	0.8	1	abc	0.9	2"] None true = Ok m /\
    length (m_decoder m) = 8) as (m & E & El).
  { destruct read_variants as [m|] eqn:E; [|by vm_compute in E]. exists m. split; [done|].
    assert (rmap (fun m => length (m_decoder m)) (Ok m) = Ok 8) as [= ->] by (rewrite <- E; by vm_compute). done. }
  destruct (C69_list_reads _ _ _ _ _ _ _ (new_inverse exabc w1) E) as (es & r & L & Hs & _). exists es. split; [done|].
  destruct Hs as (pre & post & b & es1 & es2 & F & -> & _ & F1 & _ & F2). rewrite app_length, <- (Forall2_length _ _ _ F1), <- (Forall2_length _ _ _ F2), <- app_length, <- F.
  by vm_compute.
Qed.

(** ** C70: start-up *)
(** The files are loaded in the order they are given on the command line,
    language models last, each with its own number. *)
Theorem C70_files_loaded ws pf pf32 ps o o' al w opts lms confs rules early m :
  some_order o' -> positions_increase opts -> length opts + length lms <= 256 ->
  startup ws pf pf32 ps o o' al w (lexicon_options opts) (variants_options opts) (errors_options opts) lms confs rules early = Ok m ->
  let ss := map (fun x => Given x.2) opts ++ map Lm lms in
  exists a l r L, sources_say pf 0 ss a l /\ run_adds (new_with_alphabet (read_alphabet ws al) w) a = Ok r /\ links_between r l L /\
    m_encoder m = m_encoder r /\ m_decoder m = m_decoder (run_links r L) /\ m_lexicons m = map source_name ss.
Proof. exact (start_all ws pf pf32 ps o o' al w opts lms confs rules early m). Qed.
Print Assumptions C70_files_loaded.
(** The other settings are those given. *)
Theorem C70_settings ws pf pf32 ps o o' al w opts lms confs rules early m :
  some_order o' -> positions_increase opts -> length opts + length lms <= 256 ->
  startup ws pf pf32 ps o o' al w (lexicon_options opts) (variants_options opts) (errors_options opts) lms confs rules early = Ok m ->
  m_alphabet m = read_alphabet ws al /\ m_weights m = w /\ m_confusables_before_pruning m = early /\
  exists css, Forall2 (fun f cs => exists ls, selects (fun l => l <> []) (f_lines f) ls /\ Forall2 (line_confusable ps pf) ls cs) confs css /\
    m_confusables m = concat css.
Proof. exact (start_settings ws pf pf32 ps o o' al w opts lms confs rules early m). Qed.
Print Assumptions C70_settings.
(** Of every entry the tool knows, and prints, exactly the files that mention it. *)
Theorem C70_lexicon_names ws pf pf32 ps o o' al w opts lms confs rules early m t v :
  some_order o' -> positions_increase opts -> length opts + length lms <= 32 ->
  startup ws pf pf32 ps o o' al w (lexicon_options opts) (variants_options opts) (errors_options opts) lms confs rules early = Ok m ->
  entry m t v ->
  let ss := map (fun x => Given x.2) opts ++ map Lm lms in
  (forall i, i < 32 -> exists b, in_lexicon v (N.of_nat i) = Ok b /\ (b = true <-> exists s, ss !! i = Some s /\ mentions pf s t)) /\
  exists sel, selects (fun s => mentions pf s t) ss sel /\ lexicons_of m v = Ok (map source_name sel).
Proof. exact (start_names ws pf pf32 ps o o' al w opts lms confs rules early m t v). Qed.
Print Assumptions C70_lexicon_names.
(** Files that say something are loaded, unless the vocabulary cannot be extended. *)
Theorem C70_loading_succeeds ws pf al w opts a l r :
  positions_increase opts -> length opts <= 256 ->
  sources_say pf 0 (map (fun x => Given x.2) opts) a l -> run_adds (new_with_alphabet (read_alphabet ws al) w) a = Ok r ->
  exists m, load_resources pf (model_new ws al w) (lexicon_options opts) (variants_options opts) (errors_options opts) = Ok m.
Proof. exact (start_succeeds ws pf al w opts a l r). Qed.
Print Assumptions C70_loading_succeeds.

Definition exopts : list (nat * resource) :=
  [(2, RVariants (File (lit "v") [lit "two	ii	0.9"])); (4, RLexicon (File (lit "a") [lit "two	3"; lit "cat	2"]));
   (7, RErrors (File (lit "e") [lit "cat	4	act	0.8	1"])); (9, RLexicon (File (lit "b") [lit "act"]))].
Example C70_ex :
  positions_increase exopts /\
  match startup exws expf expf (fun _ => None) id id (map Some [lit "a"; lit "c"; lit "t	T"; lit "w"; lit "o"; lit "i"]) w1
    (lexicon_options exopts) (variants_options exopts) (errors_options exopts) [File (lit "lm") [lit "two cat	2"]] [] [] true with
  | Ok m => map (fun v => (vv_text v, vv_frequency v, lexicons_of m v)) (drop 3 (m_decoder m)) =
      [(lit "two", 3%N, Ok [lit "v"; lit "a"]); (lit "ii", 1%N, Ok [lit "v"]); (lit "cat", 4%N, Ok [lit "a"; lit "e"]); (lit "act", 1%N, Ok [lit "e"; lit "b"]);
       (lit "two cat", 2%N, Ok [lit "lm"])]
  | Panic _ => False
  end.
Proof. split; [|by vm_compute]. unfold positions_increase. cbn. repeat constructor; lia. Qed.

(** ** C71: the index command *)
(** Every line holds the searchable entries of one anagram class behind the
    number of that class; together all searchable entries, once each. *)
Theorem C71_index_command o o' order m m' :
  alphabet_ok (m_alphabet m) -> some_order o -> some_order o' -> some_order order -> build o o' m = Ok m' ->
  exists gs, index_listing m gs /\ index_output order m' = Printed (concat (map index_text gs)) None.
Proof. exact (index_lists o o' order m m'). Qed.
Print Assumptions C71_index_command.
Example C71_ex :
  match startup exws expf expf (fun _ => None) id id (map Some [lit "a"; lit "c"; lit "t	T"; lit "w"; lit "o"; lit "i"]) w1
    (lexicon_options exopts) (variants_options exopts) (errors_options exopts) [File (lit "lm") [lit "two cat	2"]] [] [] true with
  | Ok m => index_output id m = Printed (lit "385	two
169	ii
30	cat	act
") None
  | Panic _ => False
  end.
Proof. by vm_compute. Qed.

(** ** C72: decomposition of an anagram value *)
(** For text of known characters: the first forms of its characters, highest first. *)
Theorem C72_decomposition m t ks :
  alphabet_ok (m_alphabet m) -> reads (m_alphabet m) t ks -> length (m_alphabet m) ∉ ks ->
  exists h ks' l, anahash (m_alphabet m) t = Ok h /\ ks' ≡ₚ ks /\ StronglySorted ge ks' /\
    decompose_anavalue m h = Ok l /\ Forall2 (fun k e => entry_at (m_alphabet m) k 0 e) ks' l.
Proof. exact (decompose_known m t ks). Qed.
Print Assumptions C72_decomposition.
(** Text with a character that is not in the alphabet: panic. *)
Theorem C72_unknown_character_refuted m t ks :
  alphabet_ok (m_alphabet m) -> reads (m_alphabet m) t ks -> length (m_alphabet m) ∈ ks ->
  exists h, anahash (m_alphabet m) t = Ok h /\ decompose_anavalue m h = Panic ExpectNone.
Proof. exact (decompose_unknown m t ks). Qed.
Print Assumptions C72_unknown_character_refuted.
Example C72_ex :
  (let* h := anahash exabc (lit "cab") in decompose_anavalue (new_with_alphabet exabc w1) h) = Ok [lit "c"; lit "b"; lit "a"] /\
  (let* h := anahash exabc (lit "caz") in decompose_anavalue (new_with_alphabet exabc w1) h) = Panic ExpectNone.
Proof. by vm_compute. Qed.

(** ** C73: n-grams to text and back *)
(** Entries of at most five words become n-grams; their text reads the same,
    with words that are not in the vocabulary replaced. *)
Theorem C73_ngram_text m id v ws u :
  lookups_inverse m -> words_counted m -> (exists w, m_decoder m !! UNK = Some w /\ vv_text w = unk_text) ->
  m_decoder m !! id = Some v -> fields_of 32 (vv_text v) ws ->
  (length ws <= 5 -> exists g, into_ngram m id u = Ok (Some g, u) /\
    ngram_to_str m g = Ok (spaced (map (fun w => match m_encoder m !! w with Some _ => w | None => unk_text end) ws))) /\
  (5 < length ws -> into_ngram m id u = Ok (None, u)).
Proof. exact (ngram_round m id v ws u). Qed.
Print Assumptions C73_ngram_text.
Theorem C73_known_words m id v ws u :
  lookups_inverse m -> words_counted m -> (exists w, m_decoder m !! UNK = Some w /\ vv_text w = unk_text) ->
  m_decoder m !! id = Some v -> fields_of 32 (vv_text v) ws -> length ws <= 5 -> Forall (fun w => is_Some (m_encoder m !! w)) ws ->
  exists g, into_ngram m id u = Ok (Some g, u) /\ ngram_to_str m g = Ok (vv_text v).
Proof. exact (ngram_known m id v ws u). Qed.
Print Assumptions C73_known_words.
(** The text of a match: that of the selected variant, or its own without one. *)
Theorem C73_match_text m x :
  (tm_selected x = None -> match_to_str m x = Ok (tm_text x)) /\
  (forall i vs r v, tm_selected x = Some i -> tm_variants x = Some vs -> vs !! i = Some r -> m_decoder m !! vr_id r = Some v -> match_to_str m x = Ok (vv_text v)).
Proof.
  unfold match_to_str, match_to_vocabvalue, solution. split; [by intros ->|]. intros i vs r v -> -> E D. cbn [rexpect rbind].
  assert (nth_error vs i = Some r) as -> by (rewrite <- E; clear; revert i; induction vs as [|y vs IH]; intros [|i]; [done..|apply IH]).
  cbn [rbind]. by rewrite D.
Qed.
Print Assumptions C73_match_text.
Definition exN : model :=
  match run_adds (new_with_alphabet exabc w1) (map (fun t => (t, Some 1%N, par FSum 2 0)) [lit "a"; lit "b"; lit "c"; lit "a b c"; lit "b  x"]) with
  | Ok m => m | Panic _ => new_with_alphabet exabc w1 end.
Example C73_ex :
  words_counted exN /\ (let* r := into_ngram exN 6 None in match r.1 with Some g => ngram_to_str exN g | None => Panic ExpectNone end) = Ok (lit "a b c") /\
  (let* r := into_ngram exN 7 None in match r.1 with Some g => ngram_to_str exN g | None => Panic ExpectNone end) = Ok (lit "b <unk> <unk>").
Proof.
  split; [|by vm_compute]. intros id v H.
  assert (forallb (fun v => vv_tokencount v =? S (count_spaces (vv_text v))) (m_decoder exN) = true) as E by (by vm_compute).
  rewrite forallb_forall in E. apply Nat.eqb_eq, E, elem_of_list_In, elem_of_list_lookup. by exists id.
Qed.
Example C73_text_ex : match_to_str exN (TMatch (lit "x") 0 1 (Some [VariantResult 4 f1 f1 None; VariantResult 3 f1 f1 None]) (Some 1) [] [] 1) = Ok (lit "a") /\
  match_to_str exN (TMatch (lit "x") 0 1 (Some [VariantResult 4 f1 f1 None]) None [] [] 1) = Ok (lit "x").
Proof. by vm_compute. Qed.

(** ** C74: matches to n-grams *)
(** [match_to_ngram] is wrong: with [n] boundaries inside a match, that is
    [n + 1] words, at most [n] words are in the result, and none if [n] is 0 or 1. *)
Theorem C74_words_missing m x pre ins post g :
  Forall (fun y => ~ inner x y) pre -> Forall (inner x) ins -> Forall (fun y => ~ inner x y) post ->
  match_to_ngram m x (pre ++ ins ++ post) = Ok (Some g) -> length (ng_to_vec g) <= length ins /\ (length ins <= 1 -> g = NEmpty).
Proof. exact (match_ngram_inner m x pre ins post g). Qed.
Print Assumptions C74_words_missing.
(** "a b c" of known words gives (a, b); "a" gives the empty n-gram *)
Theorem C74_last_word_refuted :
  ~ (forall m t bs ws g, (forall c, c ∈ t -> c = 32%N \/ m_encoder m !! [c] <> None) -> fields_of 32 t ws ->
      find_boundaries (fun c => negb (c =? 32)%N) t = Ok bs -> match_to_ngram m (new_empty t 0 (byte_len t)) bs = Ok (Some g) ->
      ngram_to_str m g = Ok t).
Proof.
  intros H. assert (ngram_to_str exN (NBi 3 4) = Ok (lit "a b c")) as E; [|by vm_compute in E].
  eapply (H exN (lit "a b c") [new_empty [32%N] 1 2; new_empty [32%N] 3 4; new_empty [] 5 5]); [|apply P_Vocab.split_on_fields|by vm_compute|by vm_compute].
  intros c Hc. change (lit "a b c") with [97; 32; 98; 32; 99]%N in Hc. rewrite !elem_of_cons, elem_of_nil in Hc.
  destruct Hc as [->|[->|[->|[->|[->|[]]]]]]; auto; right; by vm_compute.
Qed.
Print Assumptions C74_last_word_refuted.
Example C74_ex : match_to_ngram exN (new_empty (lit "a b c") 0 5) [new_empty [32%N] 1 2; new_empty [32%N] 3 4; new_empty [] 5 5] = Ok (Some (NBi 3 4)) /\
  match_to_ngram exN (new_empty (lit "a") 0 1) [new_empty [] 1 1] = Ok (Some NEmpty).
Proof. by vm_compute. Qed.
