(** Properties C30-C36 and C54: vocabulary, index, variant links, counts. *)
From Coq Require Import Lia Sorted.
From Verif Require Import M_Base M_Anahash M_Iter M_Float M_Types M_Model S_Anahash S_Model P_Model P_Vocab P_Index P_Links P_Lm C_Anahash.
From stdpp Require Import options.

(** ** C30 *)
Theorem C30_ids_and_texts_correspond pf A w cs1 cs2 m1 m2 :
  Forall call_ok (cs1 ++ cs2) ->
  run_calls pf (new_with_alphabet A w) cs1 = Ok m1 -> run_calls pf m1 cs2 = Ok m2 ->
  lookups_inverse m2 /\ ids_kept m1 m2.
Proof. exact (ids_bijection pf A w cs1 cs2 m1 m2). Qed.
Print Assumptions C30_ids_and_texts_correspond.

Theorem C30_known_texts A w l m t :
  run_adds (new_with_alphabet A w) l = Ok m ->
  (exists id, m_encoder m !! t = Some id) <-> special_text t \/ exists a, a ∈ l /\ a.1.1 = t.
Proof. exact (known_texts A w l m t). Qed.
Print Assumptions C30_known_texts.

Definition w1 : weights := Weights f1 f1 f1 f1 f1.
Definition par (h : freq_handling) (ty idx : N) : vocab_params := VocabParams 0 (Some 1) h ty idx.
(** "ab", "b", "ab" again, and the entry "b" linked to "ab" *)
Definition exM : res model :=
  run_calls (fun _ => None) (new_with_alphabet exA w1)
    [CAdd [97; 98]%N (Some 3%N) (par FSum 1 0); CAdd [98]%N None (par FMax 3 1);
     CAdd [97; 98]%N (Some 4%N) (par FSum 1 2); CLink 3 4 f1; CBuild id id].
Example C30_ex :
  match exM with
  | Ok m => m_encoder m !! [97; 98]%N = Some 3 /\ m_encoder m !! [98]%N = Some 4 /\ length (m_decoder m) = 5 /\
            m_encoder m !! [99]%N = None /\ m_encoder m !! unk_text = Some 2
  | Panic _ => False
  end.
Proof. by vm_compute. Qed.

(** ** C31 *)
Theorem C31_additions_succeed A w l :
  alphabet_ok A -> Forall add_ok l -> (total_given l < 4294967296)%N ->
  exists m, run_adds (new_with_alphabet A w) l = Ok m.
Proof. exact (adds_succeed A w l). Qed.
Print Assumptions C31_additions_succeed.

(** the frequency of an entry: the first one given, then each policy in turn *)
Theorem C31_frequency A w l m t v :
  run_adds (new_with_alphabet A w) l = Ok m -> entry m t v ->
  (special_text t -> vv_frequency v = fold_policy 0 (about t l)) /\
  (~ special_text t -> exists a rest, about t l = a :: rest /\ vv_frequency v = fold_policy (given a) rest).
Proof. exact (frequency_policy A w l m t v). Qed.
Print Assumptions C31_frequency.

(** a vocabulary file is a sequence of additions, one per non-empty line *)
Theorem C31_vocabulary_file m name lines p m' :
  read_vocabulary m name lines p = Ok m' ->
  exists adds r,
    Forall2 (line_adds (with_params_index p (N.of_nat (Nat.modulo (length (m_lexicons m)) 256))))
      (filter (fun l => l <> []) lines) adds /\
    run_adds m adds = Ok r /\ m_decoder m' = m_decoder r /\ m_encoder m' = m_encoder r /\
    m_lexicons m' = m_lexicons m ++ [name].
Proof. exact (read_vocabulary_adds m name lines p m'). Qed.
Print Assumptions C31_vocabulary_file.

Example C31_ex :
  let l := [([97]%N, Some 3%N, par FSum 1 0); ([98]%N, Some 9%N, par FSum 1 0);
            ([97]%N, Some 5%N, par FSum 1 0); ([97]%N, None, par FMin 1 0)] in
  Forall add_ok l /\ (total_given l < 4294967296)%N /\
  match run_adds (new_with_alphabet exA w1) l with
  | Ok m => map vv_frequency (m_decoder m) = [0; 0; 0; 1; 9]%N
  | Panic _ => False
  end.
Proof. cbn zeta. split; [|by vm_compute]. by repeat constructor. Qed.
(** the file "a TAB 12 / (empty) / b" *)
Example C31_ex_file :
  match read_vocabulary (new_with_alphabet exA w1) [] [[97; 9; 49; 50]; []; [98]]%N (par FMax 1 0) with
  | Ok m => map vv_frequency (m_decoder m) = [0; 0; 0; 12; 1]%N
  | Panic _ => False
  end.
Proof. by vm_compute. Qed.

(** ** C32 *)
Theorem C32_lexicon_membership A w l m t v i :
  run_adds (new_with_alphabet A w) l = Ok m -> entry m t v -> (i < 32)%N ->
  exists b, in_lexicon v i = Ok b /\ (b = true <-> exists a, a ∈ l /\ a.1.1 = t /\ vp_index a.2 = i).
Proof. exact (lexicon_query A w l m t v i). Qed.
Print Assumptions C32_lexicon_membership.

(** the list of lexicons is right for the lexicons 0 to 30 *)
Theorem C32_lexicon_list A w l m t v :
  run_adds (new_with_alphabet A w) l = Ok m -> entry m t v ->
  exists ls, lexindex_as_vec v = Ok ls /\ StronglySorted N.lt ls /\
    forall i, i ∈ ls <-> (i < 31)%N /\ exists a, a ∈ l /\ a.1.1 = t /\ vp_index a.2 = i.
Proof. exact (lexicon_list A w l m t v). Qed.
Print Assumptions C32_lexicon_list.

(** ... but the 32nd lexicon is missing from it *)
Theorem C32_last_lexicon_listed_refuted :
  exists A w l m t v ls, run_adds (new_with_alphabet A w) l = Ok m /\ entry m t v /\
    in_lexicon v 31 = Ok true /\ lexindex_as_vec v = Ok ls /\ 31%N ∉ ls.
Proof.
  pose (l := [([97]%N, None, par FMax 1 31)] : list addition).
  destruct (run_adds (new_with_alphabet exA w1) l) as [m|] eqn:E; [|by vm_compute in E].
  exists exA, w1, l, m, [97]%N, (VocabValue [97]%N [0] 1 1 2147483648 None 1), [].
  vm_compute in E. injection E as <-. split; [done|]. split; [exists 3; by vm_compute|].
  split; [by vm_compute|]. split; [by vm_compute|]. apply not_elem_of_nil.
Qed.
Print Assumptions C32_last_lexicon_listed_refuted.

(** the 33rd lexicon makes loading fail *)
Theorem C32_too_many_lexicons_fail m t f p :
  (32 <= vp_index p)%N -> exists e, add_to_vocabulary m t f p = Panic e.
Proof. exact (lexicon_overflow m t f p). Qed.
Print Assumptions C32_too_many_lexicons_fail.

Example C32_ex :
  let l := [([97]%N, None : option N, par FMax 1 2); ([98]%N, None, par FMax 1 1); ([97]%N, None, par FMax 1 30)] in
  match run_adds (new_with_alphabet exA w1) l with
  | Ok m => match m_decoder m !! 3 with
            | Some v => lexindex_as_vec v = Ok [2; 30]%N /\ in_lexicon v 2 = Ok true /\ in_lexicon v 1 = Ok false
            | None => False
            end
  | Panic _ => False
  end.
Proof. by vm_compute. Qed.

(** ** C33 *)
(** what does not depend on the order of the additions: everything but the
    ids, and the searchable/language-model flags of a text added with
    different types *)
Theorem C33_loading_order A w l l' m m' h :
  run_adds (new_with_alphabet A w) l = Ok m -> run_adds (new_with_alphabet A w) l' = Ok m' ->
  l ≡ₚ l' -> one_policy h l -> h <> FReplace ->
  forall t v, entry m t v -> exists v', entry m' t v' /\
    vv_text v' = vv_text v /\ vv_norm v' = vv_norm v /\ vv_tokencount v' = vv_tokencount v /\
    vv_frequency v' = vv_frequency v /\ vv_lexindex v' = vv_lexindex v /\
    flag (vv_type v') transparent_bit = flag (vv_type v) transparent_bit /\
    ((forall a b, a ∈ l -> b ∈ l -> a.1.1 = t -> b.1.1 = t -> declared_type a = declared_type b) ->
     vv_type v' = vv_type v).
Proof. exact (order_independent A w l l' m m' h). Qed.
Print Assumptions C33_loading_order.

(** the flags: the first declaration counts, except that transparency needs all *)
Theorem C33_flags A w l m t v :
  run_adds (new_with_alphabet A w) l = Ok m -> entry m t v -> ~ special_text t ->
  exists a rest, about t l = a :: rest /\
    flag (vv_type v) searchable_bit = flag (declared_type a) searchable_bit /\
    flag (vv_type v) lm_bit = flag (declared_type a) lm_bit /\
    (flag (vv_type v) transparent_bit = true <-> Forall (fun b => flag (declared_type b) transparent_bit = true) (about t l)).
Proof. exact (flags_spec A w l m t v). Qed.
Print Assumptions C33_flags.

(** a text first loaded for the language model and then as a normal lexicon
    entry is not searchable, the other way round it is *)
Theorem C33_searchable_order_refuted :
  exists A w l l' m m' t v v', l ≡ₚ l' /\
    run_adds (new_with_alphabet A w) l = Ok m /\ run_adds (new_with_alphabet A w) l' = Ok m' /\
    entry m t v /\ entry m' t v' /\
    flag (vv_type v) searchable_bit = true /\ flag (vv_type v') searchable_bit = false.
Proof.
  pose (a := ([97]%N, None, par FMax 1 0) : addition). pose (b := ([97]%N, None, par FMax 2 1) : addition).
  destruct (run_adds (new_with_alphabet exA w1) [a; b]) as [m|] eqn:E; [|by vm_compute in E].
  destruct (run_adds (new_with_alphabet exA w1) [b; a]) as [m'|] eqn:E'; [|by vm_compute in E'].
  exists exA, w1, [a; b], [b; a], m, m', [97]%N, (VocabValue [97]%N [0] 1 1 3 None 1), (VocabValue [97]%N [0] 1 1 3 None 2).
  vm_compute in E, E'. injection E as <-. injection E' as <-.
  split; [apply Permutation_swap|]. split; [done|]. split; [done|].
  split; [exists 3; by vm_compute|]. split; [exists 3; by vm_compute|]. by vm_compute.
Qed.
Print Assumptions C33_searchable_order_refuted.

Example C33_ex :
  let a := ([97]%N, Some 3%N, par FSum 5 0) in let b := ([98]%N, Some 9%N, par FSum 1 0) in
  let c := ([97]%N, Some 5%N, par FSum 1 1) in
  match run_adds (new_with_alphabet exA w1) [a; b; c], run_adds (new_with_alphabet exA w1) [c; b; a] with
  | Ok m, Ok m' => m_decoder m !! 3 = Some (VocabValue [97]%N [0] 8 1 3 None 1) /\ m_decoder m' !! 3 = m_decoder m !! 3
  | _, _ => False
  end.
Proof. by vm_compute. Qed.

(** ** C34 *)
Theorem C34_index_content o o' m m' :
  alphabet_ok (m_alphabet m) -> some_order o -> some_order o' -> build o o' m = Ok m' -> index_right m m'.
Proof. exact (build_right o o' m m'). Qed.
Print Assumptions C34_index_content.

Theorem C34_build_succeeds o o' m :
  alphabet_ok (m_alphabet m) -> some_order o' -> words_counted m -> m_ngrams m = ∅ -> m_freq_sum m = [0%N] ->
  (sum_frequency (m_decoder m) < 4294967296)%N -> exists m', build o o' m = Ok m'.
Proof. exact (build_succeeds o o' m). Qed.
Print Assumptions C34_build_succeeds.

(** looking up a text finds it iff it is a searchable entry; anagrams likewise *)
Theorem C34_lookup o o' m m' t :
  lookups_inverse m -> alphabet_ok (m_alphabet m) -> some_order o -> some_order o' -> build o o' m = Ok m' ->
  (exists b, has m' t = Ok b /\ (b = true <-> exists id v, indexed m id v /\ vv_text v = t)) /\
  (exists r, get m' t = Ok r /\ forall v, r = Some v <-> exists id, indexed m id v /\ vv_text v = t) /\
  (exists vs, get_anagram_instances m' t = Ok vs /\
    forall v, v ∈ vs <-> exists id, indexed m id v /\ anahash (m_alphabet m) (vv_text v) = anahash (m_alphabet m) t).
Proof. exact (lookup_built o o' m m' t). Qed.
Print Assumptions C34_lookup.

Example C34_ex :
  match exM with
  | Ok m => m_index m !! 6%N = Some (Node [3] 2) /\ m_index m !! 3%N = Some (Node [4] 1) /\
            m_sortedindex m !! 2%N = Some [6%N] /\ has m [98; 97]%N = Ok false /\ has m [97; 98]%N = Ok true /\
            rmap length (get_anagram_instances m [98; 65]%N) = Ok 1
  | Panic _ => False
  end.
Proof. by vm_compute. Qed.

(** ** C35 *)
Theorem C35_rebuilding_keeps_index o1 o1' o2 o2' m m1 m2 :
  alphabet_ok (m_alphabet m) -> some_order o1 -> some_order o1' -> some_order o2 -> some_order o2' ->
  build o1 o1' m = Ok m1 -> build o2 o2' m1 = Ok m2 ->
  m_index m2 = m_index m1 /\ m_sortedindex m2 = m_sortedindex m1 /\
  m_decoder m2 = m_decoder m1 /\ m_encoder m2 = m_encoder m1.
Proof. exact (build_again o1 o1' o2 o2' m m1 m2). Qed.
Print Assumptions C35_rebuilding_keeps_index.

Theorem C35_iteration_order_irrelevant o1 o1' o2 o2' m m1 m2 :
  alphabet_ok (m_alphabet m) -> some_order o1 -> some_order o1' -> some_order o2 -> some_order o2' ->
  build o1 o1' m = Ok m1 -> build o2 o2' m = Ok m2 -> m1 = m2.
Proof. exact (build_order o1 o1' o2 o2' m m1 m2). Qed.
Print Assumptions C35_iteration_order_irrelevant.

(** without language-model entries a second build changes nothing at all *)
Theorem C35_rebuilding_without_lm o1 o1' o2 o2' m m1 m2 :
  alphabet_ok (m_alphabet m) -> some_order o1 -> some_order o1' -> some_order o2 -> some_order o2' ->
  (forall id v, m_decoder m !! id = Some v -> flag (vv_type v) lm_bit = false) ->
  build o1 o1' m = Ok m1 -> build o2 o2' m1 = Ok m2 -> m2 = m1.
Proof. exact (build_again_no_lm o1 o1' o2 o2' m m1 m2). Qed.
Print Assumptions C35_rebuilding_without_lm.

(** with them, the counts are added a second time *)
Theorem C35_rebuilding_keeps_counts_refuted :
  exists m m1 m2 g, build id id m = Ok m1 /\ build id id m1 = Ok m2 /\ m_ngrams m1 !! g <> m_ngrams m2 !! g.
Proof.
  destruct (run_adds (new_with_alphabet exA w1) [([97]%N, Some 3%N, par FMax 2 0)]) as [m|] eqn:E; [|by vm_compute in E].
  destruct (build id id m) as [m1|] eqn:E1; [|vm_compute in E; injection E as <-; by vm_compute in E1].
  destruct (build id id m1) as [m2|] eqn:E2;
    [|vm_compute in E; injection E as <-; vm_compute in E1; injection E1 as <-; by vm_compute in E2].
  exists m, m1, m2, (NUni 3). split; [done|]. split; [done|].
  vm_compute in E; injection E as <-; vm_compute in E1; injection E1 as <-; vm_compute in E2; injection E2 as <-.
  by vm_compute.
Qed.
Print Assumptions C35_rebuilding_keeps_counts_refuted.

(** ** C36 *)
(** a reference keeps the first mention of each variant, a variant keeps every declaration *)
Theorem C36_links_stored m l :
  (forall id v, m_decoder m !! id = Some v -> vv_variants v = None) ->
  forall id v, m_decoder m !! id = Some v -> exists v', m_decoder (run_links m l) !! id = Some v' /\
    stored_variants v' = first_mentions [] (declared_variants id l) /\
    stored_references v' = declared_references id l /\
    v' = with_variants v (vv_variants v').
Proof. exact (links_run m l). Qed.
Print Assumptions C36_links_stored.

Theorem C36_links_mutual m l r y :
  (forall id v, m_decoder m !! id = Some v -> vv_variants v = None) ->
  forall vr vy, m_decoder (run_links m l) !! r = Some vr -> m_decoder (run_links m l) !! y = Some vy ->
  r < length (m_decoder m) -> y < length (m_decoder m) ->
  (y ∈ map fst (stored_variants vr) <-> r ∈ map fst (stored_references vy)).
Proof. exact (links_mutual m l r y). Qed.
Print Assumptions C36_links_mutual.

Theorem C36_variants_unique m l id v :
  (forall id v, m_decoder m !! id = Some v -> vv_variants v = None) -> id < length (m_decoder m) ->
  m_decoder (run_links m l) !! id = Some v -> NoDup (map fst (stored_variants v)).
Proof. exact (links_unique m l id v). Qed.
Print Assumptions C36_variants_unique.

(** declaring a link twice stores the backward link twice *)
Theorem C36_references_unique_refuted :
  exists m l id v, (forall id v, m_decoder m !! id = Some v -> vv_variants v = None) /\ id < length (m_decoder m) /\
    m_decoder (run_links m l) !! id = Some v /\ ~ NoDup (map fst (stored_references v)).
Proof.
  exists (new_with_alphabet exA w1), [(1, 2, f1); (1, 2, f1)], 2,
    (with_variants (special unk_text) (Some [VariantOf 1 f1; VariantOf 1 f1])).
  split; [|split; [cbn; lia|split; [by vm_compute|]]].
  - intros [|[|[|id]]] v; cbn; [intros [= <-]; done..|done].
  - cbn. rewrite NoDup_cons, elem_of_list_singleton. tauto.
Qed.
Print Assumptions C36_references_unique_refuted.

Example C36_ex :
  match run_adds (new_with_alphabet exA w1) [([97]%N, None, par FMax 1 0); ([98]%N, None, par FMax 1 0); ([99]%N, None, par FMax 1 0)] with
  | Ok m => let m := run_links m [(3, 4, f1); (3, 5, f1); (3, 3, f1); (5, 4, f0); (3, 4, f0)] in
            map (fun v => (map fst (stored_variants v), map fst (stored_references v))) (drop 3 (m_decoder m)) =
            [([4; 5], []); ([], [3; 5; 3]); ([4], [3])]
  | Panic _ => False
  end.
Proof. by vm_compute. Qed.

(** ** C54 *)
(** after one build: an n-gram counts the total frequency of the entries that
    read as it; the totals are per number of words *)
Theorem C54_ngram_counts A w l m m' o o' :
  run_adds (new_with_alphabet A w) l = Ok m -> Forall (fun a => count_spaces a.1.1 < 255) l ->
  some_order o' -> build o o' m = Ok m' ->
  (forall g vs, selects (counts_as m g) (m_decoder m) vs ->
     m_ngrams m' !! g = match vs with [] => None | _ => Some (sum_frequency vs) end) /\
  (forall n vs, selects (counts_for_order m (S n)) (m_decoder m) vs ->
     default 0%N (m_freq_sum m' !! n) = sum_frequency vs).
Proof. exact (counts_after_build A w l m m' o o'). Qed.
Print Assumptions C54_ngram_counts.

(** in general a build adds to the counts *)
Theorem C54_build_adds_counts o o' m m' :
  some_order o' -> words_counted m -> 1 <= length (m_freq_sum m) -> build o o' m = Ok m' ->
  (forall g vs, selects (counts_as m g) (m_decoder m) vs ->
     m_ngrams m' !! g = match vs with [] => m_ngrams m !! g
                        | _ => Some (default 0 (m_ngrams m !! g) + sum_frequency vs)%N end) /\
  (forall n vs, selects (counts_for_order m (S n)) (m_decoder m) vs ->
     default 0%N (m_freq_sum m' !! n) = (default 0 (m_freq_sum m !! n) + sum_frequency vs)%N) /\
  m_have_lm m' = negb (bool_decide (m_ngrams m' = ∅)).
Proof. exact (build_counts o o' m m'). Qed.
Print Assumptions C54_build_adds_counts.

(** "a b" and "a x" with unknown "x"; "a x" and "a y" count as the same bigram *)
Example C54_ex :
  match run_adds (new_with_alphabet exA w1)
          [([97; 32; 98]%N, Some 3%N, par FSum 2 0); ([97; 32; 120]%N, Some 4%N, par FSum 2 0);
           ([97; 32; 121]%N, Some 5%N, par FSum 2 0); ([97]%N, Some 2%N, par FSum 3 0); ([98]%N, Some 2%N, par FSum 1 0)] with
  | Ok m => match build id id m with
            | Ok m' => m_ngrams m' !! NBi 6 7 = Some 3%N /\ m_ngrams m' !! NBi 6 UNK = Some 9%N /\
                       m_ngrams m' !! NUni 6 = Some 2%N /\ m_ngrams m' !! NUni 7 = None /\ m_freq_sum m' = [2; 12]%N
            | Panic _ => False
            end
  | Panic _ => False
  end.
Proof. by vm_compute. Qed.
