(** Specification of candidate retrieval and of looking up variants. *)
From Verif Require Import M_Base M_Anahash M_Iter M_Distance M_Float M_Types M_Model M_Confusable M_Search.
From Verif Require Import S_Anahash S_Iter S_Distance S_Model.
From stdpp Require Import options.

(** The bags differ by at most [n] insertions and deletions. *)
Definition bag_within (ks ks' : list nat) (n : nat) : Prop := exists d, bag_diff ks ks' d /\ d <= n.
(** Some character occurs in both. *)
Definition shares (ks ks' : list nat) : Prop := exists k, k ∈ ks /\ k ∈ ks'.
(** [ks'] is contained in [ks] (as a bag). *)
Definition part_of (ks' ks : list nat) : Prop := exists gone, ks ≡ₚ ks' ++ gone.

(** [entry_reading m id v ks]: [v] is a searchable entry of [m], read as [ks]. *)
Definition entry_reading (m : model) (id : vocab_id) (v : vocab_value) (ks : list nat) : Prop :=
  indexed m id v /\ reads (m_alphabet m) (vv_text v) ks.

(** No searchable entry has 65536 characters or more. *)
Definition short_entries (m : model) : Prop :=
  forall id v ks, entry_reading m id v ks -> (N.of_nat (length ks) < 65536)%N.

(** [in_reach ks max ks']: what the retrieval from the query bag [ks] covers:
    the bags at distance at most [max] with a character in common (or all, for
    the empty query); of bags with 256 characters or more only those contained
    in the query. *)
Definition in_reach (ks : list nat) (max : nat) (ks' : list nat) : Prop :=
  bag_within ks ks' max /\ (ks = [] \/ shares ks ks') /\ (length ks' < 256 \/ part_of ks' ks).

(** ** Numbers *)
(** A double: one of the bit patterns of binary64 ([spec_float] has more). *)
Definition double (x : f64) : Prop := valid_binary 53 1024 x = true.
Definition single (x : f32) : Prop := valid_binary 24 128 x = true.
Definition finf : f64 := S754_infinity false.
(** Non-negative weights with a positive finite sum. *)
Definition weights_ok (w : weights) : Prop :=
  Forall (fun x => double x /\ fle f0 x = true) [w_ld w; w_lcs w; w_prefix w; w_suffix w; w_case w] /\
  flt f0 (weights_sum w) = true /\ flt (weights_sum w) finf = true.
(** A number from 0 to 1. *)
Definition unit_score (x : f64) : Prop := double x /\ fle f0 x = true /\ fle x f1 = true.
(** The distances the library computes for an input of length [len]. *)
Definition measured (len : nat) (d : distance) : Prop :=
  (d_lcs d <= N.of_nat len)%N /\ (d_prefixlen d <= N.of_nat len)%N /\ (d_suffixlen d <= N.of_nat len)%N.

(** ** Distances *)
(** [longest P n]: the longest list with property [P] has length [n]. *)
Definition longest (P : list nat -> Prop) (n : N) : Prop :=
  exists w, P w /\ n = N.of_nat (length w) /\ forall w', P w' -> length w' <= length w.

(** The distance components between an input (read as [ks]) and an entry's
    text (read as [ks']); components without weight are left at their neutral
    value. *)
Record distance_between (is_lowercase : N -> bool) (w : weights) (input : str) (ks : list nat)
    (text : str) (ks' : list nat) (d : distance) : Prop := {
  db_edits : min_edits true ks ks' (d_ld d);
  db_lcs : if fgt (w_lcs w) f0 then longest (fun x => substring x ks /\ substring x ks') (d_lcs d) else d_lcs d = 0%N;
  db_prefix : if fgt (w_prefix w) f0 then longest (fun x => x `prefix_of` ks /\ x `prefix_of` ks') (d_prefixlen d)
    else d_prefixlen d = 0%N;
  db_suffix : if fgt (w_suffix w) f0 then longest (fun x => x `suffix_of` ks /\ x `suffix_of` ks') (d_suffixlen d)
    else d_suffixlen d = 0%N;
  db_case : if fgt (w_case w) f0
    then exists c c', head text = Some c /\ head input = Some c' /\
      (d_samecase d = true <-> is_lowercase c = is_lowercase c')
    else d_samecase d = true;
}.

(** What the retrieval covers, with either stop criterion. *)
Definition same_bag_entry (m : model) (ks : list nat) : Prop :=
  exists id v ks', entry_reading m id v ks' /\ ks' ≡ₚ ks.
Definition reached (m : model) (ks : list nat) (max : nat) (stop : stop_criterion) (ks' : list nat) : Prop :=
  match stop with
  | Exhaustive => in_reach ks max ks'
  | StopAtExactMatch => (same_bag_entry m ks /\ ks' ≡ₚ ks) \/ (~ same_bag_entry m ks /\ in_reach ks max ks')
  end.

(** ** Well-formed vocabularies *)
(** the recorded normal forms of searchable entries are right *)
Definition normalised (m : model) : Prop :=
  forall id v, indexed m id v -> normalize_to_alphabet (m_alphabet m) (vv_text v) = Ok (vv_norm v).
(** links lead to entries *)
Definition links_inside (m : model) : Prop :=
  forall id v r s, m_decoder m !! id = Some v -> (r, s) ∈ stored_references v -> r < length (m_decoder m).
(** frequencies are 32-bit numbers *)
Definition freq_u32 (m : model) : Prop :=
  forall id v, m_decoder m !! id = Some v -> (vv_frequency v < 4294967296)%N.

(** ** Ranking *)
(** the combination of the two scores *)
Definition combined_score (freq_weight : f32) (r : variant_result) : f64 :=
  fdiv (fadd (vr_dist r) (fmul (to_f64 freq_weight) (vr_freq r))) (fadd f1 (to_f64 freq_weight)).
(** [ranks_before fw a b]: [a] may be listed before [b]. *)
Definition ranks_before (fw : f32) (a b : variant_result) : Prop :=
  if fgt fw f0 then fle (combined_score fw b) (combined_score fw a) = true
  else flt (vr_dist b) (vr_dist a) = true \/ (feq (vr_dist a) (vr_dist b) = true /\ fle (vr_freq b) (vr_freq a) = true).
Definition ranked (fw : f32) (l : list variant_result) : Prop :=
  forall i j a b, i < j -> l !! i = Some a -> l !! j = Some b -> ranks_before fw a b.
(** [x] and [y] tie *)
Definition tied (fw : f32) (a b : variant_result) : Prop := ranks_before fw a b /\ ranks_before fw b a.
(** equal elements keep their order *)
Definition keeps_ties (fw : f32) (l l' : list variant_result) : Prop :=
  forall x sl sl', x ∈ l -> selects (tied fw x) l sl -> selects (tied fw x) l' sl' -> sl = sl'.
(** a frequency weight: finite, possibly zero *)
Definition weight_single (x : f32) : Prop := single x /\ fle f0 x = true /\ flt x finf = true.
(** scores that can be combined without overflow *)
Definition modest (x : f64) : Prop := double x /\ fle f0 x = true /\ fle x (f64_of_N (2 ^ 1000)) = true.
Definition result_ok (r : variant_result) : Prop := modest (vr_dist r) /\ unit_score (vr_freq r).

(** ** Looking up a string *)
(** [m'] is [m] with its index built; the alphabet and the weights are usable. *)
Record built (m m' : model) : Prop := {
  bt_alphabet : alphabet_ok (m_alphabet m);
  bt_size : length (m_alphabet m) <= 166;
  bt_build : exists o o', some_order o /\ some_order o' /\ build o o' m = Ok m';
  bt_short : short_entries m;
  bt_norm : normalised m;
  bt_weights : weights_ok (m_weights m);
}.
(** [q] is a non-empty text, read as [ks] *)
Record query (m : model) (q : str) (ks : list nat) : Prop := {
  qu_reads : reads (m_alphabet m) q ks;
  qu_some : ks <> [];
  qu_short : (N.of_nat (length ks) < 65281)%N;
}.
(** the numbers are such that no score overflows *)
Record tame (m : model) (p : search_parameters) : Prop := {
  tm_weight : weight_single (p_freq_weight p);
  tm_conf_number : length (m_confusables m) <= 500;
  tm_conf : Forall (fun c => double (cf_weight c) /\ fle f0 (cf_weight c) = true /\ fle (cf_weight c) f2 = true) (m_confusables m);
  tm_inside : links_inside m;
  tm_links : forall id v r s, m_decoder m !! id = Some v -> (r, s) ∈ stored_references v -> unit_score s;
  tm_freq : freq_u32 m;
}.
(** [l] is the outcome of looking up [q] *)
Definition finds (lc : N -> bool) (ses : str -> str -> list edit_instruction) (m : model) (q : str)
    (p : search_parameters) (l : list variant_result) : Prop :=
  exists F, forall f order, F <= f -> some_order order -> find_variants lc ses f order m q p = Ok l.

(** [candidate m q ks p id v d]: the searchable entry [id] (value [v]) is
    reached from the query and is at edit distance within the limit; [d] are its
    distances. *)
Definition candidate (lc : N -> bool) (m : model) (q : str) (ks : list nat) (p : search_parameters)
    (id : vocab_id) (v : vocab_value) (d : distance) : Prop :=
  exists ks', entry_reading m id v ks' /\
    reached m ks (effective_limit (p_max_anagram_distance p) (length ks)) (p_stop_criterion p) ks' /\
    distance_between lc (m_weights m) q ks (vv_text v) ks' d /\
    d_ld d <= effective_limit (p_max_edit_distance p) (length ks).

(** [p] with another cap on the number of matches and another cutoff *)
Definition with_caps (p : search_parameters) (max_matches : nat) (cutoff : f64) : search_parameters :=
  {| p_max_anagram_distance := p_max_anagram_distance p; p_max_edit_distance := p_max_edit_distance p;
     p_max_matches := max_matches; p_score_threshold := p_score_threshold p; p_cutoff_threshold := cutoff;
     p_stop_criterion := p_stop_criterion p; p_max_ngram := p_max_ngram p; p_max_seq := p_max_seq p;
     p_variantmodel_weight := p_variantmodel_weight p; p_lm_weight := p_lm_weight p;
     p_contextrules_weight := p_contextrules_weight p; p_freq_weight := p_freq_weight p;
     p_unicodeoffsets := p_unicodeoffsets p |}.
(** no variant lists were loaded *)
Definition no_links (m : model) : Prop := forall id v, m_decoder m !! id = Some v -> vv_variants v = None.
(** the combined score of a result *)
Definition final_score (fw : f32) (r : variant_result) : f64 :=
  if fgt fw f0 then combined_score fw r else vr_dist r.
(** the absolute frequency that counts for an entry *)
Definition counted_freq (m : model) (v : vocab_value) : N := if m_have_freq m then vv_frequency v else 1%N.

(** ** Expanding results by variant links *)
(** [via_link m r ts r']: [r'] is the result for the reference [ts.1] of the entry
    of [r], linked with score [ts.2]: the scores multiply, the frequency is the
    smaller one, and it points back to the entry it came from. *)
Definition via_link (m : model) (r : variant_result) (ts : vocab_id * f64) (r' : variant_result) : Prop :=
  exists v, m_decoder m !! ts.1 = Some v /\
    vr_id r' = ts.1 /\ vr_via r' = Some (vr_id r) /\ vr_dist r' = fmul (vr_dist r) ts.2 /\
    vr_freq r' = (if flt (f64_of_N (vv_frequency v)) (vr_freq r) then f64_of_N (vv_frequency v) else vr_freq r).
(** [expands m l l']: in [l'] every result of [l] is preceded by those for its
    references, and transparent entries are left out. *)
Inductive expands (m : model) : list variant_result -> list variant_result -> Prop :=
| expands_nil : expands m [] []
| expands_cons r v l rs l' : m_decoder m !! vr_id r = Some v ->
    Forall2 (via_link m r) (stored_references v) rs -> expands m l l' ->
    expands m (r :: l) (rs ++ (if flag (vv_type v) transparent_bit then [] else [r]) ++ l').
