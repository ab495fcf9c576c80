(** Specification of a whole lookup, stage by stage: which results a query
    has, with which scores and in which order. *)
From Coq Require Import Sorted.
From Verif Require Import M_Base M_Anahash M_Iter M_Distance M_Float M_Types M_Model M_Confusable M_Search.
From Verif Require Import S_Anahash S_Iter S_Distance S_Model S_Search S_Confusable.
From stdpp Require Import options.

(** A searchable entry that was found: its anagram value, its number, its value
    and its distances from the query. *)
Record sighting := Sighting { si_hash : N; si_id : vocab_id; si_value : vocab_value; si_distance : distance }.
(** by anagram value, then by number *)
Definition sighted_before (a b : sighting) : Prop :=
  (si_hash a < si_hash b)%N \/ (si_hash a = si_hash b /\ si_id a < si_id b).
(** [cs] are all candidates, in that order *)
Definition sighted (lc : N -> bool) (m : model) (q : str) (ks : list nat) (p : search_parameters) (cs : list sighting) : Prop :=
  StronglySorted sighted_before cs /\
  forall c, c ∈ cs <-> candidate lc m q ks p (si_id c) (si_value c) (si_distance c) /\
    exists ks', reads (m_alphabet m) (vv_text (si_value c)) ks' /\ bag_hash ks' = Ok (si_hash c).

(** The result of a candidate *)
Definition first_score (m : model) (ks : list nat) (c : sighting) : f64 :=
  distance_score (m_weights m) (length ks) (si_distance c).
Definition first_result (m : model) (ks : list nat) (c : sighting) : variant_result :=
  VariantResult (si_id c) (first_score m ks c) (f64_of_N (counted_freq m (si_value c))) None.
(** those with sufficient score *)
Definition first_results (m : model) (ks : list nat) (p : search_parameters) (cs : list sighting) (l : list variant_result) : Prop :=
  exists cs', selects (fun c => fle (p_score_threshold p) (first_score m ks c) = true) cs cs' /\ l = map (first_result m ks) cs'.

(** [when P R l l']: [R l l'] if [P], no change otherwise *)
Definition when {A} (P : Prop) (R : A -> A -> Prop) (l l' : A) : Prop := (P /\ R l l') \/ (~ P /\ l' = l).

(** The score is multiplied by the weights of the confusables found. *)
Definition reweighed (ses : str -> str -> list edit_instruction) (m : model) (q : str) (r r' : variant_result) : Prop :=
  exists v cs w, m_decoder m !! vr_id r = Some v /\
    selects (fun c => found_in c (ses q (vv_text v)) = true) (m_confusables m) cs /\
    product_of (map cf_weight cs) w /\
    r' = VariantResult (vr_id r) (fmul (vr_dist r) w) (vr_freq r) (vr_via r).

(** some candidate (even one with insufficient score) is linked to others *)
Definition linked_sighting (cs : list sighting) : Prop := exists c, c ∈ cs /\ vv_variants (si_value c) <> None.

(** [t] is the greatest of [fs] (zero if there is none above) *)
Definition greatest (fs : list f64) (t : f64) : Prop := t ∈ f0 :: fs /\ Forall (fun x => fle x t = true) fs.
(** frequencies are divided by the greatest, over all candidates and, with links, over the expanded results *)
Definition shared (m : model) (cs : list sighting) (l l' : list variant_result) : Prop :=
  exists t fs, greatest (map (fun c => f64_of_N (counted_freq m (si_value c))) cs ++ fs) t /\
    when (linked_sighting cs) (fun _ fs => fs = map vr_freq l) [] fs /\
    when (flt f0 t = true) (fun l l' => l' = map (fun r => VariantResult (vr_id r) (vr_dist r) (fdiv (vr_freq r) t) (vr_via r)) l) l l'.

Definition ranks (fw : f32) (l l' : list variant_result) : Prop := l' ≡ₚ l /\ ranked fw l' /\ keeps_ties fw l l'.

(** Of neighbouring results for the same entry only the first is kept. *)
Inductive merges : list variant_result -> list variant_result -> Prop :=
| merges_nil : merges [] []
| merges_one r : merges [r] [r]
| merges_same r r' l l' : vr_id r = vr_id r' -> merges (r :: l) l' -> merges (r :: r' :: l) l'
| merges_other r r' l l' : vr_id r <> vr_id r' -> merges (r' :: l) l' -> merges (r :: r' :: l) (r :: l').

(** [n] is the first position of [l] where [P] holds (the length, if nowhere) *)
Definition first_at {A} (P : nat -> A -> Prop) (l : list A) (n : nat) : Prop :=
  n <= length l /\ (forall i r, i < n -> l !! i = Some r -> ~ P i r) /\ (forall r, l !! n = Some r -> P n r).

(** No more than [max] results are listed.  If the scores on both sides of the
    border are the same, the list is cut after the second result with that
    similarity, or else after the first below it. *)
Definition crops (max : nat) (fw : f32) (l l' : list variant_result) : Prop :=
  ((max = 0 \/ length l <= max) /\ l' = l) \/
  exists last next, 0 < max /\ l !! (max - 1) = Some last /\ l !! max = Some next /\
    ((flt (final_score fw next) (final_score fw last) = true /\ l' = take max l) \/
     (flt (final_score fw next) (final_score fw last) = false /\
      exists below same,
        first_at (fun _ r => flt (vr_dist r) (final_score fw next) = true) l below /\
        first_at (fun i r => 0 < i /\ feq (vr_dist r) (final_score fw next) = true) (take below l) same /\
        ((same < below /\ l' = take (S same) l) \/
         (same = below /\ 0 < below < length l /\ l' = take (S below) l) \/
         (same = below /\ (below = 0 \/ below = length l) /\ l' = l)))).

(** The list ends before the first score that is too far below the best. *)
Definition cuts (cut : f64) (fw : f32) (l l' : list variant_result) : Prop :=
  exists n, first_at (fun i r => 0 < i /\ exists best, l !! 0 = Some best /\
      fle (final_score fw r) (fdiv (final_score fw best) cut) = true) l n /\ l' = take n l.

(** The whole *)
Inductive looked_up (lc : N -> bool) (ses : str -> str -> list edit_instruction) (m : model) (q : str) (ks : list nat)
    (p : search_parameters) (l : list variant_result) : Prop :=
| looked_up_intro cs l1 l2 l3 l4 l5 l6 l7 l8 l9 :
    sighted lc m q ks p cs ->
    first_results m ks p cs l1 ->
    when (m_confusables m <> [] /\ m_confusables_before_pruning m = true) (Forall2 (reweighed ses m q)) l1 l2 ->
    when (linked_sighting cs) (expands m) l2 l3 ->
    shared m cs l3 l4 ->
    ranks (p_freq_weight p) l4 l5 ->
    when (linked_sighting cs) merges l5 l6 ->
    crops (p_max_matches p) (p_freq_weight p) l6 l7 ->
    when (m_confusables m <> [] /\ m_confusables_before_pruning m = false) (Forall2 (reweighed ses m q)) l7 l8 ->
    when (m_confusables m <> [] /\ m_confusables_before_pruning m = false) (ranks (p_freq_weight p)) l8 l9 ->
    when (fle f1 (p_cutoff_threshold p) = true) (cuts (p_cutoff_threshold p) (p_freq_weight p)) l9 l ->
    looked_up lc ses m q ks p l.
