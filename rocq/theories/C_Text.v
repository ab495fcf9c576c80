(** Boundaries, candidates and offsets in running text: C42, C43, C44, C46. *)
From Coq Require Import Lia.
From Verif Require Import M_Base M_Utf8 M_Float M_Types M_Text S_Text P_Utf8 P_Text.
From stdpp Require Import options.

(** an [is_alphabetic] for the examples: ASCII letters, and é *)
Definition exA (c : N) : bool := ((97 <=? c) && (c <=? 122) || (65 <=? c) && (c <=? 90) || (c =? 233))%N.
(** "é b-c, d" *)
Definition exT : str := [233; 32; 98; 45; 99; 44; 32; 100]%N.
Definition exP : pieces := [([233], [32]); ([98], [45]); ([99], [44; 32]); ([100], [])]%N.

(** * C42: boundaries *)
(** Boundary detection never panics; its result is the division of the text into
    longest runs. *)
Theorem C42_boundaries : forall alpha t,
  exists bs ps, find_boundaries alpha t = Ok bs /\ segmentation alpha t ps /\
    length bs = length ps /\ forall i m, bs !! i = Some m <-> is_boundary ps i m.
Proof.
  exact (fun alpha t => match find_boundaries_cut alpha t with
    | ex_intro _ ps (conj H E) =>
        ex_intro _ (boundaries_at 0 ps) (ex_intro _ ps (conj E (conj H (conj (boundaries_at_length 0 ps)
          (fun i m => boundaries_at_lookup ps 0 i m))))) end).
Qed.
Print Assumptions C42_boundaries.
(** There is only one such division. *)
Theorem C42_division_unique : forall alpha t ps qs, segmentation alpha t ps -> segmentation alpha t qs -> ps = qs.
Proof. exact segmentation_unique. Qed.
Print Assumptions C42_division_unique.
(** The boundaries are in order, apart from each other, and each has as text the
    part of the text at its byte offsets; all but the last are non-empty, and the
    last reaches the end of the text. *)
Theorem C42_in_order : forall alpha t bs, find_boundaries alpha t = Ok bs ->
  (forall i m, bs !! i = Some m -> at_bytes t (tm_begin m) (tm_end m) (tm_text m) /\
     Forall (fun c => alpha c = false) (tm_text m) /\ (S i < length bs -> tm_text m <> []) /\
     (S i = length bs -> tm_end m = byte_len t)) /\
  (forall i j m m', i < j -> bs !! i = Some m -> bs !! j = Some m' -> tm_end m < tm_begin m').
Proof. exact boundaries_in_order. Qed.
Print Assumptions C42_in_order.
(** The characters just before and just after a boundary are alphabetic: a
    boundary is a longest run. *)
Theorem C42_maximal : forall alpha t bs i m, find_boundaries alpha t = Ok bs -> bs !! i = Some m ->
  exists pre post, t = pre ++ tm_text m ++ post /\ tm_begin m = byte_len pre /\
    (forall c, last pre = Some c -> alpha c = true) /\ (forall c, head post = Some c -> alpha c = true).
Proof. exact boundaries_maximal. Qed.
Print Assumptions C42_maximal.
Example C42_example : segmentation exA exT exP /\
  find_boundaries exA exT = Ok [new_empty [32%N] 2 3; new_empty [45%N] 4 5; new_empty [44%N; 32%N] 6 8; new_empty [] 9 9].
Proof.
  split; [|vm_compute; reflexivity]. apply segmentation_cut. split; [reflexivity|]. split; [discriminate|].
  cbn. repeat match goal with |- _ /\ _ => split end; try done; repeat constructor.
Qed.

(** * C43: strength *)
(** As stated, the strength would depend on the number of characters; the code
    counts bytes: a single no-break space (U+00A0) is hard. *)
Theorem C43_single_character_not_hard_refuted :
  ~ (forall bs i b c, bs !! i = Some b -> S i < length bs -> tm_text b = [c] -> classify_boundaries bs !! i <> Some Hard).
Proof.
  intros H. apply (H [new_empty [160%N] 1 3; new_empty [] 4 4] 0 (new_empty [160%N] 1 3) 160%N); [done|cbn; lia|done|].
  vm_compute. reflexivity.
Qed.
Print Assumptions C43_single_character_not_hard_refuted.
(** For boundaries of the text itself: "a\u{a0}b" is cut for good at the no-break space. *)
Theorem C43_no_break_space_refuted :
  ~ (forall alpha t bs i b c, find_boundaries alpha t = Ok bs -> bs !! i = Some b -> S i < length bs -> tm_text b = [c] ->
     classify_boundaries bs !! i = Some (if bool_decide (c ∈ [39; 45; 95]%N) then Weak else Normal)).
Proof.
  intros H. specialize (H exA [97; 160; 98]%N _ 0 (new_empty [160%N] 1 3) 160%N eq_refl eq_refl).
  assert (Some Hard = Some Normal) as [=]. apply H; [cbn; lia|reflexivity].
Qed.
Print Assumptions C43_no_break_space_refuted.
(** What holds, for every list of boundaries. *)
Theorem C43_strength : forall bs,
  length (classify_boundaries bs) = length bs /\
  forall i b, bs !! i = Some b ->
    (S i = length bs -> classify_boundaries bs !! i = Some Hard) /\
    (S i < length bs -> forall c, tm_text b = [c] -> (c < 128)%N ->
       classify_boundaries bs !! i = Some (if bool_decide (c ∈ [39; 45; 95]%N) then Weak else Normal)) /\
    (S i < length bs -> forall c, tm_text b = [c] -> (128 <= c)%N -> classify_boundaries bs !! i = Some Hard) /\
    (S i < length bs -> 2 <= length (tm_text b) -> classify_boundaries bs !! i = Some Hard).
Proof. exact classify_strength. Qed.
Print Assumptions C43_strength.
Example C43_example : classify_boundaries [new_empty [32%N] 2 3; new_empty [45%N] 4 5; new_empty [44%N; 32%N] 6 8; new_empty [] 9 9]
  = [Normal; Weak; Hard; Hard].
Proof. vm_compute. reflexivity. Qed.

(** * C44: n-gram candidates *)
(** The candidates of order [n] in the part of a text from word [a] to word
    [a + k - 1]: every stretch of [n] words, in order, but for the empty first
    word of a text that starts with a separator. *)
Theorem C44_candidates : forall alpha t ps bs a k last n,
  alpha 32%N = false -> segmentation alpha t ps -> find_boundaries alpha t = Ok bs ->
  0 < k -> a + k <= length ps -> bs !! (a + k - 1) = Some last ->
  find_match_ngrams t (take k (drop a bs)) (S n) (byte_len (joined (take a ps))) (Some (tm_begin last))
  = Ok (map (candidate (byte_len (joined (take a ps))) (take k (drop a ps)) (S n))
         (List.filter (fun i => negb (bool_decide (stretch (drop i (take k (drop a ps))) (S n) = []))) (seq 0 (k - n)))).
Proof. exact candidates_part. Qed.
Print Assumptions C44_candidates.
(** the text of a candidate is the part of the text at its offsets *)
Theorem C44_candidate_text : forall pre ps post n i, i + n < length ps ->
  at_bytes (pre ++ joined ps ++ post) (tm_begin (candidate (byte_len pre) ps (S n) i))
    (tm_end (candidate (byte_len pre) ps (S n) i)) (tm_text (candidate (byte_len pre) ps (S n) i)).
Proof. exact candidate_at_bytes. Qed.
Print Assumptions C44_candidate_text.
(** For a whole text that starts with a word: exactly all stretches. *)
Theorem C44_whole_text : forall alpha t ps n bs last,
  alpha 32%N = false -> segmentation alpha t ps -> (forall c, head t = Some c -> alpha c = true) -> t <> [] ->
  find_boundaries alpha t = Ok bs -> bs !! (length bs - 1) = Some last ->
  find_match_ngrams t bs (S n) 0 (Some (tm_begin last)) = Ok (map (candidate 0 ps (S n)) (seq 0 (length ps - n))).
Proof. exact candidates_whole. Qed.
Print Assumptions C44_whole_text.
(** As stated it fails for texts that start with a separator: " a" has one word
    and a candidate of order 2. *)
Theorem C44_leading_separator_refuted :
  ~ (forall alpha t ps n bs last ms, alpha 32%N = false -> segmentation alpha t ps ->
      find_boundaries alpha t = Ok bs -> bs !! (length bs - 1) = Some last ->
      find_match_ngrams t bs (S n) 0 (Some (tm_begin last)) = Ok ms ->
      length ms <= length (List.filter (fun p => negb (bool_decide (p.1 = []))) ps) - n).
Proof.
  intros H. specialize (H exA [32; 97]%N [([], [32]); ([97], [])]%N 1 [new_empty [32%N] 0 1; new_empty [] 2 2]
    (new_empty [] 2 2) [set_n (new_empty [32; 97]%N 0 2) 2] eq_refl).
  assert (1 <= 0); [|lia]. apply H; [|reflexivity|reflexivity|vm_compute; reflexivity].
  apply segmentation_cut. split; [reflexivity|]. split; [discriminate|]. cbn. repeat match goal with |- _ /\ _ => split end; try done; repeat constructor.
Qed.
Print Assumptions C44_leading_separator_refuted.
Example C44_example :
  find_match_ngrams exT [new_empty [32%N] 2 3; new_empty [45%N] 4 5; new_empty [44%N; 32%N] 6 8; new_empty [] 9 9] 2 0 (Some 9)
  = Ok [set_n (new_empty [233; 32; 98]%N 0 4) 2; set_n (new_empty [98; 45; 99]%N 3 6) 2; set_n (new_empty [99; 44; 32; 100]%N 5 9) 2].
Proof. vm_compute. reflexivity. Qed.

(** * C46: code point offsets *)
Theorem C46_code_points : forall t ms, (forall m, m ∈ ms -> at_bytes t (tm_begin m) (tm_end m) (tm_text m)) ->
  exists ms', remap_offsets t ms = Ok ms' /\
    Forall2 (fun m m' => at_chars t (tm_begin m') (tm_end m') (tm_text m) /\
                         m' = set_offset m (tm_begin m') (tm_end m')) ms ms'.
Proof. exact remap_matches. Qed.
Print Assumptions C46_code_points.
(** Offsets inside a character make it panic. *)
Theorem C46_only_on_character_boundaries : forall t ms ms', remap_offsets t ms = Ok ms' -> forall m, m ∈ ms ->
  exists p1 q1 p2 q2, t = p1 ++ q1 /\ tm_begin m = byte_len p1 /\ t = p2 ++ q2 /\ tm_end m = byte_len p2.
Proof. exact remap_ok_inv. Qed.
Print Assumptions C46_only_on_character_boundaries.
Example C46_example : at_bytes exT 3 4 [98%N] /\
  remap_offsets exT [new_empty [98%N] 3 4; new_empty [233%N] 0 2] = Ok [new_empty [98%N] 2 3; new_empty [233%N] 0 1].
Proof.
  split; [|vm_compute; reflexivity]. exists [233; 32]%N, [45; 99; 44; 32; 100]%N. split; [done|]. by vm_compute.
Qed.
(** positions in bytes and in [char]s agree with the bytes of the encoding *)
Theorem C46_bytes : forall t b e s, at_bytes t b e s -> take (e - b) (drop b (bytes t)) = bytes s.
Proof. exact at_bytes_bytes. Qed.
Print Assumptions C46_bytes.
