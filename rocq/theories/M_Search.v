(** Model of looking up the variants of one string (src/lib.rs:305-1757): the
    retrieval of candidates, their distances, scoring, ranking, cropping and
    the expansion of variants. *)
From stdpp Require Import sorting.
From Verif Require Import M_Base M_Anahash M_Iter M_Distance M_Float M_Types M_Model M_Confusable.
From stdpp Require Import options.

(** [a + b] on [u16] *)
Definition u16_add (a b : N) : res N := if (a + b <? 65536)%N then Ok (a + b)%N else Panic Overflow.
(** [a - b] on [u16] *)
Definition u16_sub (a b : N) : res N := if (b <=? a)%N then Ok (a - b)%N else Panic Overflow.

(** [lookups.get_mut(&key)] ... [push] / [insert] (src/lib.rs:1190-1194, 1261-1265) *)
Definition push_lookup (lookups : gmap nat (list N)) (key : nat) (v : N) : gmap nat (list N) :=
  <[key := default [] (lookups !! key) ++ [v]]> lookups.

(** [search_charcount as u8] *)
Definition u16_as_u8 (n : N) : nat := as_u8 (N.to_nat n).

(** src/lib.rs:1188-1201, 1254-1266: schedule [v] for the character counts
    [charcount + 1 .. charcount + distance] *)
Definition schedule (lookups : gmap nat (list N)) (v : N) (charcount : N) (distance : nat) : res (gmap nat (list N)) :=
  rfoldl (fun lookups d =>
    let* c := u16_add charcount (N.of_nat d) in
    Ok (push_lookup lookups (u16_as_u8 c) v)) lookups (seq 1 distance).

(** src/lib.rs:1203-1209 *)
Definition nearest_params (max_distance : nat) : search_params :=
  {| sp_min_distance := None; sp_max_distance := Some max_distance; sp_breadthfirst := true;
     sp_allow_duplicates := false; sp_allow_empty_leaves := false |}.

(** src/lib.rs:1219-1267: one deletion *)
Definition nearest_deletion (m : model) (focus_charcount : N) (max_distance : nat)
    (st : gset N * gmap nat (list N)) (item : deletion * nat) : res (gset N * gmap nat (list N)) :=
  let '(nearest, lookups) := st in
  let '((value, _), distance) := item in
  let nearest := match m_index m !! value with Some _ => {[ value ]} ∪ nearest | None => nearest end in
  let* deletion_charcount := u16_sub focus_charcount (as_u16 (N.of_nat distance)) in
  let* more := u16_sub (N.of_nat max_distance) (as_u16 (N.of_nat distance)) in
  let* lookups := schedule lookups value deletion_charcount (N.to_nat more) in
  Ok (nearest, lookups).

(** src/lib.rs:1274-1287: one character count with its scheduled values *)
Definition nearest_lookup (m : model) (nearest : gset N) (e : nat * list N) : gset N :=
  match m_sortedindex m !! N.of_nat e.1 with
  | None => nearest
  | Some keys =>
      foldl (fun nearest candidate =>
        if existsb (ana_contains candidate) e.2 then {[ candidate ]} ∪ nearest else nearest) nearest keys
  end.

(** src/lib.rs:1143-1308 [find_nearest_anahashes].  [order]: the order in which
    the hash map of lookups is iterated.  [fuel]: for the deletion iterator. *)
Definition find_nearest (fuel : nat) (order : list (nat * list N) -> list (nat * list N)) (m : model)
    (focus : N) (max_distance : nat) (stop : stop_criterion) : res (gset N) :=
  let '(nearest, return_now) :=
    match m_index m !! focus with
    | None => (∅, false)
    | Some node =>
        ({[ focus ]},
         match stop with
         | StopAtExactMatch =>
             (* some instance exists in the decoder *)
             existsb (fun id => match m_decoder m !! id with Some _ => true | None => false end) (nd_instances node)
         | Exhaustive => false
         end)
    end in
  if return_now then Ok nearest
  else
    let* asz := alphabet_size (m_alphabet m) in
    let* bound := alphabet_upper_bound focus asz in
    let '(focus_upper_bound, focus_charcount) := bound in
    let* focus_alphabet_size := u8_succ focus_upper_bound in
    let* lookups := schedule ∅ focus focus_charcount max_distance in
    let* asz1 := u8_succ focus_alphabet_size in
    let* items := rd_collect fuel (iter_recursive focus asz1 (nearest_params max_distance)) in
    let* st := rfoldl (nearest_deletion m focus_charcount max_distance) (nearest, lookups) items in
    let '(nearest, lookups) := st in
    Ok (foldl (nearest_lookup m) nearest (order (map_to_list lookups))).

(** Iteration over a [BTreeSet]: in increasing order *)
Definition btree_list (s : gset N) : list N := merge_sort N.le (elements s).

Section search.
  (** Unicode's lowercase property ([char::is_lowercase]), an external table *)
  Context (is_lowercase : N -> bool).
  (** sesdiff's [shortest_edit_script(input, text, false, false, false)], an external function *)
  Context (shortest_edit_script : str -> str -> list edit_instruction).
  #[local] Set Default Proof Using "All".

  (** src/lib.rs:1347-1375: the distance components; the ones without weight are not computed *)
  Definition samecase_of (text query : str) : res bool :=
    let* c := rexpect (head text) in
    let* q := rexpect (head query) in
    Ok (Bool.eqb (is_lowercase c) (is_lowercase q)).

  Definition make_distance (w : weights) (querystring : list nat) (query : str) (item : vocab_value) (ld : nat) : res distance :=
    let* lcs := if fgt (w_lcs w) f0 then lcs_length querystring (vv_norm item) else Ok 0%N in
    let* prefixlen := if fgt (w_prefix w) f0 then common_prefix_length querystring (vv_norm item) else Ok 0%N in
    let* suffixlen := if fgt (w_suffix w) f0 then common_suffix_length querystring (vv_norm item) else Ok 0%N in
    let* samecase := if fgt (w_case w) f0 then samecase_of (vv_text item) query else Ok true in
    Ok {| d_ld := ld; d_lcs := lcs; d_prefixlen := prefixlen; d_suffixlen := suffixlen; d_samecase := samecase |}.

  (** src/lib.rs:1331-1388: one instance *)
  Definition gather_instance (m : model) (querystring : list nat) (query : str) (max_edit_distance : nat)
      (found : list (vocab_id * distance)) (id : vocab_id) : res (list (vocab_id * distance)) :=
    let* item := rexpect (m_decoder m !! id) in
    let* ld := damerau_levenshtein querystring (vv_norm item) max_edit_distance in
    match ld with
    | None => Ok found
    | Some ld =>
        let* d := make_distance (m_weights m) querystring query item ld in
        Ok (found ++ [(id, d)])
    end.

  (** src/lib.rs:1311-1402 [gather_instances] *)
  Definition gather_instances (m : model) (nearest : list N) (querystring : list nat) (query : str)
      (max_edit_distance : nat) : res (list (vocab_id * distance)) :=
    rfoldl (fun found anahash =>
      let* node := rexpect (m_index m !! anahash) in
      rfoldl (gather_instance m querystring query max_edit_distance) found (nd_instances node)) [] nearest.

  (** src/lib.rs:1434-1457: the distance score *)
  Definition distance_score (w : weights) (input_length : nat) (d : distance) : f64 :=
    let len := f64_of_nat input_length in
    let ds := if (input_length <? d_ld d)%nat then f0 else fsub f1 (fdiv (f64_of_nat (d_ld d)) len) in
    let lcs := fdiv (f64_of_N (d_lcs d)) len in
    let prefix := fdiv (f64_of_N (d_prefixlen d)) len in
    let suffix := fdiv (f64_of_N (d_suffixlen d)) len in
    fdiv
      (fadd (fadd (fadd (fadd (fmul (w_ld w) ds) (fmul (w_lcs w) lcs)) (fmul (w_prefix w) prefix))
         (fmul (w_suffix w) suffix))
         (if d_samecase d then w_case w else f0))
      (weights_sum w).

  (** src/lib.rs:1458-1463 (absolute frequency) *)
  Definition absolute_freq (m : model) (item : vocab_value) : f64 :=
    if m_have_freq m then f64_of_N (vv_frequency item) else f1.

  (** src/lib.rs:1432-1504: score one instance.  State: results, maximal
      frequency, whether some instance has variant links. *)
  Definition score_instance (m : model) (input_length : nat) (score_threshold : f64)
      (st : list variant_result * f64 * bool) (x : vocab_id * distance) : res (list variant_result * f64 * bool) :=
    let '(results, max_freq, expandable) := st in
    let '(id, d) := x in
    match m_decoder m !! id with
    | None => Ok st
    | Some item =>
        let score := distance_score (m_weights m) input_length d in
        let freq := absolute_freq m item in
        let max_freq := if fgt freq max_freq then freq else max_freq in
        let expandable := expandable || (if vv_variants item then true else false) in
        if fis_nan score then Panic NotANumber
        else
          Ok (if fge score score_threshold then results ++ [VariantResult id score freq None] else results,
              max_freq, expandable)
    end.

  (** src/lib.rs:1733-1757 [compute_confusable_weight] *)
  Definition confusable_weight (m : model) (input : str) (candidate : vocab_id) : f64 :=
    match m_decoder m !! candidate with
    | None => f1
    | Some item =>
        let script := shortest_edit_script input (vv_text item) in
        foldl (fun weight c => if found_in c script then fmul weight (cf_weight c) else weight) f1 (m_confusables m)
    end.

  (** src/lib.rs:1656-1663 [rescore_confusables] *)
  Definition rescore_confusables (m : model) (results : list variant_result) (input : str) : list variant_result :=
    map (fun r => VariantResult (vr_id r) (fmul (vr_dist r) (confusable_weight m input (vr_id r))) (vr_freq r) (vr_via r))
      results.

  (** src/types.rs:334-341 [VariantResult::score] *)
  Definition vr_score (freq_weight : f32) (r : variant_result) : f64 :=
    if feq freq_weight f0 then vr_dist r
    else fdiv (fadd (vr_dist r) (fmul (to_f64 freq_weight) (vr_freq r))) (fadd f1 (to_f64 freq_weight)).

  (** src/types.rs:344-367 [rank_cmp] *)
  Definition rank_cmp (freq_weight : f32) (a b : variant_result) : option comparison :=
    if fgt freq_weight f0 then SFcompare (vr_score freq_weight b) (vr_score freq_weight a)
    else if fgt (vr_dist a) (vr_dist b) then Some Lt
    else if flt (vr_dist a) (vr_dist b) then Some Gt
    else if fgt (vr_freq a) (vr_freq b) then Some Lt
    else if flt (vr_freq a) (vr_freq b) then Some Gt
    else Some Eq.

  (** Stable sorting as in [sort_by]: insert [x] before the first element it
      does not come after. *)
  Fixpoint insert_by (after : variant_result -> variant_result -> bool) (x : variant_result)
      (l : list variant_result) : list variant_result :=
    match l with
    | [] => [x]
    | y :: l' => if after x y then y :: insert_by after x l' else x :: l
    end.
  Definition sort_by (after : variant_result -> variant_result -> bool) (l : list variant_result) : list variant_result :=
    foldr (insert_by after) [] l.

  (** src/lib.rs:1667-1669 [rank_results].  [expect("ordering")] fails as soon as
      a NaN is compared, and every element of a list of two or more is compared
      at least once. *)
  Definition rank_results (freq_weight : f32) (l : list variant_result) : res (list variant_result) :=
    if fgt freq_weight f0 && (1 <? length l)%nat && existsb (fun r => fis_nan (vr_score freq_weight r)) l
    then Panic ExpectNone
    else Ok (sort_by (fun a b => match rank_cmp freq_weight a b with Some Gt => true | _ => false end) l).

  (** src/lib.rs:1691-1718: the results from the links of one item *)
  Definition expand_ref (m : model) (r : variant_result) (acc : list variant_result) (ref : variant_ref)
      : res (list variant_result) :=
    match ref with
    | VariantOf target score =>
        let* item := rexpect (m_decoder m !! target) in
        let tf := f64_of_N (vv_frequency item) in
        Ok (acc ++ [VariantResult target (fmul (vr_dist r) score)
                      (if flt tf (vr_freq r) then tf else vr_freq r) (Some (vr_id r))])
    | ReferenceFor _ _ => Ok acc
    end.

  (** src/lib.rs:1683-1723: one result *)
  Definition expand_one (m : model) (acc : list variant_result) (r : variant_result) : res (list variant_result) :=
    let* item := rexpect (m_decoder m !! vr_id r) in
    let* acc :=
      match vv_variants item with
      | Some refs => rfoldl (expand_ref m r) acc refs
      | None => Ok acc
      end in
    Ok (if vt_check (vv_type item) VT_TRANSPARENT then acc else acc ++ [r]).

  (** src/lib.rs:1677-1731 [expand_variants] *)
  Definition expand_variants (m : model) (results : list variant_result) : res (list variant_result) :=
    rfoldl (expand_one m) [] results.

  (** [results.dedup_by_key(|x| x.vocab_id)]: drops every element whose key
      equals that of the element kept just before it *)
  Fixpoint dedup_from (prev : vocab_id) (l : list variant_result) : list variant_result :=
    match l with
    | [] => []
    | x :: l' => if (vr_id x =? prev)%nat then dedup_from prev l' else x :: dedup_from (vr_id x) l'
    end.
  Definition dedup (l : list variant_result) : list variant_result :=
    match l with [] => [] | x :: l' => x :: dedup_from (vr_id x) l' end.

  (** src/lib.rs:1561-1571: early and late cutoff; the loop with [break] *)
  Fixpoint cutoffs (cropped : f64) (i early : nat) (l : list variant_result) : nat * nat :=
    match l with
    | [] => (early, 0)
    | r :: l' =>
        let early := if feq (vr_dist r) cropped && (early =? 0)%nat then i else early in
        if flt (vr_dist r) cropped then (early, i) else cutoffs cropped (S i) early l'
    end.

  (** src/lib.rs:1536-1592: crop at [max_matches] *)
  Definition crop (max_matches : nat) (freq_weight : f32) (l : list variant_result) : res (list variant_result) :=
    if (0 <? max_matches)%nat && (max_matches <? length l)%nat then
      let* last := rexpect (l !! (max_matches - 1)) in
      let* cropped := rexpect (l !! max_matches) in
      let last_score := vr_score freq_weight last in
      let cropped_score := vr_score freq_weight cropped in
      if flt cropped_score last_score then Ok (take max_matches l)
      else
        let '(early, late) := cutoffs cropped_score 0 0 l in
        Ok (if (0 <? early)%nat then take (S early) l
            else if (0 <? late)%nat then take (S late) l
            else l)
    else Ok l.

  (** src/lib.rs:1600-1615: apply the cutoff threshold *)
  Fixpoint cutoff_at (freq_weight : f32) (limit : f64) (i : nat) (l : list variant_result) : nat :=
    match l with
    | [] => 0
    | r :: l' => if fle (vr_score freq_weight r) limit then i else cutoff_at freq_weight limit (S i) l'
    end.
  Definition apply_cutoff (cutoff_threshold : f64) (freq_weight : f32) (l : list variant_result) : list variant_result :=
    let cutoff :=
      if fge cutoff_threshold f1 then
        match l with
        | [] => 0
        | best :: l' => cutoff_at freq_weight (fdiv (vr_score freq_weight best) cutoff_threshold) 1 l'
        end
      else 0 in
    if (0 <? cutoff)%nat then take cutoff l else l.

  (** src/lib.rs:1512-1520: normalise the frequency scores *)
  Definition max_freq_of (max_freq : f64) (l : list variant_result) : f64 :=
    foldl (fun mf r => if fgt (vr_freq r) mf then vr_freq r else mf) max_freq l.
  Definition normalize_freq (max_freq : f64) (l : list variant_result) : list variant_result :=
    if fgt max_freq f0
    then map (fun r => VariantResult (vr_id r) (vr_dist r) (fdiv (vr_freq r) max_freq) (vr_via r)) l
    else l.

  (** src/lib.rs:1405-1653 [score_and_rank] *)
  Definition score_and_rank (m : model) (instances : list (vocab_id * distance)) (input : str) (input_length : nat)
      (max_matches : nat) (score_threshold cutoff_threshold : f64) (freq_weight : f32) : res (list variant_result) :=
    if (input_length =? 0)%nat then Panic AssertFailed
    else
      let* st := rfoldl (score_instance m input_length score_threshold) ([], f0, false) instances in
      let '(results, max_freq, expandable) := st in
      let have_confusables := negb (bool_decide (length (m_confusables m) = 0)) in
      let results :=
        if have_confusables && m_confusables_before_pruning m then rescore_confusables m results input else results in
      let* rm :=
        if expandable then
          let* results := expand_variants m results in
          Ok (results, max_freq_of max_freq results)
        else Ok (results, max_freq) in
      let '(results, max_freq) := rm in
      let results := normalize_freq max_freq results in
      let* results := rank_results freq_weight results in
      let results := if expandable then dedup results else results in
      let* results := crop max_matches freq_weight results in
      let* results :=
        if have_confusables && negb (m_confusables_before_pruning m)
        then rank_results freq_weight (rescore_confusables m results input)
        else Ok results in
      Ok (apply_cutoff cutoff_threshold freq_weight results).

  (** src/lib.rs:984-997, 1003-1016: the effective distance limit.  [cap] is
      [MAX_ANAGRAM_DISTANCE] resp. [MAX_EDIT_DISTANCE] (src/lib.rs:43,46), both 12. *)
  Definition effective_limit (t : threshold) (len : nat) : nat :=
    match t with
    | TRatio x => Nat.min (floor_as_u8 (f32mul (f32_of_nat len) x)) 12
    | TRatioWithLimit x limit => Nat.min (floor_as_u8 (f32mul (f32_of_nat len) x)) limit
    | TAbsolute x => Nat.min x (floor_as_u8 (fdiv (f64_of_nat len) f2))
    end.

  (** src/lib.rs:972-1027 [find_variants] *)
  Definition find_variants (fuel : nat) (order : list (nat * list N) -> list (nat * list N)) (m : model)
      (input : str) (p : search_parameters) : res (list variant_result) :=
    if bool_decide (m_index m = ∅) then Ok []
    else
      let* normstring := normalize_to_alphabet (m_alphabet m) input in
      let* focus := anahash (m_alphabet m) input in
      let max_anagram_distance := effective_limit (p_max_anagram_distance p) (length normstring) in
      let* nearest := find_nearest fuel order m focus max_anagram_distance (p_stop_criterion p) in
      let max_edit_distance := effective_limit (p_max_edit_distance p) (length normstring) in
      let* variants := gather_instances m (btree_list nearest) normstring input max_edit_distance in
      score_and_rank m variants input (length normstring) (p_max_matches p) (p_score_threshold p)
        (p_cutoff_threshold p) (p_freq_weight p).
End search.
