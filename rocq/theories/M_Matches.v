(** Language model scores, the choice of the most likely sequence, and the search
    in running text: src/lib.rs:1790-1955, 2088-2495, 2580-2675. *)
From Verif Require Import M_Base M_Utf8 M_Float M_Types M_Model M_Values M_Search M_Text M_Rules.
From stdpp Require Import options.

(** * Language model *)
(** src/search.rs:4 [TRANSITION_SMOOTHING_LOGPROB]: -13.815510557964274 as f32 *)
Definition smoothing : f32 := S754_finite true 14486613 (-20).
(** the counts are kept as u32; [*count as f32] *)
Definition count_f32 (n : N) : f32 := f32_of_N n.

Section lm.
  (** [f32::ln] *)
  Context (ln32 : f32 -> f32).
  (** src/lib.rs:2638-2666: the contribution of one transition *)
  Definition transition_score (counts : gmap ngram N) (t1 t2 : option vocab_id) : res f32 :=
    match ng_from_option_list [t1; t2] with
    | Some bigram =>
        let* prior := rexpect (ng_from_option_list [t1]) in
        let priorcount := default 1%N (counts !! prior) in
        match counts !! bigram with
        | Some joint =>
            if (priorcount <? joint)%N then Ok (ln32 (count_f32 joint))
            else Ok (ln32 (f32div (count_f32 joint) (count_f32 priorcount)))
        | None => Ok smoothing
        end
    | None => Ok smoothing
    end.
  (** src/lib.rs:2634-2667: the sum over the transitions and their number *)
  Fixpoint transitions (counts : gmap ngram N) (t : option vocab_id) (ts : list (option vocab_id)) (logprob : f32) (n : nat)
      : res (f32 * nat) :=
    match ts with
    | [] => Ok (logprob, n)
    | t' :: ts' =>
        let* s := transition_score counts t t' in
        transitions counts t' ts' (f32add logprob s) (S n)
    end.
  (** src/lib.rs:2632-2675 [lm_score_tokens]; [tokens.len() - 1] overflows for an
      empty list *)
  Definition lm_score_tokens (m : model) (tokens : list (option vocab_id)) : res (f32 * f64) :=
    match tokens with
    | [] => Panic Overflow
    | t :: ts =>
        let* (logprob, n) := transitions (m_ngrams m) t ts (S754_zero false) 0 in
        Ok (logprob, fmul (fdiv (SFopp f1) (f64_of_nat n)) (to_f64 logprob))
    end.
End lm.

(** src/search.rs:134-152 [OutputSymbol]; its number is its index *)
Record output_symbol := OutputSymbol {
  os_vocab : vocab_id;
  os_match : nat;
  os_variant : option nat;
  os_boundary : nat;
}.

(** src/lib.rs:2596-2604, 2609-2616: the parts of an entry.  The loop over
    [pop_first] yields the tokens in order (C53); an entry of more than five
    words yields none. *)
Definition entry_tokens (m : model) (id : vocab_id) : res (list (option vocab_id)) :=
  let* r := into_ngram m id None in
  Ok (match r.1 with Some g => map Some (ng_to_vec g) | None => [] end).
(** src/lib.rs:2588-2622: the tokens for one output symbol and the boundary after
    it; [ws] is [char::is_whitespace] *)
Definition symbol_tokens (ws : N -> bool) (m : model) (boundaries : list tmatch) (s : output_symbol)
    : res (list (option vocab_id)) :=
  let* b := rexpect (nth_error boundaries (os_boundary s)) in
  let* own := if os_vocab s =? 0 then Ok [None] else entry_tokens m (os_vocab s) in
  let* sep := match trim ws (tm_text b) with
              | [] => Ok []
              | t => match m_encoder m !! t with
                     | Some id => entry_tokens m id
                     | None => Ok [None]
                     end
              end in
  Ok (own ++ sep).
(** src/lib.rs:2580-2628 [lm_score] *)
Definition lm_score (ln32 : f32 -> f32) (ws : N -> bool) (m : model) (symbols : list output_symbol) (boundaries : list tmatch)
    : res (f32 * f64) :=
  let* ts := rmapM (symbol_tokens ws m boundaries) symbols in
  lm_score_tokens ln32 m (Some BOS :: concat ts ++ [Some EOS]).

(** * The transducer *)
Record arc := Arc { a_from : nat; a_in : nat; a_out : nat; a_cost : f32; a_to : nat }.
Record fst_graph := Fst { f_states : nat; f_final : list nat; f_arcs : list arc }.

(** src/lib.rs:2159-2169: the boundaries on either side of a match *)
Fixpoint adjacent (m : tmatch) (i : nat) (bs : list tmatch) (prev next : option nat) : option nat * option nat :=
  match bs with
  | [] => (prev, next)
  | b :: bs' =>
      if tm_begin m =? tm_end b then adjacent m (S i) bs' (Some i) next
      else if tm_end m =? tm_begin b then adjacent m (S i) bs' prev (Some i)
      else adjacent m (S i) bs' prev next
  end.
(** src/lib.rs:2171-2182: number of words, states.  State 0 is the start, state
    [i + 1] that of boundary [i]. *)
Definition endpoints (m : tmatch) (bs : list tmatch) : res (nat * nat * nat) :=
  let '(prev, next) := adjacent m 0 bs None None in
  let* next := rexpect next in
  match prev with
  | Some p => if next <? p then Panic Overflow else Ok (next - p, S p, next)
  | None => Ok (next + 1, 0, next)
  end.
(** src/lib.rs:2215-2219: "each transition gets a base cost of n" *)
Definition variant_cost (freq_weight : f32) (n : nat) (v : variant_result) : f32 :=
  f32add (f32_of_nat n) (f32sub f32_1 (to_f32 (vr_score freq_weight v))).
(** src/lib.rs:2184-2268: the output symbols and arcs of one match; [k] symbols
    were there before.  ([output_symbols.len() as u32] is taken not to wrap.) *)
Definition match_arcs (freq_weight : f32) (bs : list tmatch) (k index : nat) (m : tmatch)
    : res (list output_symbol * list arc) :=
  let* (n, from, next) := endpoints m bs in
  match tm_variants m with
  | Some (v :: vs) =>
      Ok (imap (fun i v => OutputSymbol (vr_id v) index (Some i) next) (v :: vs),
          imap (fun i v => Arc from (index + 1) (k + i) (variant_cost freq_weight n v) (S next)) (v :: vs))
  | _ =>
      if n =? 1 then
        Ok ([OutputSymbol 0 index None next], [Arc from (index + 1) k (f32add (f32_of_nat n) f32_1) (S next)])
      else Ok ([], [])
  end.
(** src/lib.rs:2152-2269: all matches *)
Fixpoint all_arcs (freq_weight : f32) (bs : list tmatch) (k index : nat) (ms : list tmatch)
    : res (list output_symbol * list arc) :=
  match ms with
  | [] => Ok ([], [])
  | m :: ms' =>
      let* (ss, arcs) := match_arcs freq_weight bs k index m in
      let* (ss', arcs') := all_arcs freq_weight bs (k + length ss) (S index) ms' in
      Ok (ss ++ ss', arcs ++ arcs')
  end.
(** src/lib.rs:2272-2283: the failsafe transitions of cost 100 *)
Definition failsafe_arcs (bs : list tmatch) : list arc :=
  map (fun i => Arc i 0 0 (f32_of_nat 100) (S i)) (seq 0 (length bs)).
(** src/lib.rs:2114-2132: the final states *)
Definition final_states (bs : list tmatch) (end_offset : nat) : list nat :=
  map fst (List.filter (fun ib => (tm_begin ib.2 =? end_offset) || (tm_end ib.2 =? end_offset)) (imap (fun i b => (S i, b)) bs)).
(** src/lib.rs:2141-2149: symbol 0 stands for epsilon *)
Definition dummy_symbol : output_symbol := OutputSymbol 0 0 None 0.

(** * Most likely sequence *)
(** src/search.rs:154-174 [Sequence] *)
Record sequence := Sequence {
  sq_symbols : list output_symbol;
  sq_cost : f32;
  sq_logprob : f32;
  sq_perplexity : f64;
  sq_context : f64;
  sq_tags : list (list (N * nat));
}.
(** 999999.0 and -99999999.0 *)
Definition worst_perplexity : f64 := S754_finite false 8589926002065408 (-33).
Definition worst_score : f64 := S754_finite true 6710886332891136 (-26).

Section sequences.
  (** natural logarithms, [char::is_whitespace] *)
  Context (ln32 : f32 -> f32) (ln : f64 -> f64) (ws : N -> bool).
  (** The library (rustfst) that finds the [n] shortest paths: the output labels
      without epsilon, and the weight of each. *)
  Context (solve : fst_graph -> nat -> list (list nat * f32)).

  (** src/lib.rs:2336: [self.have_lm && params.lm_weight > 0.0] *)
  Definition use_lm (m : model) (p : search_parameters) : bool := m_have_lm m && fgt (p_lm_weight p) f0.
  (** src/lib.rs:2321-2374: one path *)
  Definition path_sequence (m : model) (p : search_parameters) (bs : list tmatch) (symbols : list output_symbol)
      (path : list nat * f32) : res sequence :=
    let* ss := rmapM (fun o => rexpect (nth_error symbols o)) path.1 in
    let* lm := if use_lm m p then lm_score ln32 ws m ss bs else Ok (S754_zero false, f0) in
    let* ctx := match m_context_rules m with
                | [] => Ok (f1, [])
                | _ => let* (c, rs) := test_context_rules m (map os_vocab ss) in Ok (c, tags_of rs)
                end in
    Ok (Sequence ss path.2 lm.1 lm.2 ctx.1 ctx.2).

  (** src/lib.rs:2317-2319, 2340-2373: the best components of all sequences *)
  Record bests := Bests { b_perplexity : f64; b_cost : f32; b_context : f64 }.
  Definition update_bests (lm : bool) (b : bests) (s : sequence) : bests :=
    {| b_perplexity := if lm && flt (sq_perplexity s) (b_perplexity b) then sq_perplexity s else b_perplexity b;
       b_cost := if flt (sq_cost s) (b_cost b) then sq_cost s else b_cost b;
       b_context := if fgt (sq_context s) (b_context b) then sq_context s else b_context b |}.
  Definition initial_bests (boundaries : nat) : bests :=
    {| b_perplexity := worst_perplexity; b_cost := f32mul (f32_of_nat (boundaries - 1)) (f32_of_nat 2); b_context := f0 |}.

  (** src/lib.rs:2389-2416: the score of a sequence *)
  Definition sequence_score (m : model) (p : search_parameters) (b : bests) (s : sequence) : f64 :=
    let norm_lm := if use_lm m p then ln (fdiv (b_perplexity b) (sq_perplexity s)) else f0 in
    let norm_variant := ln (fdiv (to_f64 (b_cost b)) (to_f64 (sq_cost s))) in
    let norm_context := ln (fdiv (sq_context s) (b_context b)) in
    if (negb (m_have_lm m) || feq (p_lm_weight p) f0) &&
       (bool_decide (m_context_rules m = []) || feq (p_contextrules_weight p) f0)
    then norm_variant
    else
      fdiv (fadd (fadd (fmul (to_f64 (p_lm_weight p)) norm_lm) (fmul (to_f64 (p_variantmodel_weight p)) norm_variant))
                 (fmul (to_f64 (p_contextrules_weight p)) norm_context))
           (fadd (fadd (to_f64 (p_lm_weight p)) (to_f64 (p_variantmodel_weight p))) (to_f64 (p_contextrules_weight p))).

  (** src/lib.rs:2384-2431: the first with the highest score *)
  Fixpoint choose (score : sequence -> f64) (best_score : f64) (best : option sequence) (l : list sequence) : option sequence :=
    match l with
    | [] => best
    | s :: l' =>
        if fgt (score s) best_score || match best with None => true | Some _ => false end then choose score (score s) (Some s) l'
        else choose score best_score best l'
    end.

  (** src/lib.rs:2479-2494: the matches of the chosen sequence *)
  Definition selected_matches (ms : list tmatch) (s : sequence) : res (list tmatch) :=
    rmapM (fun io : nat * output_symbol =>
      let '(i, o) := io in
      let* m := rexpect (nth_error ms (os_match o)) in
      let m := set_selected m (os_variant o) in
      Ok (match nth_error (sq_tags s) i with
          | Some tags => set_tags m (map fst tags) (map snd tags)
          | None => m
          end)) (imap pair (sq_symbols s)).

  (** src/lib.rs:2088-2495 [most_likely_sequence] *)
  Definition most_likely_sequence (m : model) (p : search_parameters) (ms bs : list tmatch) (end_offset : nat)
      : res (list tmatch) :=
    match final_states bs end_offset with
    | [] => Panic AssertFailed
    | finals =>
        let* (symbols, arcs) := all_arcs (p_freq_weight p) bs 1 0 ms in
        match symbols with
        | [] => Ok ms
        | _ =>
            let graph := Fst (S (length bs)) finals (arcs ++ failsafe_arcs bs) in
            let* sequences := rmapM (path_sequence m p bs (dummy_symbol :: symbols)) (solve graph (p_max_seq p)) in
            let b := foldl (update_bests (use_lm m p)) (initial_bests (length bs)) sequences in
            let* best := rexpect (choose (sequence_score m p b) worst_score None sequences) in
            selected_matches ms best
        end
    end.

  (** * Search in text *)
  (** [char::is_alphabetic]; the lookup of one candidate ([find_variants]) *)
  Context (alpha : N -> bool) (lookup : str -> res (list variant_result)).
  (** src/lib.rs:1848-1873, 1874-1896 (in parallel): the variants of one candidate *)
  Definition segment_variants (order : nat) (batch : list tmatch) (segment : tmatch) : res tmatch :=
    if (order =? 1) || negb (redundant_match segment batch) then
      let* vs := lookup (tm_text segment) in Ok (set_variants segment (Some vs))
    else Ok segment.
  (** src/lib.rs:1828-1899: all candidates of a batch *)
  Definition gather_batch (text : str) (max_ngram : nat) (bs : list tmatch) (begin end_ : nat) : res (list tmatch) :=
    rfoldl (fun batch order =>
      let* current := find_match_ngrams text bs order begin (Some end_) in
      let* current := rmapM (segment_variants order batch) current in
      Ok (batch ++ current)) [] (seq 1 max_ngram).
  (** src/lib.rs:1906-1929 *)
  Definition consolidate (m : model) (p : search_parameters) (batch bs : list tmatch) (end_ : nat) : res (list tmatch) :=
    if (1 <? p_max_ngram p) || m_have_lm m || negb (bool_decide (m_context_rules m = [])) then
      most_likely_sequence m p batch bs end_
    else Ok (map (fun x => set_selected x (Some 0)) batch).
  (** src/lib.rs:1814-1936: the batches *)
  Fixpoint batches (m : model) (p : search_parameters) (text : str) (bounds : list tmatch) (l : list (strength * tmatch))
      (i begin begin_index : nat) : res (list tmatch) :=
    match l with
    | [] => Ok []
    | (s, b) :: l' =>
        if match s with Hard => true | _ => false end && negb (tm_begin b =? begin) then
          let* _ := slice text begin (tm_begin b) in
          let bs := take (S i - begin_index) (drop begin_index bounds) in
          let* batch := gather_batch text (p_max_ngram p) bs begin (tm_begin b) in
          let* ms := consolidate m p batch bs (tm_begin b) in
          let* rest := batches m p text bounds l' (S i) (tm_end b) (S i) in
          Ok (ms ++ rest)
        else batches m p text bounds l' (S i) begin begin_index
    end.
  (** src/lib.rs:1790-1955 [find_all_matches] *)
  Definition find_all_matches (m : model) (text : str) (p : search_parameters) : res (list tmatch) :=
    if bool_decide (text = []) then Ok []
    else if bool_decide (m_index m = ∅) then Ok []
    else
      let* bounds := find_boundaries alpha text in
      let* ms := batches m p text bounds (zip (classify_boundaries bounds) bounds) 0 0 0 in
      if p_unicodeoffsets p then remap_offsets text ms else Ok ms.
End sequences.
