(** Specification of scores, paths and series of matches. *)
From Verif Require Import M_Base M_Utf8 M_Float M_Types M_Model M_Values M_Search M_Text M_Rules M_Matches S_Text S_Model S_Search S_Rules.
From stdpp Require Import options.

(** * Language model *)
(** The value of a transition: a constant if a token is unknown or the pair was
    never counted; else the logarithm of the share of the pair in the count of
    the first word (1 if not counted; the count of the pair itself if higher). *)
Definition transition_value (ln : f32 -> f32) (counts : gmap ngram N) (p : option vocab_id * option vocab_id) : f32 :=
  match p with
  | (Some a, Some b) =>
      match counts !! NBi a b with
      | Some joint =>
          let prior := default 1%N (counts !! NUni a) in
          ln (if bool_decide (prior < joint)%N then f32_of_N joint else f32div (f32_of_N joint) (f32_of_N prior))
      | None => smoothing
      end
  | _ => smoothing
  end.
(** consecutive tokens *)
Definition pairs {A} (l : list A) : list (A * A) := zip l (tail l).
(** their sum from left to right, and what the code calls perplexity *)
Definition sequence_logprob (ln : f32 -> f32) (counts : gmap ngram N) (tokens : list (option vocab_id)) : f32 :=
  foldl f32add (S754_zero false) (map (transition_value ln counts) (pairs tokens)).
Definition perplexity_of (n : nat) (logprob : f32) : f64 :=
  fmul (fdiv (SFopp f1) (f64_of_nat n)) (to_f64 logprob).

(** What logarithms of 32-bit numbers satisfy. *)
Record log32_like (ln : f32 -> f32) : Prop := {
  l32_single : forall x, single x -> single (ln x);
  l32_low : forall x, fle f0 x = true -> fle x f32_1 = true -> fle (ln x) f0 = true;
  l32_high : forall x, flt f32_1 x = true -> flt f0 (ln x) = true;
}.
(** Counts as they should be: 32-bit, and no pair more often than its first word. *)
Definition consistent_counts (counts : gmap ngram N) : Prop :=
  forall a b joint, counts !! NBi a b = Some joint ->
    exists prior, counts !! NUni a = Some prior /\ (0 < joint <= prior)%N /\ (prior < 4294967296)%N.

(** * Paths *)
Inductive route (arcs : list arc) : nat -> list arc -> nat -> Prop :=
| route_end s : route arcs s [] s
| route_arc a l t : a ∈ arcs -> route arcs (a_to a) l t -> route arcs (a_from a) (a :: l) t.
(** the labels a path writes; 0 is epsilon *)
Definition written (l : list arc) : list nat := List.filter (fun o => negb (o =? 0)) (map a_out l).
(** What is assumed of the solver: what it returns are labels of paths from the
    start to a final state. *)
Definition solver_sound (solve : fst_graph -> nat -> list (list nat * f32)) : Prop :=
  forall g n labels w, (labels, w) ∈ solve g n ->
    exists l t, route (f_arcs g) 0 l t /\ t ∈ f_final g /\ labels = written l.
(** Where used: in a graph without cycles it returns a path if there is one and
    one is asked for. *)
Definition forward (g : fst_graph) : Prop := forall a, a ∈ f_arcs g -> a_from a < a_to a.
Definition solver_complete (solve : fst_graph -> nat -> list (list nat * f32)) : Prop :=
  forall g n l t, 0 < n -> forward g -> route (f_arcs g) 0 l t -> t ∈ f_final g -> solve g n <> [].

(** * Series of matches *)
(** Every match is a non-empty part of the text at its own place, and they come
    one after the other, with something between them. *)
Definition in_place (t : str) (ms : list tmatch) : Prop :=
  forall m, m ∈ ms -> at_bytes t (tm_begin m) (tm_end m) (tm_text m) /\ tm_text m <> [].
Definition one_after_other (ms : list tmatch) : Prop :=
  forall i j m m', i < j -> ms !! i = Some m -> ms !! j = Some m' -> tm_end m < tm_begin m'.

(** What is selected for a match is one of its variants; nothing if it has none. *)
Definition solved (x : tmatch) : Prop :=
  exists r, solution x = Ok r /\
    match r with
    | Some v => exists vs, tm_variants x = Some vs /\ v ∈ vs
    | None => tm_variants x = None \/ tm_variants x = Some []
    end.

(** What scoring a sequence needs: the recorded numbers of words are right, the
    encoder points into the vocabulary, the context rules are as loaded. *)
Record scorable (m : model) : Prop := {
  sc_words : words_counted m;
  sc_encoder : forall t id, m_encoder m !! t = Some id -> id < length (m_decoder m);
  sc_rules : Forall rule_ok (m_context_rules m);
}.

(** [lookup] looks strings up in [m], each time with some order of iteration
    and enough fuel. *)
Definition looks_up (lc : N -> bool) (ses : str -> str -> list edit_instruction) (fuel : nat) (m : model) (p : search_parameters)
    (lookup : str -> res (list variant_result)) : Prop :=
  forall s, exists f order, fuel <= f /\ some_order order /\ lookup s = find_variants lc ses f order m s p.

(** * The lattice *)
(** A match reaches from state [from] to the boundary [next]: the boundary begins
    where the match ends, and the match begins where the boundary before state
    [from] ends (no boundary does if this is the start). *)
Definition spans (bs : list tmatch) (m : tmatch) (from next : nat) : Prop :=
  from <= S next /\ (exists b, bs !! next = Some b /\ tm_begin b = tm_end m) /\
  match from with
  | 0 => forall p b, bs !! p = Some b -> tm_end b <> tm_begin m
  | S p => exists b, bs !! p = Some b /\ tm_end b = tm_begin m
  end.
(** The readings of match number [i] and their costs: each of its variants; if
    there are none and the match is a single word, the word itself. *)
Inductive reading (freq_weight : f32) (i : nat) (m : tmatch) (from next : nat) : output_symbol -> f32 -> Prop :=
| reading_variant vs j v : tm_variants m = Some vs -> vs !! j = Some v ->
    reading freq_weight i m from next (OutputSymbol (vr_id v) i (Some j) next)
      (f32add (f32_of_nat (S next - from)) (f32sub f32_1 (to_f32 (vr_score freq_weight v))))
| reading_unknown : tm_variants m = None \/ tm_variants m = Some [] -> S next - from = 1 ->
    reading freq_weight i m from next (OutputSymbol 0 i None next) (f32add f32_1 f32_1).
(** The graph whose paths are searched: exactly the readings of the matches, and
    from every boundary to the next one transition that writes nothing, at cost
    100.  It ends at the boundaries that begin or end at [e]. *)
Record lattice (freq_weight : f32) (ms bs : list tmatch) (e : nat) (symbols : list output_symbol) (g : fst_graph) : Prop := {
  la_final : forall s, s ∈ f_final g <-> exists i b, s = S i /\ bs !! i = Some b /\ (tm_begin b = e \/ tm_end b = e);
  la_only : forall a, a ∈ f_arcs g -> (exists i, i < length bs /\ a = Arc i 0 0 (f32_of_nat 100) (S i)) \/
    exists i m from next o c k, ms !! i = Some m /\ spans bs m from next /\ reading freq_weight i m from next o c /\
      0 < k /\ symbols !! k = Some o /\ a = Arc from (S i) k c (S next);
  la_failsafe : forall i, i < length bs -> Arc i 0 0 (f32_of_nat 100) (S i) ∈ f_arcs g;
  la_every : forall i m, ms !! i = Some m -> exists from next, spans bs m from next /\
    forall o c, reading freq_weight i m from next o c -> exists k, 0 < k /\ symbols !! k = Some o /\ Arc from (S i) k c (S next) ∈ f_arcs g;
}.

(** * Choosing a sequence *)
(** the least (greatest) of [init] and a list of numbers; NaN does not count *)
Definition least (init : f64) (l : list f64) (x : f64) : Prop :=
  x ∈ init :: l /\ fis_nan x = false /\ forall y, y ∈ init :: l -> flt y x = false.
Definition greatest (init : f64) (l : list f64) (x : f64) : Prop :=
  x ∈ init :: l /\ fis_nan x = false /\ forall y, y ∈ init :: l -> flt x y = false.

(** The three components of the score of a sequence: the logarithm of its share
    of the best. *)
Definition lm_part (ln : f64 -> f64) (best : f64) (s : sequence) : f64 := ln (fdiv best (sq_perplexity s)).
Definition variant_part (ln : f64 -> f64) (best : f32) (s : sequence) : f64 := ln (fdiv (to_f64 best) (to_f64 (sq_cost s))).
Definition context_part (ln : f64 -> f64) (best : f64) (s : sequence) : f64 := ln (fdiv (sq_context s) best).
Definition weighted_mean (w1 w2 w3 : f32) (x1 x2 x3 : f64) : f64 :=
  fdiv (fadd (fadd (fmul (to_f64 w1) x1) (fmul (to_f64 w2) x2)) (fmul (to_f64 w3) x3))
       (fadd (fadd (to_f64 w1) (to_f64 w2)) (to_f64 w3)).

(** The score of a sequence: the weighted mean, or the variant component alone if
    neither a language model nor rules are to be considered. *)
Definition combined (ln : f64 -> f64) (m : model) (p : search_parameters) (perplexity : f64) (cost : f32) (context : f64) (s : sequence) : f64 :=
  let no_lm := m_have_lm m = false \/ feq (p_lm_weight p) f0 = true in
  let no_rules := m_context_rules m = [] \/ feq (p_contextrules_weight p) f0 = true in
  if decide (no_lm /\ no_rules) then variant_part ln cost s
  else weighted_mean (p_lm_weight p) (p_variantmodel_weight p) (p_contextrules_weight p)
         (if use_lm m p then lm_part ln perplexity s else f0) (variant_part ln cost s) (context_part ln context s).

(** Numbers from which no NaN arises. *)
Definition positive_weights (p : search_parameters) : Prop :=
  Forall (fun w => weight_single w /\ flt f0 w = true) [p_lm_weight p; p_variantmodel_weight p; p_contextrules_weight p].
Definition well_scored (lm : bool) (s : sequence) : Prop :=
  (weight_single (sq_cost s) /\ flt f0 (sq_cost s) = true) /\
  (lm = true -> double (sq_perplexity s) /\ flt f0 (sq_perplexity s) = true) /\
  (double (sq_context s) /\ flt f0 (sq_context s) = true /\ flt (sq_context s) finf = true).

(** [x] is the first element with the highest score. *)
Definition first_best {A} (score : A -> f64) (l : list A) (x : A) : Prop :=
  exists l1 l2, l = l1 ++ x :: l2 /\ (forall y, y ∈ l1 -> flt (score y) (score x) = true) /\
    (forall y, y ∈ l2 -> fle (score y) (score x) = true).

(** What logarithms satisfy. *)
Record log_like (ln : f64 -> f64) : Prop := {
  ll_double : forall x, double x -> double (ln x);
  ll_negative : forall x, flt x f0 = true -> fis_nan (ln x) = true;
  ll_zero : ln f0 = S754_infinity true;
  ll_one : ln f1 = f0;
  ll_increasing : forall x y, fle f0 x = true -> fle x y = true -> fle (ln x) (ln y) = true;
}.
