(** Specification of a whole search in running text, stage by stage: how the
    text is cut, which stretches of words are looked up, which sequence of
    results is chosen. *)
From Verif Require Import M_Base M_Utf8 M_Anahash M_Float M_Types M_Model M_Values M_Confusable M_Search M_Text M_Rules M_Matches.
From Verif Require Import S_Anahash S_Text S_Model S_Search S_Lookup S_Rules S_Matches.
From stdpp Require Import options.

(** * Parts of a text *)
(** The text is cut after piece [i] (a word and the separator after it) if the
    separator is longer than a byte, and at the end; not before the first word. *)
Definition ends_part (ps : pieces) (i : nat) : Prop :=
  exists w b, ps !! i = Some (w, b) /\ (2 <= byte_len b \/ S i = length ps) /\ (i = 0 -> w <> []).
(** The parts from piece [a] on: first piece and number of pieces.  What does
    not end as a part (a lone separator) is none. *)
Inductive parts_from (ps : pieces) : nat -> list (nat * nat) -> Prop :=
| parts_none a : (forall i, a <= i -> ~ ends_part ps i) -> parts_from ps a []
| parts_next a k l : (forall i, a <= i < a + k -> ~ ends_part ps i) -> ends_part ps (a + k) ->
    parts_from ps (a + S k) l -> parts_from ps a ((a, S k) :: l).
(** the boundaries in a part, and where the last of them begins *)
Definition part_bounds (ps : pieces) (a k : nat) (bs : list tmatch) (e : nat) : Prop :=
  length bs = k /\ (forall i b, bs !! i = Some b -> is_boundary ps (a + i) b) /\
  exists b, last bs = Some b /\ e = tm_begin b.

(** * Choice by comparison *)
(** The first of the best; numbers that are none do not count. *)
Definition first_of (better : f64 -> f64 -> bool) (l : list f64) (x : f64) : Prop :=
  fis_nan x = false /\ exists l1 l2, l = l1 ++ x :: l2 /\
    Forall (fun y => fis_nan y = true \/ better x y = true) l1 /\ Forall (fun y => better y x = false) l2.
(** The first element with the highest score.  A score that is not a number is
    not the highest, but if the first element has such a score, it stays. *)
Definition preferred {A} (score : A -> f64) (l : list A) (x : A) : Prop :=
  exists l1 l2, l = l1 ++ x :: l2 /\
    ((l1 = [] /\ fis_nan (score x) = true) \/
     (fis_nan (score x) = false /\ Forall (fun y => fis_nan (score y) = true \/ flt (score y) (score x) = true) l1 /\
      Forall (fun y => flt (score x) (score y) = false) l2 /\ (forall y, head l1 = Some y -> fis_nan (score y) = false))).

(** * Context rules *)
(** what the applications say about token [i], and its score *)
Definition token_results (apps : list (nat * context_rule)) (i : nat) : list pattern_result :=
  concat (map (fun a : nat * context_rule => if decide (uses a i) then says a.2 (i - a.1) else []) apps).
Definition result_score (l : list pattern_result) : f32 := match l with r :: _ => pr_score r | [] => f32_1 end.
Definition result_tags (l : list pattern_result) : list (N * nat) :=
  omap (fun r => match pr_tag r with Some t => Some (t, pr_seqnr r) | None => None end) l.

Section searched.
  Context (lc : N -> bool) (ses : str -> str -> list edit_instruction).
  Context (ln32 : f32 -> f32) (ln : f64 -> f64) (ws alpha : N -> bool) (solve : fst_graph -> nat -> list (list nat * f32)).
  Context (m : model) (p : search_parameters).

  (** * Candidates *)
  (** the stretches of [n] words in a part of [k] pieces from piece [a] *)
  Definition stretches (ps : pieces) (a k n : nat) (cs : list tmatch) : Prop :=
    exists js, selects (fun j => S_Text.stretch (drop j ps) n <> []) (seq a (k + 1 - n)) js /\ cs = map (S_Text.candidate 0 ps n) js.
  (** a word for which there is nothing better than itself *)
  Definition known_word (x : tmatch) : Prop := exists v vs, tm_variants x = Some (v :: vs) /\ flt (vr_dist v) f1 = false.
  Definition inside (u c : tmatch) : Prop := tm_begin c <= tm_begin u /\ tm_end u <= tm_end c.
  (** All words are looked up, and the longer stretches with a word that is not known. *)
  Definition wanted (words : list tmatch) (n : nat) (c : tmatch) : Prop :=
    n = 1 \/ exists u, u ∈ words /\ inside u c /\ ~ known_word u.
  Definition offered (words : list tmatch) (n : nat) (c x : tmatch) : Prop :=
    (wanted words n c /\ exists ks l, reads (m_alphabet m) (tm_text c) ks /\ looked_up lc ses m (tm_text c) ks p l /\
       x = set_variants c (Some l)) \/
    (~ wanted words n c /\ x = c).
  (** the candidates of a part: first the words, then the pairs and so on *)
  Definition offers (ps : pieces) (a k : nat) (batch : list tmatch) : Prop :=
    exists xss, length xss = p_max_ngram p /\ batch = concat xss /\
      forall n xs, xss !! n = Some xs -> exists words cs, xss !! 0 = Some words /\ stretches ps a k (S n) cs /\ Forall2 (offered words (S n)) cs xs.

  (** * Paths *)
  (** The readings of a match, as in [reading], listed. *)
  Inductive readings (i : nat) (x : tmatch) (from next : nat) : list (output_symbol * f32) -> Prop :=
  | readings_variants vs : tm_variants x = Some vs -> vs <> [] ->
      readings i x from next (imap (fun j v => (OutputSymbol (vr_id v) i (Some j) next,
        f32add (f32_of_nat (S next - from)) (f32sub f32_1 (to_f32 (final_score (p_freq_weight p) v))))) vs)
  | readings_word : tm_variants x = None \/ tm_variants x = Some [] -> S next - from = 1 ->
      readings i x from next [(OutputSymbol 0 i None next, f32add f32_1 f32_1)]
  | readings_none : tm_variants x = None \/ tm_variants x = Some [] -> S next - from <> 1 -> readings i x from next [].
  (** The graph: an arc for every reading of every match, in order, numbered from
      1; from every boundary to the next an arc that writes nothing. *)
  Definition drawn (batch bs : list tmatch) (e : nat) (symbols : list output_symbol) (g : fst_graph) : Prop :=
    exists rs fs,
      length rs = length batch /\
      (forall i x, batch !! i = Some x -> exists from next l, rs !! i = Some (i, from, next, l) /\ spans bs x from next /\ readings i x from next l) /\
      let every := concat (map (fun r : nat * nat * nat * list (output_symbol * f32) => let '(i, from, next, l) := r in
                                  map (fun oc : output_symbol * f32 => (i, from, next, oc)) l) rs) in
      symbols = map (fun q : nat * nat * nat * (output_symbol * f32) => q.2.1) every /\
      selects (fun ib : nat * tmatch => tm_begin ib.2 = e \/ tm_end ib.2 = e) (imap pair bs) fs /\
      g = Fst (S (length bs)) (map (fun ib : nat * tmatch => S ib.1) fs)
            (imap (fun k (q : nat * nat * nat * (output_symbol * f32)) => let '(i, from, next, oc) := q in Arc from (S i) (S k) oc.2 (S next)) every ++
             map (fun i => Arc i 0 0 (f32_of_nat 100) (S i)) (seq 0 (length bs))).

  (** the words of an entry, as tokens of the language model; none if there are more than five *)
  Definition entry_read (id : vocab_id) (ts : list (option vocab_id)) : Prop :=
    exists v ids, m_decoder m !! id = Some v /\ entry_words m v ids /\ ts = if decide (length ids <= 5) then map Some ids else [].
  (** a text without the white space at its ends *)
  Definition stripped (s t : str) : Prop :=
    exists l r, s = l ++ t ++ r /\ Forall (fun c => ws c = true) l /\ Forall (fun c => ws c = true) r /\ trimmed ws t.
  (** what is known as unknown is one unknown token *)
  Definition separator_read (s : str) (ts : list (option vocab_id)) : Prop :=
    exists t, stripped s t /\
      ((t = [] /\ ts = []) \/ (t <> [] /\ m_encoder m !! t = None /\ ts = [None]) \/
       (t <> [] /\ exists id, m_encoder m !! t = Some id /\ entry_read id ts)).
  (** the tokens of a reading and the separator after it *)
  Definition symbol_read (bs : list tmatch) (o : output_symbol) (ts : list (option vocab_id)) : Prop :=
    exists b own sep, bs !! os_boundary o = Some b /\
      ((os_vocab o = 0 /\ own = [None]) \/ (os_vocab o <> 0 /\ entry_read (os_vocab o) own)) /\
      separator_read (tm_text b) sep /\ ts = own ++ sep.
  (** the language model is used *)
  Definition lm_used : Prop := m_have_lm m = true /\ flt f0 (p_lm_weight p) = true.
  (** A path with its scores.  Number [k] of the symbols has label [k + 1]. *)
  Record path_scored (bs : list tmatch) (symbols : list output_symbol) (path : list nat * f32) (s : sequence) : Prop := {
    ps_symbols : Forall2 (fun l o => exists k, l = S k /\ symbols !! k = Some o) path.1 (sq_symbols s);
    ps_cost : sq_cost s = path.2;
    ps_lm : lm_used -> exists tss, Forall2 (symbol_read bs) (sq_symbols s) tss /\
      let tokens := Some BOS :: concat tss ++ [Some EOS] in
      sq_logprob s = sequence_logprob ln32 (m_ngrams m) tokens /\ sq_perplexity s = perplexity_of (length tokens - 1) (sq_logprob s);
    ps_no_lm : ~ lm_used -> sq_logprob s = S754_zero false /\ sq_perplexity s = f0;
    ps_no_rules : m_context_rules m = [] -> sq_context s = f1 /\ sq_tags s = [];
    ps_rules : m_context_rules m <> [] -> exists apps,
      applied (m_context_rules m) (lex_sequence (m_decoder m) (map os_vocab (sq_symbols s))) apps /\
      let results := map (token_results apps) (seq 0 (length (sq_symbols s))) in
      sq_context s = (if decide (apps = []) then f1 else average (map result_score results)) /\ sq_tags s = map result_tags results;
  }.

  (** * The chosen sequence *)
  Definition with_tags (x : tmatch) (o : option (list (N * nat))) : tmatch :=
    match o with Some tags => set_tags x (map fst tags) (map snd tags) | None => x end.
  (** the matches of the sequence, each with its variant and tags *)
  Definition picks (batch : list tmatch) (s : sequence) (out : list tmatch) : Prop :=
    length out = length (sq_symbols s) /\
    forall i o, sq_symbols s !! i = Some o -> exists x, batch !! os_match o = Some x /\
      out !! i = Some (with_tags (set_selected x (os_variant o)) (sq_tags s !! i)).
  (** is there something to choose by? *)
  Definition sequences_matter : Prop := 1 < p_max_ngram p \/ m_have_lm m = true \/ m_context_rules m <> [].
  Inductive chosen (bs : list tmatch) (e : nat) (batch : list tmatch) : list tmatch -> Prop :=
  | chosen_first : ~ sequences_matter -> chosen bs e batch (map (fun x => set_selected x (Some 0)) batch)
  | chosen_nothing : sequences_matter -> batch = [] -> chosen bs e batch []
  | chosen_best symbols g seqs best perplexity cost context out :
      sequences_matter -> batch <> [] -> drawn batch bs e symbols g ->
      Forall2 (path_scored bs symbols) (solve g (p_max_seq p)) seqs ->
      when lm_used (fun _ x => first_of flt (worst_perplexity :: map sq_perplexity seqs) x) worst_perplexity perplexity ->
      first_of flt (f32mul (f32_of_nat (length bs - 1)) (f32_of_nat 2) :: map sq_cost seqs) cost ->
      first_of (fun x y => flt y x) (f0 :: map sq_context seqs) context ->
      preferred (combined ln m p perplexity cost context) seqs best ->
      picks batch best out -> chosen bs e batch out.

  (** * The whole *)
  Definition char_offset (t : str) (b c : nat) : Prop := exists pre post, t = pre ++ post /\ b = byte_len pre /\ c = length pre.
  (** offsets in characters instead of bytes *)
  Definition relocated (t : str) (x x' : tmatch) : Prop :=
    exists b e, char_offset t (tm_begin x) b /\ char_offset t (tm_end x) e /\ x' = set_offset x b e.
  Definition searchable (m : model) : Prop := exists v, v ∈ m_decoder m /\ flag (vv_type v) searchable_bit = true.
  Definition part_searched (ps : pieces) (ak : nat * nat) (out : list tmatch) : Prop :=
    exists bs e batch, part_bounds ps ak.1 ak.2 bs e /\ offers ps ak.1 ak.2 batch /\ chosen bs e batch out.
  Inductive searched (t : str) (ms : list tmatch) : Prop :=
  | searched_nothing : t = [] \/ ~ searchable m -> ms = [] -> searched t ms
  | searched_text ps parts outs : t <> [] -> searchable m -> segmentation alpha t ps -> parts_from ps 0 parts ->
      Forall2 (part_searched ps) parts outs ->
      when (p_unicodeoffsets p = true) (Forall2 (relocated t)) (concat outs) ms -> searched t ms.
  (** stretches that are not too long to be looked up *)
  Definition short_stretches (t : str) : Prop :=
    forall ps i n, segmentation alpha t ps -> i + n <= length ps -> n <= p_max_ngram p -> length (stretch (drop i ps) n) <= 255.
End searched.
