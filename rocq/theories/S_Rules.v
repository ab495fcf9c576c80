(** Specification of context rules. *)
From Verif Require Import M_Base M_Float M_Types M_Model M_Rules.
From stdpp Require Import options.

(** What a pattern says about a token: a vocabulary id (0: not in the
    vocabulary) with the set of lexicons it is in, as bits. *)
Fixpoint holds (p : pattern_match) (tok : vocab_id * N) : Prop :=
  match p with
  | PAny => True
  | PNoLexicon => tok.1 = 0 \/ forall i, N.testbit tok.2 i = false
  | PVocab id => tok.1 = id
  | PFromLexicon i => N.testbit tok.2 i = true
  | PNot q => ~ holds q tok
  | PDisjunction ps => (fix any l := match l with [] => False | q :: l' => holds q tok \/ any l' end) ps
  end.
(** lexicon numbers below 32 (a model cannot load more lexicons) *)
Fixpoint lex_bounded (p : pattern_match) : Prop :=
  match p with
  | PFromLexicon i => (i < 32)%N
  | PNot q => lex_bounded q
  | PDisjunction ps => (fix all l := match l with [] => True | q :: l' => lex_bounded q /\ all l' end) ps
  | _ => True
  end.
(** A rule the matcher can evaluate: lexicon numbers and tag ranges in range. *)
Definition rule_ok (r : context_rule) : Prop :=
  Forall lex_bounded (cr_pattern r) /\ Forall (fun ol => ol.1 < length (cr_pattern r) -> ol.1 + ol.2 < 256) (cr_tagoffset r) /\
  length (cr_pattern r) <= 256.

(** The rule fits the tokens from position [begin]. *)
Definition fits_at (r : context_rule) (sequence : list (vocab_id * N)) (begin : nat) : Prop :=
  begin + length (cr_pattern r) <= length sequence /\
  forall k p, cr_pattern r !! k = Some p -> exists tok, sequence !! (begin + k) = Some tok /\ holds p tok.

(** What the rule says about the [k]-th of the tokens it matches: a score if it
    has no tags; otherwise each tag whose range contains [k], numbered from the
    start of the range. *)
Definition says (r : context_rule) (k : nat) : list pattern_result :=
  match cr_tag r with
  | [] => [PatternResult (cr_score r) None k]
  | _ => omap (fun '(tag, (o, l)) =>
           if decide (o <= k < o + l) then Some (PatternResult (cr_score r) (Some tag) (k - o)) else None)
           (combine (cr_tag r) (cr_tagoffset r))
  end.
(** every token of the pattern gets something *)
Definition covering (r : context_rule) : Prop := forall k, k < length (cr_pattern r) -> says r k <> [].

(** token [i] is used in an application *)
Definition uses (a : nat * context_rule) (i : nat) : Prop := a.1 <= i < a.1 + length (cr_pattern a.2).
(** no token of the rule at [b] was given anything by the applications [apps] *)
Definition free (apps : list (nat * context_rule)) (b : nat) (r : context_rule) : Prop :=
  forall a i, a ∈ apps -> uses a i -> uses (b, r) i -> says a.2 (i - a.1) = [].
(** First come, first served: [greedy sequence apps l out] when trying the rules
    at the positions [l] in turn extends the applications [apps] to [out]. *)
Inductive greedy (sequence : list (vocab_id * N)) :
    list (nat * context_rule) -> list (nat * context_rule) -> list (nat * context_rule) -> Prop :=
| greedy_end apps : greedy sequence apps [] apps
| greedy_apply apps b r l out : fits_at r sequence b -> free apps b r ->
    greedy sequence (apps ++ [(b, r)]) l out -> greedy sequence apps ((b, r) :: l) out
| greedy_skip apps b r l out : ~ (fits_at r sequence b /\ free apps b r) ->
    greedy sequence apps l out -> greedy sequence apps ((b, r) :: l) out.
(** every rule at every position, left to right *)
Definition attempts (n : nat) (rules : list context_rule) : list (nat * context_rule) :=
  b ← seq 0 n; (pair b) <$> rules.
Definition applied (rules : list context_rule) (sequence : list (vocab_id * N)) (apps : list (nat * context_rule)) : Prop :=
  greedy sequence [] (attempts (length sequence) rules) apps.
(** the score of token [i]: that of the rule that uses it, 1 if there is none *)
Definition token_score (apps : list (nat * context_rule)) (i : nat) (s : f32) : Prop :=
  (exists a, a ∈ apps /\ uses a i /\ s = cr_score a.2) \/ ((forall a, a ∈ apps -> ~ uses a i) /\ s = f32_1).
(** the average: the sum in single precision, from left to right *)
Definition average (scores : list f32) : f64 :=
  fdiv (to_f64 (foldl f32add (S754_zero false) scores)) (f64_of_nat (length scores)).

(** * Textual form *)
Section text.
  Context (ws : N -> bool) (lexicons : list str) (encoder : gmap str vocab_id).
  (** no white space at either end *)
  Definition trimmed (s : str) : Prop :=
    (forall c, head s = Some c -> ws c = false) /\ (forall c, last s = Some c -> ws c = false).
  (** words that can be written: "|" separates, and "?", "^", "!", "@", "(" at the start have a meaning *)
  Definition plain_word (s : str) : Prop :=
    trimmed s /\ 124%N ∉ s /\ s <> [] /\ forall c, head s = Some c -> c ∉ [63; 94; 33; 64; 40]%N.
  (** the first lexicon with that file name, or path ending in it *)
  Definition names_lexicon (name : str) (i : nat) : Prop :=
    (exists l, lexicons !! i = Some l /\ (l = name \/ (47%N :: name) `suffix_of` l)) /\
    forall j l, j < i -> lexicons !! j = Some l -> l <> name /\ ~ (47%N :: name) `suffix_of` l.
  Inductive item : pattern_match -> str -> Prop :=
  | item_any : item PAny [63%N]
  | item_nolexicon : item PNoLexicon [94%N]
  | item_word id w : plain_word w -> encoder !! w = Some id -> item (PVocab id) w
  | item_lexicon i name : trimmed (64%N :: name) -> 124%N ∉ name -> names_lexicon name i ->
      item (PFromLexicon (N.of_nat (as_u8 i))) (64%N :: name)
  | item_not p s : item p s -> item (PNot p) (33%N :: s)
  | item_space p s l r : Forall (fun c => ws c = true) l -> Forall (fun c => ws c = true) r ->
      item p s -> item p (l ++ s ++ r).
  (** [s] written with "|" between *)
  Fixpoint bars (ss : list str) : str :=
    match ss with [] => [] | [s] => s | s :: ss' => s ++ [124%N] ++ bars ss' end.
  Inductive writes : pattern_match -> str -> Prop :=
  | writes_item p s : item p s -> writes p s
  | writes_or ps ss : 2 <= length ps -> Forall2 item ps ss -> writes (PDisjunction ps) (bars ss)
  | writes_not p s : writes p s -> writes (PNot p) ([33; 40]%N ++ s ++ [41%N])
  | writes_space p s l r : Forall (fun c => ws c = true) l -> Forall (fun c => ws c = true) r ->
      writes p s -> writes p (l ++ s ++ r).

  (** The same without the restrictions that make the meaning of a text unique:
      any word of the vocabulary, and brackets anywhere. *)
  Inductive denotes : pattern_match -> str -> Prop :=
  | denotes_any : denotes PAny [63%N]
  | denotes_nolexicon : denotes PNoLexicon [94%N]
  | denotes_word id w : encoder !! w = Some id -> denotes (PVocab id) w
  | denotes_lexicon i name : names_lexicon name i -> denotes (PFromLexicon (N.of_nat (as_u8 i))) (64%N :: name)
  | denotes_not p s : denotes p s -> denotes (PNot p) (33%N :: s)
  | denotes_group p s : denotes p s -> denotes (PNot p) ([33; 40]%N ++ s ++ [41%N])
  | denotes_or ps ss : 2 <= length ps -> Forall2 denotes ps ss -> denotes (PDisjunction ps) (bars ss)
  | denotes_space p s l r : Forall (fun c => ws c = true) l -> Forall (fun c => ws c = true) r ->
      denotes p s -> denotes p (l ++ s ++ r).

  (** patterns speak about known words and loaded lexicons only *)
  Fixpoint known (p : pattern_match) : Prop :=
    match p with
    | PVocab id => exists w, encoder !! w = Some id
    | PFromLexicon i => exists j, j < length lexicons /\ i = N.of_nat (as_u8 j)
    | PNot q => known q
    | PDisjunction ps => (fix all l := match l with [] => True | q :: l' => known q /\ all l' end) ps
    | _ => True
    end.
End text.

(** rules: patterns with ";" between *)
Fixpoint semis (ss : list str) : str :=
  match ss with [] => [] | [s] => s | s :: ss' => s ++ [59%N] ++ semis ss' end.
(** tag ranges: "begin:length", "begin:" (up to the end), ":length" and ":" *)
Inductive range_text (plen : nat) : str -> nat * nat -> Prop :=
| range_both b l x y : 58%N ∉ b -> 58%N ∉ l -> parse_u8 b = Some x -> parse_u8 l = Some y ->
    range_text plen (b ++ 58%N :: l) (N.to_nat x, N.to_nat y)
| range_from b x : 58%N ∉ b -> parse_u8 b = Some x -> N.to_nat x <= plen ->
    range_text plen (b ++ [58%N]) (N.to_nat x, plen - N.to_nat x)
| range_upto l y : 58%N ∉ l -> parse_u8 l = Some y -> range_text plen (58%N :: l) (0, N.to_nat y)
| range_all : range_text plen [58%N] (0, plen).
