(** Specification of context rule files: what each line says. *)
From Verif Require Import M_Base M_Anahash M_Float M_Types M_Model M_Rules.
From Verif Require Import S_Model S_Rules S_SearchAll.
From stdpp Require Import options.

Section rule_files.
  Context (ws : N -> bool) (parse_f32 : str -> option f32) (lexicons : list str) (encoder : gmap str vocab_id).

  (** * Patterns *)
  (** a negated group: "!(", something, ")" *)
  Definition group (t u : str) : Prop := t = [33; 40]%N ++ u ++ [41%N].
  (** What an expression says, white space at its ends aside.  Every text is read
      in one way only: first as a group, then as alternatives. *)
  Inductive pattern_says (s : str) : pattern_match -> Prop :=
  | says_any : stripped ws s [63%N] -> pattern_says s PAny
  | says_no_lexicon : stripped ws s [94%N] -> pattern_says s PNoLexicon
  | says_group t u p : stripped ws s t -> group t u -> pattern_says u p -> pattern_says s (PNot p)
  | says_alternatives t xs ps : stripped ws s t -> (forall u, ~ group t u) -> fields_of 124 t xs -> 2 <= length xs ->
      Forall2 pattern_says xs ps -> pattern_says s (PDisjunction ps)
  | says_negated u p : stripped ws s (33%N :: u) -> (forall u', ~ group (33%N :: u) u') -> 124%N ∉ u ->
      pattern_says u p -> pattern_says s (PNot p)
  | says_source n i : stripped ws s (64%N :: n) -> 124%N ∉ n -> names_lexicon lexicons n i ->
      pattern_says s (PFromLexicon (N.of_nat (i mod 256)))
  | says_word t id : stripped ws s t -> t ∉ [[63%N]; [94%N]] -> 124%N ∉ t ->
      (forall u, t <> 33%N :: u) -> (forall u, t <> 64%N :: u) -> encoder !! t = Some id -> pattern_says s (PVocab id).

  (** * Tags *)
  (** parts separated by ";", white space at their ends and blank parts left out *)
  Definition parts_say (f : option str) (l : list str) : Prop :=
    match f with
    | None => l = []
    | Some s => exists xs ys, fields_of 59 s xs /\ Forall2 (stripped ws) xs ys /\ selects (fun y => y <> []) ys l
    end.
  (** A range in a pattern of [n] expressions: begin (0 if left out), length (up
      to the end if left out). *)
  Inductive range_says (n : nat) (s : str) : nat * nat -> Prop :=
  | range_of f fs b l : fields_of 58 s (f :: fs) ->
      (f = [] /\ b = 0%N) \/ decimal 255 f b ->
      (default [] (head fs) = [] /\ (N.to_nat b <= n mod 256)%nat /\ l = N.of_nat (n mod 256 - N.to_nat b)) \/
        (exists g, head fs = Some g /\ decimal 255 g l) ->
      range_says n s (N.to_nat b, N.to_nat l).
  (** The number of a tag is its place in the table; new tags are added at the end. *)
  Inductive tags_numbered : list str -> list str -> list str -> list N -> Prop :=
  | numbered_none table : tags_numbered table [] table []
  | numbered_known table t ts i table' ns : table !! i = Some t -> (forall j, j < i -> table !! j <> Some t) ->
      tags_numbered table ts table' ns -> tags_numbered table (t :: ts) table' ((N.of_nat i mod 65536)%N :: ns)
  | numbered_new table t ts table' ns : t ∉ table ->
      tags_numbered (table ++ [t]) ts table' ns -> tags_numbered table (t :: ts) table' ((N.of_nat (length table) mod 65536)%N :: ns).

  (** * Lines and files *)
  (** empty lines, comments (with "#"), lines without a pattern *)
  Definition no_rule (l : str) : Prop := l = [] \/ head l = Some 35%N \/ exists s rest, fields_of 9 l ([] :: s :: rest).
  (** the columns: pattern, score, tags, and as many ranges; a single tag needs none *)
  Inductive rule_says (table : list str) (l : str) (table' : list str) : context_rule -> Prop :=
  | rule_line pat sc rest xs ps score tags offs ns rs :
      head l <> Some 35%N -> fields_of 9 l (pat :: sc :: rest) -> pat <> [] ->
      fields_of 59 pat xs -> Forall2 pattern_says xs ps -> parse_f32 sc = Some score ->
      parts_say (rest !! 0) tags -> parts_say (rest !! 1) offs -> tags_numbered table tags table' ns ->
      (length offs = length tags /\ Forall2 (range_says (length ps)) offs rs) \/ (length tags = 1 /\ offs = [] /\ rs = [(0, length ps mod 256)]) ->
      rule_says table l table' {| cr_pattern := ps; cr_score := score; cr_tag := ns; cr_tagoffset := rs |}.
  Inductive rules_say : list str -> list str -> list str -> list context_rule -> Prop :=
  | rules_none table : rules_say table [] table []
  | rules_skip table l ls table' rs : no_rule l -> rules_say table ls table' rs -> rules_say table (l :: ls) table' rs
  | rules_line table l ls table1 table' r rs : rule_says table l table1 r -> rules_say table1 ls table' rs ->
      rules_say table (l :: ls) table' (r :: rs).
End rule_files.
