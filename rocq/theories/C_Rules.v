(** Context rules: C49, C50, C51, C52. *)
From Coq Require Import Lia.
From Verif Require Import M_Base M_Anahash M_Float M_Types M_Model M_Rules S_Rules P_Base P_Rules P_Parse.
From stdpp Require Import options.

(** white space for the examples *)
Definition exW (c : N) : bool := (c =? 32)%N || (c =? 9)%N.
(** words "a" (3), "b" (4), "a)" (5); one lexicon, "d/l.tsv" *)
Definition exEnc : gmap str vocab_id := {[ [97%N] := 3; [98%N] := 4; [97; 41]%N := 5 ]}.
Definition exLex : list str := [[100; 47; 108; 46; 116; 115; 118]%N].
Definition exWeights : weights := {| w_ld := f1; w_lcs := f1; w_prefix := f1; w_suffix := f1; w_case := f1 |}.
Definition exModel : model := with_vocab (new_with_alphabet [] exWeights) init_decoder exEnc.
(** tokens: a word of lexicon 0, a word of lexicon 1, an unknown word *)
Definition exSeq : list (vocab_id * N) := [(3, 1%N); (4, 2%N); (0, 0%N)].

(** * C49: meaning of patterns *)
(** A pattern matches a token exactly when its boolean meaning holds of it. *)
Theorem C49_pattern : forall p sequence i tok, lex_bounded p -> sequence !! i = Some tok ->
  exists b, pm_matches p sequence i = Ok b /\ (b = true <-> holds p tok).
Proof. exact (fun p sequence i tok Hb E => pm_matches_spec p Hb sequence i tok E). Qed.
Print Assumptions C49_pattern.
(** A rule matches at a position exactly if it fits in the sequence, each of its
    patterns matches the token there, and the tokens are still unclaimed.  What is
    recorded then is what the rule says about each of its tokens, and nothing else. *)
Theorem C49_rule : forall r sequence begin results, rule_ok r -> length results = length sequence ->
  exists b rs, cr_matches r sequence begin results = Ok (b, rs) /\ length rs = length sequence /\
    (b = true <-> fits_at r sequence begin /\ forall k, k < length (cr_pattern r) -> results !! (begin + k) = Some []) /\
    (b = false -> rs = results) /\
    (b = true -> forall i, rs !! i = if decide (begin <= i < begin + length (cr_pattern r)) then Some (says r (i - begin)) else results !! i).
Proof. exact cr_matches_spec. Qed.
Print Assumptions C49_rule.
(** Without a bound on the lexicon number the test panics: a mask is shifted by
    it.  Patterns that were parsed satisfy the bound if at most 32 lexicons were
    loaded. *)
Theorem C49_lexicon_number_refuted : exists p sequence i tok, sequence !! i = Some tok /\
  pm_matches p sequence i = Panic Overflow.
Proof. exists (PFromLexicon 32), exSeq, 0, (3, 1%N). by vm_compute. Qed.
Print Assumptions C49_lexicon_number_refuted.
Theorem C49_parsed_patterns : forall ws lexicons encoder fuel s p, length lexicons <= 32 ->
  pm_parse ws lexicons encoder fuel s = Ok (Some p) -> lex_bounded p.
Proof. exact (fun ws lexicons encoder fuel s p L E => known_bounded lexicons encoder p L (parse_known ws lexicons encoder fuel s p E)). Qed.
Print Assumptions C49_parsed_patterns.

(** What the rules see of a sequence of entries: each with the lexicons that it is
    in; entry 0, which stands for anything unknown, and ids of no entry are in none. *)
Theorem C49_tokens : forall dec ids, length (lex_sequence dec ids) = length ids /\
  forall i tok, lex_sequence dec ids !! i = Some tok -> ids !! i = Some tok.1 /\
    forall k, N.testbit tok.2 k = true <-> tok.1 <> 0 /\ exists v, dec !! tok.1 = Some v /\ N.testbit (vv_lexindex v) k = true.
Proof.
  intros dec ids. split; [apply lex_sequence_length|]. intros i tok E. unfold lex_sequence in E. apply list_lookup_fmap_Some in E as (id & E & ->).
  split; [done|]. intros k. cbn [fst snd]. assert (nth_error dec id = dec !! id) as -> by (clear; revert id; induction dec as [|y l IH]; intros [|i]; [done..|apply IH]).
  destruct (Nat.eqb_spec id 0) as [-> |Hid]; [rewrite N.bits_0; split; [done|by intros [? _]]|].
  destruct (dec !! id) as [v|]; [|rewrite N.bits_0; split; [done|by intros (_ & v & ? & _)]].
  split; [intros H; split; [done|by exists v]|by intros (_ & v' & [= ->] & ?)].
Qed.
Print Assumptions C49_tokens.
Definition exIn (n : N) : vocab_value := {| vv_text := []; vv_norm := []; vv_frequency := 0; vv_tokencount := 1; vv_lexindex := n; vv_variants := None; vv_type := VT_NONE |}.
Example C49_tokens_ex : lex_sequence [exIn 1; exIn 2; exIn 3] [2; 0; 9; 1] = [(2, 3%N); (0, 0%N); (9, 0%N); (1, 2%N)].
Proof. by vm_compute. Qed.
(** (not (a or from lexicon 1)) and friends *)
Definition exP1 : pattern_match := PNot (PDisjunction [PVocab 3; PFromLexicon 1]).
Example C49_ex : lex_bounded exP1 /\ ~ holds exP1 (3, 1%N) /\ ~ holds exP1 (4, 2%N) /\ holds exP1 (0, 0%N) /\
  holds PNoLexicon (0, 0%N) /\ pm_matches exP1 exSeq 0 = Ok false /\ pm_matches exP1 exSeq 2 = Ok true.
Proof.
  split; [cbn; by repeat split|]. split; [intros H; apply H; by left|]. split; [intros H; apply H; right; by left|].
  split; [intros [H|[H|H]]; done|]. split; [by left|]. by vm_compute.
Qed.
Definition exR1 : context_rule :=
  {| cr_pattern := [PVocab 3; PFromLexicon 1]; cr_score := f32_1; cr_tag := [7%N]; cr_tagoffset := [(1, 1)] |}.
Example C49_ex_rule : rule_ok exR1 /\
  cr_matches exR1 exSeq 0 (replicate 3 []) = Ok (true, [[]; [PatternResult f32_1 (Some 7%N) 0]; []]) /\
  cr_matches exR1 exSeq 1 (replicate 3 []) = Ok (false, replicate 3 []).
Proof. split; [|by vm_compute]. split; [by repeat constructor|]. split; [|cbn; lia]. repeat constructor; cbn; lia. Qed.

(** * C50: parsing *)
(** A text that writes a pattern is parsed to that pattern. *)
Theorem C50_written : forall ws lexicons encoder p s,
  (forall c, c ∈ [33; 40; 41; 63; 64; 94; 124]%N -> ws c = false) ->
  writes ws lexicons encoder p s -> forall fuel, length s < fuel -> pm_parse ws lexicons encoder fuel s = Ok (Some p).
Proof. exact (fun ws lexicons encoder p s Hws H => parse_written ws lexicons encoder Hws p s H). Qed.
Print Assumptions C50_written.
(** Whatever is accepted is denoted by the text; so a text that denotes nothing
    is rejected. *)
Theorem C50_accepted : forall ws lexicons encoder fuel s p,
  pm_parse ws lexicons encoder fuel s = Ok (Some p) -> denotes ws lexicons encoder p s.
Proof. exact parse_denotes. Qed.
Print Assumptions C50_accepted.
(** Parsing ends on every text, and never panics; more fuel changes nothing. *)
Theorem C50_never_crashes : forall ws lexicons encoder s fuel, length s < fuel ->
  exists o, pm_parse ws lexicons encoder fuel s = Ok o /\
    forall fuel', length s < fuel' -> pm_parse ws lexicons encoder fuel' s = Ok o.
Proof.
  exact (fun ws lexicons encoder s fuel L => match parse_total ws lexicons encoder fuel s L with
    | ex_intro _ o E => ex_intro _ o (conj E (fun fuel' L' => eq_trans (parse_fuel ws lexicons encoder fuel' fuel s L' L) E)) end).
Qed.
Print Assumptions C50_never_crashes.
(** Whatever is accepted speaks about words of the vocabulary and loaded lexicons
    only. *)
Theorem C50_known : forall ws lexicons encoder fuel s p,
  pm_parse ws lexicons encoder fuel s = Ok (Some p) -> known lexicons encoder p.
Proof. exact parse_known. Qed.
Print Assumptions C50_known.
(** A whole rule: patterns with ";" between, tags, and tag ranges (the whole
    pattern for tags without one) become a new last rule; the tag numbers refer to
    the tags in the table, which only grows at the end. *)
Theorem C50_rule : forall ws m ps ss score tags offs rngs,
  (forall c, c ∈ [33; 40; 41; 63; 64; 94; 124]%N -> ws c = false) ->
  ps <> [] -> length ps < 256 -> Forall2 (writes ws (m_lexicons m) (m_encoder m)) ps ss -> Forall (fun s => 59%N ∉ s) ss ->
  Forall (fun t => t <> []) tags -> length (m_tags m) + length tags < N.to_nat 65536 ->
  Forall2 (range_text (length ps)) offs rngs -> length offs <= length tags ->
  exists table ns, m_tags m `prefix_of` table /\ Forall2 (fun n t => table !! N.to_nat n = Some t) ns tags /\
    add_contextrule ws m (semis ss) score tags offs = Ok (with_rules m (m_context_rules m ++
      [{| cr_pattern := ps; cr_score := score; cr_tag := ns;
          cr_tagoffset := rngs ++ replicate (length tags - length offs) (0, length ps) |}]) table, true).
Proof. exact add_contextrule_spec. Qed.
Print Assumptions C50_rule.
(** Adding a rule never panics if no tag ranges are given … *)
Theorem C50_rule_never_crashes : forall ws m s score tags, exists r, add_contextrule ws m s score tags [] = Ok r.
Proof. exact add_contextrule_total. Qed.
Print Assumptions C50_rule_never_crashes.
(** … but a tag range that starts beyond the end of the pattern and has no length
    panics instead of being rejected: "a" with range "2:". *)
Theorem C50_never_crashes_refuted : exists ws m s score tags offs,
  (forall c, c ∈ [33; 40; 41; 63; 64; 94; 124]%N -> ws c = false) /\
  add_contextrule ws m s score tags offs = Panic Overflow.
Proof.
  exists exW, exModel, [97%N], f32_1, [[120%N]], [[50; 58]%N]. split; [|by vm_compute].
  intros c H. repeat (apply elem_of_cons in H as [->|H]; [done|]). inversion H.
Qed.
Print Assumptions C50_never_crashes_refuted.
(** The same from a line of a rule file: "a\t1\tx\t2:". *)
Theorem C50_file_never_crashes_refuted : exists ws parse_f32 m line,
  read_contextrule_line ws parse_f32 m line = Panic Overflow.
Proof. exists exW, (fun _ => Some f32_1), exModel, [97; 9; 49; 9; 120; 9; 50; 58]%N. by vm_compute. Qed.
Print Assumptions C50_file_never_crashes_refuted.
(** Not every text is parsed to the pattern it denotes: "!(a)|!(b)" reads as "not
    a, or not b" and is rejected, because it starts with "!(" and ends with ")". *)
Theorem C50_bracket_pairs_refuted : exists ws lexicons encoder s p,
  (forall c, c ∈ [33; 40; 41; 63; 64; 94; 124]%N -> ws c = false) /\
  denotes ws lexicons encoder p s /\
  forall fuel, length s < fuel -> pm_parse ws lexicons encoder fuel s = Ok None.
Proof.
  exists exW, [], {[ [97%N] := 3; [98%N] := 4 ]}, [33; 40; 97; 41; 124; 33; 40; 98; 41]%N,
    (PDisjunction [PNot (PVocab 3); PNot (PVocab 4)]).
  split; [intros c H; repeat (apply elem_of_cons in H as [->|H]; [done|]); inversion H|]. split.
  - apply (denotes_or _ _ _ _ [[33; 40; 97; 41]; [33; 40; 98; 41]]%N); [cbn; lia|].
    constructor; [|constructor; [|constructor]];
      [apply (denotes_group _ _ _ _ [97%N])|apply (denotes_group _ _ _ _ [98%N])]; by apply denotes_word.
  - intros fuel L. rewrite (parse_fuel _ _ _ fuel 10 _ L) by (cbn; lia). by vm_compute.
Qed.
Print Assumptions C50_bracket_pairs_refuted.
(** "!a | @l.tsv", " !( ?|b)", the two words "a ; !b" with a tag from the second on *)
Lemma exW_special : forall c, c ∈ [33; 40; 41; 63; 64; 94; 124]%N -> exW c = false.
Proof. intros c H; repeat (apply elem_of_cons in H as [->|H]; [done|]); inversion H. Qed.
Lemma ex_word_a : item exW exLex exEnc (PVocab 3) [97%N].
Proof. apply item_word; [|done]. split; [split; cbn; intros c [= <-]; done|]. split; [set_solver|]. split; [done|]. intros c [= <-]. set_solver. Qed.
Lemma ex_word_b : item exW exLex exEnc (PVocab 4) [98%N].
Proof. apply item_word; [|done]. split; [split; cbn; intros c [= <-]; done|]. split; [set_solver|]. split; [done|]. intros c [= <-]. set_solver. Qed.
Lemma ex_lexicon : item exW exLex exEnc (PFromLexicon 0) (64 :: [108; 46; 116; 115; 118])%N.
Proof.
  apply (item_lexicon _ _ _ 0); [split; cbn; intros c [= <-]; done|set_solver|]. split; [|lia].
  eexists. split; [done|]. right. by exists [100%N].
Qed.
Example C50_ex : writes exW exLex exEnc (PDisjunction [PNot (PVocab 3); PFromLexicon 0])
    [33; 97; 32; 124; 32; 64; 108; 46; 116; 115; 118]%N /\
  writes exW exLex exEnc (PNot (PDisjunction [PAny; PVocab 4])) [32; 33; 40; 32; 63; 124; 98; 41]%N /\
  pm_parse exW exLex exEnc 20 [33; 97; 32; 124; 32; 64; 108; 46; 116; 115; 118]%N = Ok (Some (PDisjunction [PNot (PVocab 3); PFromLexicon 0])).
Proof.
  split; [|split; [|by vm_compute]].
  - apply (writes_or _ _ _ _ [[33; 97; 32]; [32; 64; 108; 46; 116; 115; 118]]%N); [cbn; lia|]. constructor; [|constructor; [|constructor]].
    + apply item_not. apply (item_space _ _ _ _ [97%N] [] [32%N]); [constructor|by repeat constructor|apply ex_word_a].
    + apply (item_space _ _ _ _ (64 :: [108; 46; 116; 115; 118])%N [32%N] []); [by repeat constructor|constructor|apply ex_lexicon].
  - apply (writes_space _ _ _ _ [33; 40; 32; 63; 124; 98; 41]%N [32%N] []); [by repeat constructor|constructor|].
    apply (writes_not _ _ _ _ [32; 63; 124; 98]%N). apply (writes_or _ _ _ _ [[32; 63]; [98]]%N); [cbn; lia|].
    constructor; [|constructor; [|constructor]]; [|apply ex_word_b].
    apply (item_space _ _ _ _ [63%N] [32%N] []); [by repeat constructor|constructor|constructor].
Qed.
(** the README's form of a negated disjunction, "!(a|b|)", is not accepted *)
Example C50_ex_readme : pm_parse exW exLex exEnc 20 [33; 40; 97; 124; 98; 124; 41]%N = Ok None.
Proof. by vm_compute. Qed.
(** a word starting with "(" or ending with ")" is a word *)
Example C50_ex_word : pm_parse exW exLex exEnc 20 [97; 41]%N = Ok (Some (PVocab 5)).
Proof. by vm_compute. Qed.
Example C50_ex_rule : Forall2 (range_text 2) [[49; 58]%N] [(1, 1)] /\
  add_contextrule exW exModel [97; 32; 59; 33; 98]%N f32_1 [[120%N]; [121%N]] [[49; 58]%N] =
  Ok (with_rules exModel [{| cr_pattern := [PVocab 3; PNot (PVocab 4)]; cr_score := f32_1; cr_tag := [0; 1]%N;
        cr_tagoffset := [(1, 1); (0, 2)] |}] [[120%N]; [121%N]], true).
Proof.
  split; [|by vm_compute]. repeat constructor. apply (range_from 2 [49%N] 1%N); [set_solver|done|cbn; lia].
Qed.

(** * C51: tokens are claimed once *)
(** Rules are tried position by position, in order, and applied greedily: a rule is
    applied when it fits and none of its tokens was given a result before.  If all
    rules give every token a result, no token is used twice, and the score is the
    average over the tokens of the score of the rule that uses it. *)
Theorem C51_claimed_once : forall m ids, Forall rule_ok (m_context_rules m) -> Forall covering (m_context_rules m) ->
  exists score rs apps scores, test_context_rules m ids = Ok (score, rs) /\
    applied (m_context_rules m) (lex_sequence (m_decoder m) ids) apps /\
    (forall i j a a' k, apps !! i = Some a -> apps !! j = Some a' -> uses a k -> uses a' k -> i = j) /\
    length scores = length ids /\ (forall i s, scores !! i = Some s -> token_score apps i s) /\
    score = if decide (apps = []) then f1 else average scores.
Proof. exact claimed_once. Qed.
Print Assumptions C51_claimed_once.
(** The order of application is determined. *)
Theorem C51_applications_unique : forall rules sequence apps apps',
  applied rules sequence apps -> applied rules sequence apps' -> apps = apps'.
Proof. exact (fun rules sequence apps apps' => greedy_unique sequence [] _ apps apps'). Qed.
Print Assumptions C51_applications_unique.
(** Rules without tags, or whose tag ranges together cover the pattern, give every
    token a result. *)
Theorem C51_covering : forall r, 
  cr_tag r = [] \/ (exists i t o l, cr_tag r !! i = Some t /\ cr_tagoffset r !! i = Some (o, l) /\ o = 0 /\ length (cr_pattern r) <= l) ->
  covering r.
Proof. exact covering_simple. Qed.
Print Assumptions C51_covering.
(** In general, two applications share a token only if the earlier one gave it
    nothing. *)
Theorem C51_shared : forall m ids, Forall rule_ok (m_context_rules m) ->
  exists score rs apps, test_context_rules m ids = Ok (score, rs) /\
    applied (m_context_rules m) (lex_sequence (m_decoder m) ids) apps /\
    forall i j a a' k, i < j -> apps !! i = Some a -> apps !! j = Some a' -> uses a k -> uses a' k -> says a.2 (k - a.1) = [].
Proof. exact shared_tokens. Qed.
Print Assumptions C51_shared.
(** As stated the property fails: after "a ; b" tagging only the second token, the
    first can be used again, here by a rule for "a" alone at the same place. *)
Definition exR2 : context_rule := {| cr_pattern := [PVocab 3]; cr_score := f32_1; cr_tag := []; cr_tagoffset := [] |}.
Theorem C51_claimed_once_refuted : exists rules sequence apps i j a a' k, Forall rule_ok rules /\
  applied rules sequence apps /\ i <> j /\ apps !! i = Some a /\ apps !! j = Some a' /\ uses a k /\ uses a' k.
Proof.
  assert (Forall rule_ok [exR1; exR2]) as Hok.
  { constructor; [apply C49_ex_rule|]. constructor; [|constructor]. split; [by repeat constructor|]. split; [constructor|cbn; lia]. }
  destruct (test_rules_spec [exR1; exR2] exSeq Hok) as (rs & apps & E & Ha & Hb).
  assert (rs = [[PatternResult f32_1 None 0]; [PatternResult f32_1 (Some 7%N) 0]; []]) as ->.
  { vm_compute in E. by injection E as _ <-. }
  destruct Hb as (_ & Hx & _).
  destruct (Hx 0 _ eq_refl) as [|(a & Hin & Hu & Es)]; [done|]. destruct (Hx 1 _ eq_refl) as [|(a' & Hin' & Hu' & Es')]; [done|].
  destruct (applied_rules _ _ _ _ Ha Hin) as [La Ra]. destruct (applied_rules _ _ _ _ Ha Hin') as [La' Ra'].
  destruct a as [b r], a' as [b' r']. cbn in *.
  assert (r = exR2) as ->.
  { apply elem_of_cons in Ra as [->|Ra]; [|by apply elem_of_list_singleton in Ra].
    exfalso. unfold uses in Hu. cbn in Hu. assert (b = 0) as -> by lia. by vm_compute in Es. }
  assert (b = 0) as -> by (unfold uses in Hu; cbn in Hu; lia).
  assert (r' = exR1 /\ b' = 0) as [-> ->].
  { apply elem_of_cons in Ra' as [->|Ra'].
    - split; [done|]. unfold uses in Hu'. cbn in Hu'. destruct b' as [|[|b']]; [done| |lia]. by vm_compute in Es'.
    - apply elem_of_list_singleton in Ra' as ->. unfold uses in Hu'. cbn in Hu'. assert (b' = 1) as -> by lia. by vm_compute in Es'. }
  apply elem_of_list_lookup in Hin as [i Ei]. apply elem_of_list_lookup in Hin' as [j Ej].
  exists [exR1; exR2], exSeq, apps, i, j, (0, exR2), (0, exR1), 0.
  split; [done|]. split; [done|]. split; [intros ->; rewrite Ei in Ej; by injection Ej|].
  split; [done|]. split; [done|]. unfold uses; cbn; lia.
Qed.
Print Assumptions C51_claimed_once_refuted.
(** two covering rules, applied to "a b a" *)
Definition exR3 : context_rule :=
  {| cr_pattern := [PVocab 3; PVocab 4]; cr_score := f32_of_N 2; cr_tag := [7%N]; cr_tagoffset := [(0, 2)] |}.
Definition exModel3 : model := with_rules exModel [exR3; exR2] [].
Example C51_ex : Forall rule_ok (m_context_rules exModel3) /\ Forall covering (m_context_rules exModel3) /\
  test_context_rules exModel3 [3; 4; 3] = Ok (average [f32_of_N 2; f32_of_N 2; f32_1],
    [[PatternResult (f32_of_N 2) (Some 7%N) 0]; [PatternResult (f32_of_N 2) (Some 7%N) 1]; [PatternResult f32_1 None 0]]).
Proof.
  split; [|split].
  - constructor; [|constructor; [|constructor]]; (split; [by repeat constructor|]; split; [repeat constructor; cbn; lia|cbn; lia]).
  - constructor; [|constructor; [|constructor]]; apply C51_covering; [right; exists 0, 7%N, 0, 2; cbn; done|by left].
  - by vm_compute.
Qed.

(** * C52: numbering of tags *)
(** The tags of a token are exactly those of the rules applied there whose range
    contains it, numbered from the start of the range: (sound) every tag comes
    from an application, and its number is the distance to the range's start;
    (complete) every token in a range of an applied rule has the tag. *)
Theorem C52_numbered : forall m ids, Forall rule_ok (m_context_rules m) ->
  exists score rs apps, test_context_rules m ids = Ok (score, rs) /\
    applied (m_context_rules m) (lex_sequence (m_decoder m) ids) apps /\
    length (tags_of rs) = length ids /\
    (forall i ts t n, tags_of rs !! i = Some ts -> (t, n) ∈ ts ->
       exists a j o l, a ∈ apps /\ uses a i /\ cr_tag a.2 !! j = Some t /\ cr_tagoffset a.2 !! j = Some (o, l) /\
         i = a.1 + o + n /\ n < l) /\
    (forall a j t o l n, a ∈ apps -> cr_tag a.2 !! j = Some t -> cr_tagoffset a.2 !! j = Some (o, l) ->
       n < l -> o + n < length (cr_pattern a.2) -> exists ts, tags_of rs !! (a.1 + o + n) = Some ts /\ (t, n) ∈ ts).
Proof. exact numbered. Qed.
Print Assumptions C52_numbered.
(** Rules added without tag ranges satisfy the bounds. *)
Theorem C52_loaded : forall ws m s score tags m' ok, length (m_lexicons m) <= 32 -> length (split_on 59 s) < 256 ->
  Forall rule_ok (m_context_rules m) -> add_contextrule ws m s score tags [] = Ok (m', ok) -> Forall rule_ok (m_context_rules m').
Proof. exact add_contextrule_rule_ok. Qed.
Print Assumptions C52_loaded.
(** Without the bound on ranges, testing panics: a range is added up in 8 bits. *)
Definition exR4 : context_rule :=
  {| cr_pattern := replicate 201 PAny; cr_score := f32_1; cr_tag := [7%N]; cr_tagoffset := [(200, 56)] |}.
Theorem C52_long_range_refuted : exists rules sequence, test_rules rules sequence = Panic Overflow.
Proof. exists [exR4], (replicate 201 (0, 0%N)). by vm_compute. Qed.
Print Assumptions C52_long_range_refuted.
Example C52_ex : tags_of [[PatternResult (f32_of_N 2) (Some 7%N) 0]; [PatternResult (f32_of_N 2) (Some 7%N) 1]; [PatternResult f32_1 None 0]]
  = [[(7%N, 0)]; [(7%N, 1)]; []].
Proof. done. Qed.
