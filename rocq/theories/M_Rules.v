(** Context rules: src/search.rs:338-525 (patterns, parsing, matching) and
    src/lib.rs:570-763 (loading), 2501-2578 (testing a sequence).

    [char::is_whitespace] (used by [trim]) is a table of the Unicode standard:
    the parameter [ws].  [parse::<f32>] is the parameter [parse_f32]. *)
From Verif Require Import M_Base M_Anahash M_Float M_Types M_Model M_Confusable.
From stdpp Require Import options.

(** [str::trim] *)
Fixpoint trim_start (ws : N -> bool) (s : str) : str :=
  match s with c :: s' => if ws c then trim_start ws s' else s | [] => [] end.
Definition trim (ws : N -> bool) (s : str) : str := reverse (trim_start ws (reverse (trim_start ws s))).

(** src/search.rs:366-371 [PatternMatchResult] *)
Record pattern_result := PatternResult { pr_score : f32; pr_tag : option N; pr_seqnr : nat }.

(** src/search.rs:373-411 [PatternMatch::matches]; a sequence element is a
    vocabulary id with its lexicon bits *)
Fixpoint pm_matches (p : pattern_match) (sequence : list (vocab_id * N)) (index : nat) : res bool :=
  match p with
  | PAny => Ok true
  | PNoLexicon =>
      Ok match nth_error sequence index with
         | Some (id, lexindex) => (lexindex =? 0)%N || (id =? 0)
         | None => false
         end
  | PVocab test =>
      Ok match nth_error sequence index with Some (id, _) => test =? id | None => false end
  | PFromLexicon lextest =>
      match nth_error sequence index with
      | Some (_, lexindex) => let* m := shl1 lextest in Ok (N.land lexindex m =? m)%N
      | None => Ok false
      end
  | PNot q => let* b := pm_matches q sequence index in Ok (negb b)
  | PDisjunction ps =>
      (fix any (l : list pattern_match) : res bool :=
         match l with
         | [] => Ok false
         | q :: l' => let* b := pm_matches q sequence index in if b then Ok true else any l'
         end) ps
  end.

(** src/search.rs:446-454: the lexicon named by [source] *)
Fixpoint find_lexicon (lexicons : list str) (source : str) (i : nat) : option nat :=
  match lexicons with
  | [] => None
  | l :: ls => if bool_decide (source = l) || is_suffix (47%N :: source) l then Some i else find_lexicon ls source (S i)
  end.

(** src/search.rs:413-462 [PatternMatch::parse]; [Ok None] is the [Err] result.
    The texts "?", "^", "!(", ")", "|", "!", "@".  Recursive calls are on shorter
    texts; [fuel] bounds their depth (P_Rules.v: more than the length is enough). *)
Fixpoint pm_parse (ws : N -> bool) (lexicons : list str) (encoder : gmap str vocab_id) (fuel : nat) (s : str)
    : res (option pattern_match) :=
  match fuel with
  | O => Panic OutOfFuel
  | S fuel =>
    let s := trim ws s in
    if bool_decide (s = [63%N]) then Ok (Some PAny)
    else if bool_decide (s = [94%N]) then Ok (Some PNoLexicon)
    else if is_prefix [33; 40]%N s && is_suffix [41%N] s then
      let* p := pm_parse ws lexicons encoder fuel (drop 2 (take (length s - 1) s)) in
      Ok (option_map PNot p)
    else if bool_decide (124%N ∈ s) then
      let* ps :=
        (fix items (l : list str) : res (option (list pattern_match)) :=
           match l with
           | [] => Ok (Some [])
           | x :: l' =>
               let* p := pm_parse ws lexicons encoder fuel x in
               match p with
               | None => Ok None
               | Some p => let* ps := items l' in Ok (option_map (cons p) ps)
               end
           end) (split_on 124 s) in
      Ok (option_map PDisjunction ps)
    else if is_prefix [33%N] s then
      let* p := pm_parse ws lexicons encoder fuel (drop 1 s) in Ok (option_map PNot p)
    else if is_prefix [64%N] s then
      Ok (option_map (fun i => PFromLexicon (N.of_nat (as_u8 i))) (find_lexicon lexicons (drop 1 s) 0))
    else Ok (option_map PVocab (encoder !! s))
  end.

(** addition on u8 *)
Definition u8_add (a b : nat) : res nat := if a + b <? 256 then Ok (a + b) else Panic Overflow.
(** subtraction on u8 *)
Definition u8_sub (a b : nat) : res nat := if b <=? a then Ok (a - b) else Panic Overflow.

(** src/search.rs:483-494: does the rule match here? *)
Fixpoint rule_found (pattern : list pattern_match) (sequence : list (vocab_id * N))
    (results : list (list pattern_result)) (at_ : nat) : res bool :=
  match pattern with
  | [] => Ok true
  | p :: pattern' =>
      let* r := rindex results at_ in
      match r with
      | _ :: _ => Ok false
      | [] => let* b := pm_matches p sequence at_ in
              if b then rule_found pattern' sequence results (S at_) else Ok false
      end
  end.

(** src/search.rs:495-520: the results given to the element at [cursor] *)
Fixpoint tag_results (score : f32) (cursor : nat) (tags : list (N * (nat * nat))) : res (list pattern_result) :=
  match tags with
  | [] => Ok []
  | (tag, (o, l)) :: tags' =>
      let* rest :=
        if o <=? as_u8 cursor then
          let* e := u8_add o l in
          Ok (if as_u8 cursor <? e then [PatternResult score (Some tag) (as_u8 cursor - o)] else [])
        else Ok [] in
      let* more := tag_results score cursor tags' in
      Ok (rest ++ more)
  end.
Definition rule_results (r : context_rule) (cursor : nat) : res (list pattern_result) :=
  match cr_tag r with
  | [] => Ok [PatternResult (cr_score r) None (as_u8 cursor)]
  | _ => tag_results (cr_score r) cursor (combine (cr_tag r) (cr_tagoffset r))
  end.

(** src/search.rs:472-525 [ContextRule::matches]: the result and the updated
    [sequence_result] *)
Definition cr_matches (r : context_rule) (sequence : list (vocab_id * N)) (begin : nat)
    (results : list (list pattern_result)) : res (bool * list (list pattern_result)) :=
  if negb (length sequence =? length results) then Panic AssertFailed
  else if length sequence <? begin + length (cr_pattern r) then Ok (false, results)
  else
    let* found := rule_found (cr_pattern r) sequence results begin in
    if found then
      let* results := rfoldl (fun rs cursor =>
        let* x := rule_results r cursor in Ok (<[begin + cursor := x]> rs)) results (seq 0 (length (cr_pattern r))) in
      Ok (true, results)
    else Ok (false, results).

(** src/lib.rs:2505-2519: the elements of the sequence with their lexicon bits *)
Definition lex_sequence (dec : list vocab_value) (ids : list vocab_id) : list (vocab_id * N) :=
  map (fun id => (id, if id =? 0 then 0%N
                      else match nth_error dec id with Some v => vv_lexindex v | None => 0%N end)) ids.

(** src/lib.rs:2526-2553: all rules at all positions *)
Definition test_at (sequence : list (vocab_id * N)) (st : bool * list (list pattern_result)) (br : nat * context_rule)
    : res (bool * list (list pattern_result)) :=
  let* (b, results) := cr_matches br.2 sequence br.1 st.2 in Ok (st.1 || b, results).
Definition positions (n : nat) (rules : list context_rule) : list (nat * context_rule) :=
  concat (map (fun b => map (pair b) rules) (seq 0 n)).
Definition test_rules (rules : list context_rule) (sequence : list (vocab_id * N))
    : res (bool * list (list pattern_result)) :=
  rfoldl (test_at sequence) (false, replicate (length sequence) []) (positions (length sequence) rules).

(** src/lib.rs:2555-2577: the sum is taken in [f32] *)
Definition element_score (x : list pattern_result) : f32 := match x with r :: _ => pr_score r | [] => f32_1 end.
Definition context_score (found : bool) (results : list (list pattern_result)) : f64 :=
  if found
  then fdiv (to_f64 (foldl (fun a x => f32add a (element_score x)) (S754_zero false) results)) (f64_of_nat (length results))
  else f1.

(** src/lib.rs:2501-2578 [test_context_rules] *)
Definition test_context_rules (m : model) (ids : list vocab_id) : res (f64 * list (list pattern_result)) :=
  let* (found, results) := test_rules (m_context_rules m) (lex_sequence (m_decoder m) ids) in
  Ok (context_score found results, results).

(** src/lib.rs:2321-2334 (in [most_likely_sequence]): the tags of each element *)
Definition tags_of (results : list (list pattern_result)) : list (list (N * nat)) :=
  map (fun l => omap (fun r => match pr_tag r with Some t => Some (t, pr_seqnr r) | None => None end) l) results.

(** * Loading *)
(** src/lib.rs:684-703: the number of a tag, adding it if new *)
Fixpoint find_tag (tags : list str) (tag : str) (i : nat) : option nat :=
  match tags with
  | [] => None
  | t :: ts => if bool_decide (t = tag) then Some i else find_tag ts tag (S i)
  end.
Definition add_tag (tags : list str) (tag : str) : list str * N :=
  match find_tag tags tag 0 with
  | Some i => (tags, as_u16 (N.of_nat i))
  | None => (tags ++ [tag], as_u16 (N.of_nat (length tags)))
  end.
Fixpoint add_tags (tags : list str) (new : list str) : list str * list N :=
  match new with
  | [] => (tags, [])
  | t :: ts => let '(tags, n) := add_tag tags t in let '(tags, ns) := add_tags tags ts in (tags, n :: ns)
  end.

(** src/lib.rs:709-745: one tag offset; [Ok None] is the error.  The pattern
    length is cast to u8 and the subtraction can overflow. *)
Definition parse_tagoffset (plen : nat) (s : str) : res (option (nat * nat)) :=
  let fields := split_on 58 s in
  let tb := match fields with
            | [] | [] :: _ => Some 0
            | f :: _ => option_map N.to_nat (parse_u8 f)
            end in
  let b := default 0 tb in
  let* tl := match nth_error fields 1 with
             | None | Some [] => let* l := u8_sub (as_u8 plen) b in Ok (Some l)
             | Some f => Ok (option_map N.to_nat (parse_u8 f))
             end in
  Ok match tb, tl with Some b, Some l => Some (b, l) | _, _ => None end.

Fixpoint collect_opt {A} (l : list (option A)) : option (list A) :=
  match l with
  | [] => Some []
  | None :: _ => None
  | Some a :: l' => option_map (cons a) (collect_opt l')
  end.

(** src/lib.rs:658-763 [add_contextrule]; the flag is [false] for an [Err].
    Tags are added to the model before the later errors are detected. *)
Definition add_contextrule (ws : N -> bool) (m : model) (pattern : str) (score : f32) (tag tagoffset : list str)
    : res (model * bool) :=
  let* ps := rmapM (fun e => let e := trim ws e in pm_parse ws (m_lexicons m) (m_encoder m) (S (length e)) e)
               (split_on 59 pattern) in
  match collect_opt ps with
  | None => Ok (m, false)
  | Some ps =>
    let '(tags, tag_ids) := add_tags (m_tags m) tag in
    let m := with_rules m (m_context_rules m) tags in
    if existsb (fun t => bool_decide (t = [])) tag then Ok (m, false)
    else
      let* offs := rmapM (parse_tagoffset (length ps)) tagoffset in
      match collect_opt offs with
      | None => Ok (m, false)
      | Some offs =>
        let offs := offs ++ replicate (length tag_ids - length offs) (0, as_u8 (length ps)) in
        match ps with
        | [] => Ok (m, true)
        | _ => Ok (with_rules m (m_context_rules m ++
                 [{| cr_pattern := ps; cr_score := score; cr_tag := tag_ids; cr_tagoffset := offs |}]) tags, true)
        end
      end
  end.

(** src/lib.rs:602-634: semicolon-separated, trimmed, empty parts dropped *)
Definition parts_of (ws : N -> bool) (field : option str) : list str :=
  match field with
  | None => []
  | Some s => List.filter (fun w => negb (bool_decide (w = []))) (map (trim ws) (split_on 59 s))
  end.

(** src/lib.rs:580-655: one line of a context rule file ([false]: an [Err],
    which ends the reading) *)
Definition read_contextrule_line (ws : N -> bool) (parse_f32 : str -> option f32) (m : model) (line : str)
    : res (model * bool) :=
  if bool_decide (line = []) || is_prefix [35%N] line then Ok (m, true)
  else
    match split_on 9 line with
    | pattern :: score :: rest =>
        match pattern with
        | [] => Ok (m, true)
        | _ =>
          match parse_f32 score with
          | None => Ok (m, false)
          | Some score =>
              let tag := parts_of ws (nth_error rest 0) in
              let tagoffset := parts_of ws (nth_error rest 1) in
              let tagoffset' := if (length tag =? 1) && (length tagoffset =? 0) then [[48; 58]%N] else tagoffset in
              if negb (length tag =? length tagoffset') then Ok (m, false)
              else add_contextrule ws m pattern score tag tagoffset'
          end
        end
    | _ => Ok (m, false)
    end.
(** src/lib.rs:570-656 [read_contextrules], given the lines of the file *)
Fixpoint read_contextrules (ws : N -> bool) (parse_f32 : str -> option f32) (m : model) (lines : list str)
    : res (model * bool) :=
  match lines with
  | [] => Ok (m, true)
  | l :: ls =>
      let* (m', ok) := read_contextrule_line ws parse_f32 m l in
      if ok then read_contextrules ws parse_f32 m' ls else Ok (m', false)
  end.
