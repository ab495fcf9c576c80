(** Data types of src/types.rs, src/vocab.rs, src/confusables.rs,
    src/search.rs, src/index.rs, and the model record of src/lib.rs. *)
From stdpp Require Export gmap.
From Verif Require Import M_Base M_Anahash M_Float.
From stdpp Require Import options.

(** src/types.rs:12 [VocabId] (u64); used as an index into the decoder. *)
Notation vocab_id := nat.

(** src/types.rs:316-323 [VariantReference] *)
Inductive variant_ref :=
| ReferenceFor (id : vocab_id) (score : f64)
| VariantOf (id : vocab_id) (score : f64).

(** src/vocab.rs:31-48 [VocabType] (bitflags on u8) *)
Definition VT_NONE : N := 0.
Definition VT_INDEXED : N := 1.
Definition VT_LM : N := 2.
Definition VT_TRANSPARENT : N := 4.

(** src/vocab.rs:51-55 [VocabType::check] *)
Definition vt_check (self test : N) : bool := (N.land self test =? test)%N.

(** src/vocab.rs:7-29 [VocabValue] *)
Record vocab_value := VocabValue {
  vv_text : str;
  vv_norm : list nat;
  vv_frequency : N;                        (* u32 *)
  vv_tokencount : nat;                     (* u8 *)
  vv_lexindex : N;                         (* u32 *)
  vv_variants : option (list variant_ref);
  vv_type : N;
}.

(** [text.chars().filter(|c| *c == ' ').count()] *)
Definition count_spaces (t : str) : nat := length (List.filter (fun c => (c =? 32)%N) t).

(** src/vocab.rs:64-75 [VocabValue::new] *)
Definition vocab_value_new (text : str) (vocabtype : N) : vocab_value :=
  {| vv_text := text; vv_norm := []; vv_frequency := 1;
     vv_tokencount := as_u8 (count_spaces text); vv_lexindex := 0;
     vv_variants := None; vv_type := vocabtype |}.

(** [1 << index] on [u32] (panics with overflow checks if [index >= 32]) *)
Definition shl1 (index : N) : res N :=
  if (index <? 32)%N then Ok (N.shiftl 1 index) else Panic Overflow.

(** src/vocab.rs:77-79 [in_lexicon] *)
Definition in_lexicon (v : vocab_value) (index : N) : res bool :=
  let* m := shl1 index in Ok (N.land (vv_lexindex v) m =? m)%N.

(** src/vocab.rs:81-89 [lexindex_as_vec]: [for i in 0..31] *)
Definition lexindex_as_vec (v : vocab_value) : res (list N) :=
  rfoldl (fun acc i =>
    let* b := in_lexicon v (N.of_nat i) in
    Ok (if b then acc ++ [N.of_nat i] else acc)) [] (seq 0 31).

(** src/vocab.rs:100-106 [FrequencyHandling] *)
Inductive freq_handling := FSum | FMax | FMin | FReplace.

(** src/vocab.rs:108-119 [VocabParams] *)
Record vocab_params := VocabParams {
  vp_text_column : nat;
  vp_freq_column : option nat;
  vp_freq_handling : freq_handling;
  vp_vocab_type : N;
  vp_index : N;                            (* u8 *)
}.

(** src/vocab.rs:121-131 [Default for VocabParams] *)
Definition vocab_params_default : vocab_params :=
  {| vp_text_column := 0; vp_freq_column := Some 1; vp_freq_handling := FMax;
     vp_vocab_type := VT_INDEXED; vp_index := 0 |}.

(** src/vocab.rs:145-147 *)
Definition BOS : vocab_id := 0.
Definition EOS : vocab_id := 1.
Definition UNK : vocab_id := 2.

(** The texts "<bos>", "<eos>", "<unk>". *)
Definition bos_text : str := [60; 98; 111; 115; 62]%N.
Definition eos_text : str := [60; 101; 111; 115; 62]%N.
Definition unk_text : str := [60; 117; 110; 107; 62]%N.

(** src/types.rs:40-74 [Weights] *)
Record weights := Weights {
  w_ld : f64; w_lcs : f64; w_prefix : f64; w_suffix : f64; w_case : f64;
}.
Definition weights_sum (w : weights) : f64 :=
  fadd (fadd (fadd (fadd (w_ld w) (w_lcs w)) (w_prefix w)) (w_suffix w)) (w_case w).

(** sesdiff's [EditInstruction] (external crate; only its shape is used) *)
Inductive edit_instruction :=
| Insertion (s : str)
| Deletion (s : str)
| Identity (s : str)
| InsertionOptions (v : list str)
| DeletionOptions (v : list str)
| IdentityOptions (v : list str).

(** src/confusables.rs:5-11 [Confusable] *)
Record confusable := Confusable {
  cf_editscript : list edit_instruction;
  cf_weight : f64;
  cf_strictbegin : bool;
  cf_strictend : bool;
}.

(** src/search.rs:338-352 [PatternMatch] *)
Inductive pattern_match :=
| PVocab (id : vocab_id)
| PAny
| PNoLexicon
| PFromLexicon (index : N)
| PNot (p : pattern_match)
| PDisjunction (ps : list pattern_match).

(** src/search.rs:354-363 [ContextRule] *)
Record context_rule := ContextRule {
  cr_pattern : list pattern_match;
  cr_score : f32;
  cr_tag : list N;                         (* u16 *)
  cr_tagoffset : list (nat * nat);         (* (u8, u8) *)
}.

(** src/types.rs:368-377 [NGram] *)
Inductive ngram :=
| NEmpty
| NUni (a : vocab_id)
| NBi (a b : vocab_id)
| NTri (a b c : vocab_id)
| NQuad (a b c d : vocab_id)
| NQuint (a b c d e : vocab_id).

(** src/types.rs:406-426 [to_vec] *)
Definition ng_to_vec (n : ngram) : list vocab_id :=
  match n with
  | NEmpty => []
  | NUni a => [a]
  | NBi a b => [a; b]
  | NTri a b c => [a; b; c]
  | NQuad a b c d => [a; b; c; d]
  | NQuint a b c d e => [a; b; c; d; e]
  end.

(** src/types.rs:380-390 [from_list]; [None] is the [Err] result *)
Definition ng_from_list (v : list vocab_id) : option ngram :=
  match v with
  | [] => Some NEmpty
  | [a] => Some (NUni a)
  | [a; b] => Some (NBi a b)
  | [a; b; c] => Some (NTri a b c)
  | [a; b; c; d] => Some (NQuad a b c d)
  | [a; b; c; d; e] => Some (NQuint a b c d e)
  | _ => None
  end.

(** derived [Eq]/[Hash] of [NGram] *)
Global Instance ngram_eq_dec : EqDecision ngram.
Proof. solve_decision. Defined.
Global Instance ngram_countable : Countable ngram.
Proof. refine (inj_countable ng_to_vec ng_from_list _). by intros []. Defined.

(** src/index.rs:7-12 [AnaIndexNode] *)
Record node := Node { nd_instances : list vocab_id; nd_charcount : N }.

(** src/lib.rs:44-100 [VariantModel].  [debug] only controls logging and is
    omitted. *)
Record model := Model {
  m_alphabet : alphabet;
  m_decoder : list vocab_value;
  m_encoder : gmap str vocab_id;
  m_index : gmap N node;
  m_sortedindex : gmap N (list N);
  m_ngrams : gmap ngram N;
  m_freq_sum : list N;
  m_have_freq : bool;
  m_have_lm : bool;
  m_context_rules : list context_rule;
  m_tags : list str;
  m_weights : weights;
  m_lexicons : list str;
  m_confusables : list confusable;
  m_confusables_before_pruning : bool;
}.

(** src/types.rs:325-332 [VariantResult] *)
Record variant_result := VariantResult {
  vr_id : vocab_id;
  vr_dist : f64;
  vr_freq : f64;
  vr_via : option vocab_id;
}.

(** src/types.rs:290-305 [Distance] *)
Record distance := Distance {
  d_ld : nat;          (* u8 *)
  d_lcs : N;           (* u16 *)
  d_prefixlen : N;     (* u16 *)
  d_suffixlen : N;     (* u16 *)
  d_samecase : bool;
}.

(** src/types.rs:75-84 [DistanceThreshold] *)
Inductive threshold :=
| TRatio (x : f32)
| TRatioWithLimit (x : f32) (limit : nat)
| TAbsolute (x : nat).

(** src/types.rs:307-313 [StopCriterion] *)
Inductive stop_criterion := Exhaustive | StopAtExactMatch.

(** src/types.rs:110-169 [SearchParameters].  [context_weight] is read nowhere
    (its only use is commented out). *)
Record search_parameters := SearchParameters {
  p_max_anagram_distance : threshold;
  p_max_edit_distance : threshold;
  p_max_matches : nat;
  p_score_threshold : f64;
  p_cutoff_threshold : f64;
  p_stop_criterion : stop_criterion;
  p_max_ngram : nat;
  p_max_seq : nat;
  p_variantmodel_weight : f32;
  p_lm_weight : f32;
  p_contextrules_weight : f32;
  p_freq_weight : f32;
  p_unicodeoffsets : bool;
}.
