(** The Python bindings: bindings/python/src/lib.rs.

    Python objects are modelled as far as the bindings look at them: [None],
    [bool], [int], [float], [str], [tuple], [list] and [dict] (with keys that are
    texts, in order of insertion).  Subclasses of these, NumPy scalars and
    objects with [__index__] or [__float__] are not modelled.  Keyword arguments
    come as a list of names and values in the order of the call.  What is
    printed to the error stream is left out. *)
From Coq Require String Ascii.
From Verif Require Import M_Base M_Anahash M_Float M_Types M_Model M_Confusable M_ConfList M_Rules M_Search M_Text M_Values M_Matches M_Cli M_Main M_Options.
Import String.StringSyntax Ascii.AsciiSyntax.
From stdpp Require Import options.

Inductive pyval :=
| PyNone | PyBool (b : bool) | PyInt (z : Z) | PyFloat (x : f64) | PyStr (s : str)
| PyTuple (l : list pyval) | PyList (l : list pyval) | PyDict (l : list (str * pyval)).

(** How a call ends: with a value, an exception, or a panic (which PyO3 turns
    into a [PanicException]).  [ConversionError] is the [TypeError] or
    [OverflowError] of a value that cannot be converted. *)
Inductive exception := ConversionError | ValueError | RuntimeError | AttributeError.
Inductive pyres (A : Type) := Returned (a : A) | Raised (e : exception) | Crashed (p : panic).
Global Arguments Returned {A} a.
Global Arguments Raised {A} e.
Global Arguments Crashed {A} p.
Definition pybind {A B} (x : pyres A) (f : A -> pyres B) : pyres B :=
  match x with Returned a => f a | Raised e => Raised e | Crashed p => Crashed p end.
Definition rust {A} (x : res A) : pyres A := match x with Ok a => Returned a | Panic p => Crashed p end.
(** [Err(e) => Err(PyRuntimeError::new_err(..))] for a reader that gives the
    model and whether it succeeded *)
Definition runtime {A} (x : res (A * bool)) : pyres A :=
  match x with Ok (a, true) => Returned a | Ok (_, false) => Raised RuntimeError | Panic p => Crashed p end.

(** * Conversions (PyO3): [None] is the [Err] result *)
(** [extract::<u8>()] ([bound] 255), [extract::<usize>()]: via [__index__] *)
Definition extract_uint (bound : N) (v : pyval) : option nat :=
  match v with
  | PyBool b => Some (if b then 1 else 0)
  | PyInt z => if (0 <=? z)%Z && (z <=? Z.of_N bound)%Z then Some (Z.to_nat z) else None
  | _ => None
  end.
Definition extract_u8 : pyval -> option nat := extract_uint 255.
Definition extract_usize : pyval -> option nat := extract_uint 18446744073709551615.
(** [int.__float__]: rounded to nearest, an error if too large *)
Definition float_of_int (z : Z) : option f64 :=
  match binary_normalize 53 1024 z 0 false with S754_infinity _ => None | x => Some x end.
(** [extract::<f64>()]: [PyFloat_AsDouble] *)
Definition extract_f64 (v : pyval) : option f64 :=
  match v with
  | PyFloat x => Some x
  | PyInt z => float_of_int z
  | PyBool b => float_of_int (if b then 1 else 0)
  | _ => None
  end.
(** [extract::<f32>()]: as f64, then [as f32] *)
Definition extract_f32 (v : pyval) : option f32 := option_map to_f32 (extract_f64 v).
(** [extract::<bool>()] *)
Definition extract_bool (v : pyval) : option bool := match v with PyBool b => Some b | _ => None end.
(** [extract::<Option<T>>()] *)
Definition extract_option {A} (extract : pyval -> option A) (v : pyval) : option (option A) :=
  match v with PyNone => Some None | _ => option_map Some (extract v) end.
(** [extract::<(f32, u8)>()] *)
Definition extract_pair (v : pyval) : option (f32 * nat) :=
  match v with
  | PyTuple [a; b] => match extract_f32 a, extract_u8 b with Some x, Some n => Some (x, n) | _, _ => None end
  | _ => None
  end.

(** [if let Ok(Some(value)) = value.extract() { .. }]: [Some] if so *)
Definition passed {A} (extract : pyval -> option A) (v : pyval) : option A :=
  match extract_option extract v with Some (Some x) => Some x | _ => None end.

(** A table of names with what a value does to an object; [None] if the value
    cannot be converted. *)
Notation table P := (list (str * (pyval -> P -> option P))).
Definition entry {A P} (name : String.string) (convert : pyval -> option A) (set : A -> P -> P) : str * (pyval -> P -> option P) :=
  (lit name, fun v p => option_map (fun x => set x p) (convert v)).
Arguments entry {A P} name%string_scope convert set.
Fixpoint assoc {A} (n : str) (l : list (str * A)) : option A :=
  match l with [] => None | (k, x) :: l' => if bool_decide (n = k) then Some x else assoc n l' end.
(** [for (key, value) in kwargs]: unknown names and unusable values are ignored *)
Definition kwarg {P} (t : table P) (p : P) (kv : str * pyval) : P :=
  match assoc kv.1 t with Some f => default p (f kv.2 p) | None => p end.
Definition with_kwargs {P} (t : table P) (p : P) (kws : list (str * pyval)) : P := foldl (kwarg t) p kws.
(** Assignment to an attribute with a setter.  Without setter: an
    [AttributeError] if there is a getter; other names are kept by Python
    ([pyclass(dict)]) and not looked at. *)
Definition assign {P} (setters : table P) (readable : list str) (p : P) (n : str) (v : pyval) : pyres P :=
  match assoc n setters with
  | Some f => match f v p with Some p' => Returned p' | None => Raised ConversionError end
  | None => if bool_decide (n ∈ readable) then Raised AttributeError else Returned p
  end.

(** * Weights *)
(** src/types.rs:57-67 *)
Definition weights_default : weights :=
  Weights (S754_finite false 4503599627370496 (-53)) (S754_finite false 4503599627370496 (-55)) (S754_finite false 4503599627370496 (-55))
    (S754_finite false 4503599627370496 (-55)) (S754_finite false 4503599627370496 (-55)).
Definition put_ld (x : f64) (w : weights) := Weights x (w_lcs w) (w_prefix w) (w_suffix w) (w_case w).
Definition put_lcs (x : f64) (w : weights) := Weights (w_ld w) x (w_prefix w) (w_suffix w) (w_case w).
Definition put_prefix (x : f64) (w : weights) := Weights (w_ld w) (w_lcs w) x (w_suffix w) (w_case w).
Definition put_suffix (x : f64) (w : weights) := Weights (w_ld w) (w_lcs w) (w_prefix w) x (w_case w).
Definition put_case (x : f64) (w : weights) := Weights (w_ld w) (w_lcs w) (w_prefix w) (w_suffix w) x.
(** bindings/python/src/lib.rs:18-54 [PyWeights::new] *)
Definition weights_kwargs : table weights :=
  [entry "ld" (passed extract_f64) put_ld; entry "lcs" (passed extract_f64) put_lcs; entry "prefix" (passed extract_f64) put_prefix;
   entry "suffix" (passed extract_f64) put_suffix; entry "case" (passed extract_f64) put_case].
Definition py_weights (kws : list (str * pyval)) : weights := with_kwargs weights_kwargs weights_default kws.
(** bindings/python/src/lib.rs:57-76 *)
Definition weights_getters : list (str * (weights -> pyval)) :=
  [(lit "ld", fun w => PyFloat (w_ld w)); (lit "lcs", fun w => PyFloat (w_lcs w)); (lit "prefix", fun w => PyFloat (w_prefix w));
   (lit "suffix", fun w => PyFloat (w_suffix w)); (lit "case", fun w => PyFloat (w_case w))].
(** bindings/python/src/lib.rs:78-102 *)
Definition weights_setters : table weights :=
  [entry "ld" extract_f64 put_ld; entry "lcs" extract_f64 put_lcs; entry "prefix" extract_f64 put_prefix;
   entry "suffix" extract_f64 put_suffix; entry "case" extract_f64 put_case].
(** bindings/python/src/lib.rs:104-112 *)
Definition weights_to_dict (w : weights) : list (str * pyval) :=
  [(lit "ld", PyFloat (w_ld w)); (lit "lcs", PyFloat (w_lcs w)); (lit "prefix", PyFloat (w_prefix w));
   (lit "suffix", PyFloat (w_suffix w)); (lit "case", PyFloat (w_case w))].

(** * Search parameters *)
(** src/types.rs:169-192 *)
Definition search_parameters_default : tool_parameters :=
  ToolParameters (SearchParameters (TAbsolute 3) (TAbsolute 3) 20 (S754_finite false 4503599627370496 (-54)) f2 Exhaustive 3 (N.to_nat 250)
    (S754_finite false 12582912 (-22)) f32_1 f32_1 f0 false) false true 3 f0.

Section put.
  Context (P : tool_parameters).
  Definition put_search (p : search_parameters) : tool_parameters :=
    ToolParameters p (tp_single_thread P) (tp_consolidate_matches P) (tp_lm_order P) (tp_context_weight P).
  #[local] Notation p := (tp_search P).
  Definition put_anagram (x : threshold) := put_search (SearchParameters x (p_max_edit_distance p) (p_max_matches p) (p_score_threshold p) (p_cutoff_threshold p) (p_stop_criterion p)
    (p_max_ngram p) (p_max_seq p) (p_variantmodel_weight p) (p_lm_weight p) (p_contextrules_weight p) (p_freq_weight p) (p_unicodeoffsets p)).
  Definition put_edit (x : threshold) := put_search (SearchParameters (p_max_anagram_distance p) x (p_max_matches p) (p_score_threshold p) (p_cutoff_threshold p) (p_stop_criterion p)
    (p_max_ngram p) (p_max_seq p) (p_variantmodel_weight p) (p_lm_weight p) (p_contextrules_weight p) (p_freq_weight p) (p_unicodeoffsets p)).
  Definition put_matches (x : nat) := put_search (SearchParameters (p_max_anagram_distance p) (p_max_edit_distance p) x (p_score_threshold p) (p_cutoff_threshold p) (p_stop_criterion p)
    (p_max_ngram p) (p_max_seq p) (p_variantmodel_weight p) (p_lm_weight p) (p_contextrules_weight p) (p_freq_weight p) (p_unicodeoffsets p)).
  Definition put_score (x : f64) := put_search (SearchParameters (p_max_anagram_distance p) (p_max_edit_distance p) (p_max_matches p) x (p_cutoff_threshold p) (p_stop_criterion p)
    (p_max_ngram p) (p_max_seq p) (p_variantmodel_weight p) (p_lm_weight p) (p_contextrules_weight p) (p_freq_weight p) (p_unicodeoffsets p)).
  Definition put_cutoff (x : f64) := put_search (SearchParameters (p_max_anagram_distance p) (p_max_edit_distance p) (p_max_matches p) (p_score_threshold p) x (p_stop_criterion p)
    (p_max_ngram p) (p_max_seq p) (p_variantmodel_weight p) (p_lm_weight p) (p_contextrules_weight p) (p_freq_weight p) (p_unicodeoffsets p)).
  Definition put_stop (x : bool) := put_search (SearchParameters (p_max_anagram_distance p) (p_max_edit_distance p) (p_max_matches p) (p_score_threshold p) (p_cutoff_threshold p)
    (if x then StopAtExactMatch else Exhaustive)
    (p_max_ngram p) (p_max_seq p) (p_variantmodel_weight p) (p_lm_weight p) (p_contextrules_weight p) (p_freq_weight p) (p_unicodeoffsets p)).
  Definition put_ngram (x : nat) := put_search (SearchParameters (p_max_anagram_distance p) (p_max_edit_distance p) (p_max_matches p) (p_score_threshold p) (p_cutoff_threshold p) (p_stop_criterion p)
    x (p_max_seq p) (p_variantmodel_weight p) (p_lm_weight p) (p_contextrules_weight p) (p_freq_weight p) (p_unicodeoffsets p)).
  Definition put_seq (x : nat) := put_search (SearchParameters (p_max_anagram_distance p) (p_max_edit_distance p) (p_max_matches p) (p_score_threshold p) (p_cutoff_threshold p) (p_stop_criterion p)
    (p_max_ngram p) x (p_variantmodel_weight p) (p_lm_weight p) (p_contextrules_weight p) (p_freq_weight p) (p_unicodeoffsets p)).
  Definition put_variantmodel (x : f32) := put_search (SearchParameters (p_max_anagram_distance p) (p_max_edit_distance p) (p_max_matches p) (p_score_threshold p) (p_cutoff_threshold p) (p_stop_criterion p)
    (p_max_ngram p) (p_max_seq p) x (p_lm_weight p) (p_contextrules_weight p) (p_freq_weight p) (p_unicodeoffsets p)).
  Definition put_lm (x : f32) := put_search (SearchParameters (p_max_anagram_distance p) (p_max_edit_distance p) (p_max_matches p) (p_score_threshold p) (p_cutoff_threshold p) (p_stop_criterion p)
    (p_max_ngram p) (p_max_seq p) (p_variantmodel_weight p) x (p_contextrules_weight p) (p_freq_weight p) (p_unicodeoffsets p)).
  Definition put_contextrules (x : f32) := put_search (SearchParameters (p_max_anagram_distance p) (p_max_edit_distance p) (p_max_matches p) (p_score_threshold p) (p_cutoff_threshold p) (p_stop_criterion p)
    (p_max_ngram p) (p_max_seq p) (p_variantmodel_weight p) (p_lm_weight p) x (p_freq_weight p) (p_unicodeoffsets p)).
  Definition put_freq (x : f32) := put_search (SearchParameters (p_max_anagram_distance p) (p_max_edit_distance p) (p_max_matches p) (p_score_threshold p) (p_cutoff_threshold p) (p_stop_criterion p)
    (p_max_ngram p) (p_max_seq p) (p_variantmodel_weight p) (p_lm_weight p) (p_contextrules_weight p) x (p_unicodeoffsets p)).
  Definition put_unicode (x : bool) := put_search (SearchParameters (p_max_anagram_distance p) (p_max_edit_distance p) (p_max_matches p) (p_score_threshold p) (p_cutoff_threshold p) (p_stop_criterion p)
    (p_max_ngram p) (p_max_seq p) (p_variantmodel_weight p) (p_lm_weight p) (p_contextrules_weight p) (p_freq_weight p) x).
  Definition put_single (x : bool) := ToolParameters p x (tp_consolidate_matches P) (tp_lm_order P) (tp_context_weight P).
  Definition put_consolidate (x : bool) := ToolParameters p (tp_single_thread P) x (tp_lm_order P) (tp_context_weight P).
  Definition put_context (x : f32) := ToolParameters p (tp_single_thread P) (tp_consolidate_matches P) (tp_lm_order P) x.
End put.

Section parameters.
  (** Rust's [str::parse::<f32>] *)
  Context (parse_f32 : str -> option f32).

  (** bindings/python/src/lib.rs:116-134 [extract_distance_threshold]; [None] is
      the [ValueError] *)
  Definition extract_distance_threshold (v : pyval) : option threshold :=
    match passed extract_pair v with
    | Some (x, limit) => Some (TRatioWithLimit x limit)
    | None =>
        match passed extract_u8 v with
        | Some n => Some (TAbsolute n)
        | None =>
            match passed extract_f32 v with
            | Some x => Some (TRatio x)
            | None => match v with PyStr s => threshold_from_str parse_f32 s | _ => None end
            end
        end
    end.

  #[local] Notation field n c put := (entry n c (fun x P => put P x)).
  (** bindings/python/src/lib.rs:144-258 [PySearchParameters::new] *)
  Definition search_kwargs : table tool_parameters :=
    [field "max_anagram_distance" extract_distance_threshold put_anagram;
     field "max_edit_distance" extract_distance_threshold put_edit;
     field "max_matches" (passed extract_usize) put_matches;
     field "score_threshold" (passed extract_f64) put_score;
     field "cutoff_threshold" (passed extract_f64) put_cutoff;
     field "max_ngram" (passed extract_u8) put_ngram;
     field "max_seq" (passed extract_usize) put_seq;
     field "stop_at_exact_match" (passed extract_bool) put_stop;
     field "single_thread" (passed extract_bool) put_single;
     field "unicodeoffsets" (passed extract_bool) put_unicode;
     field "freq_weight" (passed extract_f32) put_freq;
     field "lm_weight" (passed extract_f32) put_lm;
     field "contextrules_weight" (passed extract_f32) put_contextrules;
     field "variantmodel_weight" (passed extract_f32) put_variantmodel;
     field "context_weight" (passed extract_f32) put_context;
     field "consolidate_matches" (passed extract_bool) put_consolidate].
  Definition py_parameters (kws : list (str * pyval)) : tool_parameters := with_kwargs search_kwargs search_parameters_default kws.

  (** bindings/python/src/lib.rs:347-425: the setters.  For the two thresholds a
      failure is a [ValueError] and not a [ConversionError]; that is in
      [assign_parameter]. *)
  Definition search_setters : table tool_parameters :=
    [field "max_anagram_distance" extract_distance_threshold put_anagram;
     field "max_edit_distance" extract_distance_threshold put_edit;
     field "max_matches" extract_usize put_matches;
     field "max_ngram" extract_u8 put_ngram;
     field "max_seq" extract_usize put_seq;
     field "single_thread" extract_bool put_single;
     field "context_weight" extract_f32 put_context;
     field "freq_weight" extract_f32 put_freq;
     field "lm_weight" extract_f32 put_lm;
     field "contextrules_weight" extract_f32 put_contextrules;
     field "variantmodel_weight" extract_f32 put_variantmodel;
     field "consolidate_matches" extract_bool put_consolidate;
     field "unicodeoffsets" extract_bool put_unicode;
     field "stop_at_exact_match" extract_bool put_stop].
End parameters.

(** bindings/python/src/lib.rs:260-293 *)
Definition threshold_value (t : threshold) : pyval :=
  match t with
  | TAbsolute n => PyInt (Z.of_nat n)
  | TRatio x => PyFloat (to_f64 x)
  | TRatioWithLimit x n => PyDict [(lit "ratio", PyFloat (to_f64 x)); (lit "limit", PyInt (Z.of_nat n))]
  end.
(** bindings/python/src/lib.rs:260-345: the getters *)
Definition search_getters : list (str * (tool_parameters -> pyval)) :=
  [(lit "max_anagram_distance", fun P => threshold_value (p_max_anagram_distance (tp_search P)));
   (lit "max_edit_distance", fun P => threshold_value (p_max_edit_distance (tp_search P)));
   (lit "max_matches", fun P => PyInt (Z.of_nat (p_max_matches (tp_search P))));
   (lit "score_threshold", fun P => PyFloat (p_score_threshold (tp_search P)));
   (lit "cutoff_threshold", fun P => PyFloat (p_cutoff_threshold (tp_search P)));
   (lit "max_ngram", fun P => PyInt (Z.of_nat (p_max_ngram (tp_search P))));
   (lit "max_seq", fun P => PyInt (Z.of_nat (p_max_seq (tp_search P))));
   (lit "single_thread", fun P => PyBool (tp_single_thread P));
   (lit "context_weight", fun P => PyFloat (to_f64 (tp_context_weight P)));
   (lit "freq_weight", fun P => PyFloat (to_f64 (p_freq_weight (tp_search P))));
   (lit "lm_weight", fun P => PyFloat (to_f64 (p_lm_weight (tp_search P))));
   (lit "variantmodel_weight", fun P => PyFloat (to_f64 (p_variantmodel_weight (tp_search P))));
   (lit "contextrules_weight", fun P => PyFloat (to_f64 (p_contextrules_weight (tp_search P))));
   (lit "consolidate_matches", fun P => PyBool (tp_consolidate_matches P));
   (lit "unicodeoffsets", fun P => PyBool (p_unicodeoffsets (tp_search P)))].
(** bindings/python/src/lib.rs:427-445 [to_dict] *)
Definition search_to_dict (P : tool_parameters) : list (str * pyval) :=
  [(lit "max_anagram_distance", threshold_value (p_max_anagram_distance (tp_search P)));
   (lit "max_edit_distance", threshold_value (p_max_edit_distance (tp_search P)));
   (lit "max_matches", PyInt (Z.of_nat (p_max_matches (tp_search P))));
   (lit "score_threshold", PyFloat (p_score_threshold (tp_search P)));
   (lit "cutoff_threshold", PyFloat (p_cutoff_threshold (tp_search P)));
   (lit "max_ngram", PyInt (Z.of_nat (p_max_ngram (tp_search P))));
   (lit "max_seq", PyInt (Z.of_nat (p_max_seq (tp_search P))));
   (lit "single_thread", PyBool (tp_single_thread P));
   (lit "context_weight", PyFloat (to_f64 (tp_context_weight P)));
   (lit "freq_weight", PyFloat (to_f64 (p_freq_weight (tp_search P))));
   (lit "lm_weight", PyFloat (to_f64 (p_lm_weight (tp_search P))));
   (lit "contextrules_weight", PyFloat (to_f64 (p_contextrules_weight (tp_search P))));
   (lit "variantmodel_weight", PyFloat (to_f64 (p_variantmodel_weight (tp_search P))));
   (lit "consolidate_matches", PyBool (tp_consolidate_matches P));
   (lit "unicodeoffsets", PyBool (p_unicodeoffsets (tp_search P)))].
(** an assignment to an attribute *)
Definition assign_parameter (parse_f32 : str -> option f32) (P : tool_parameters) (n : str) (v : pyval) : pyres tool_parameters :=
  match assign (search_setters parse_f32) (map fst search_getters) P n v with
  | Raised ConversionError => Raised (if bool_decide (n ∈ [lit "max_anagram_distance"; lit "max_edit_distance"]) then ValueError else ConversionError)
  | x => x
  end.

(** * Vocabulary parameters *)
Definition put_text_column (x : nat) (p : vocab_params) := VocabParams x (vp_freq_column p) (vp_freq_handling p) (vp_vocab_type p) (vp_index p).
Definition put_freq_column (x : option nat) (p : vocab_params) := VocabParams (vp_text_column p) x (vp_freq_handling p) (vp_vocab_type p) (vp_index p).
Definition put_freq_handling (x : freq_handling) (p : vocab_params) := VocabParams (vp_text_column p) (vp_freq_column p) x (vp_vocab_type p) (vp_index p).
Definition put_vocab_type (x : N) (p : vocab_params) := VocabParams (vp_text_column p) (vp_freq_column p) (vp_freq_handling p) x (vp_index p).
Definition put_index (x : nat) (p : vocab_params) := VocabParams (vp_text_column p) (vp_freq_column p) (vp_freq_handling p) (vp_vocab_type p) (N.of_nat x).
(** bindings/python/src/lib.rs:478-495, 496-508: the names of the values *)
Definition freqhandling_names : list (str * freq_handling) := [(lit "sum", FSum); (lit "max", FMax); (lit "min", FMin); (lit "replace", FReplace)].
Definition vocabtype_names : list (str * N) :=
  [(lit "NONE", VT_NONE); (lit "INDEXED", VT_INDEXED); (lit "TRANSPARENT", N.lor VT_TRANSPARENT VT_INDEXED); (lit "LM", VT_LM)].
(** bindings/python/src/lib.rs:463-477 *)
Definition vocab_kwargs : table vocab_params :=
  [entry "text_column" (passed extract_u8) put_text_column;
   entry "freq_column" (passed (extract_option extract_u8)) put_freq_column;
   entry "index" (passed extract_u8) put_index].
(** bindings/python/src/lib.rs:456-516 [PyVocabParams::new]; [value.cast()?]
    ends the call if the value is not a text *)
Definition vocab_kwarg (p : vocab_params) (kv : str * pyval) : pyres vocab_params :=
  if bool_decide (kv.1 = lit "freqhandling") then
    match kv.2 with
    | PyStr s => Returned (match assoc s freqhandling_names with Some x => put_freq_handling x p | None => p end)
    | _ => Raised ConversionError
    end
  else if bool_decide (kv.1 = lit "vocabtype") then
    match kv.2 with
    | PyStr s => Returned (match assoc s vocabtype_names with Some x => put_vocab_type x p | None => p end)
    | _ => Raised ConversionError
    end
  else Returned (kwarg vocab_kwargs p kv).
Fixpoint vocab_from (p : vocab_params) (kws : list (str * pyval)) : pyres vocab_params :=
  match kws with [] => Returned p | kv :: kws' => pybind (vocab_kwarg p kv) (fun p => vocab_from p kws') end.
Definition py_vocab_params (kws : list (str * pyval)) : pyres vocab_params := vocab_from vocab_params_default kws.
(** bindings/python/src/lib.rs:518-545: getters and setters *)
Definition vocab_getters : list (str * (vocab_params -> pyval)) :=
  [(lit "text_column", fun p => PyInt (Z.of_nat (vp_text_column p)));
   (lit "freq_column", fun p => match vp_freq_column p with Some n => PyInt (Z.of_nat n) | None => PyNone end);
   (lit "index", fun p => PyInt (Z.of_N (vp_index p)))].
Definition vocab_setters : table vocab_params :=
  [entry "text_column" extract_u8 put_text_column; entry "freq_column" (extract_option extract_u8) put_freq_column;
   entry "index" extract_u8 put_index].

(** * Results *)
Section results.
  Context (m : model) (freq_weight : f32).
  (** bindings/python/src/lib.rs:554-588 [variantresult_to_dict] *)
  Definition result_dict (r : variant_result) : res pyval :=
    let* v := rexpect (get_vocab m (vr_id r)) in
    let* via := match vr_via r with
      | Some id => let* w := rexpect (get_vocab m id) in Ok [(lit "via", PyStr (vv_text w))]
      | None => Ok []
      end in
    let* ls := lexicons_of m v in
    Ok (PyDict ([(lit "text", PyStr (vv_text v)); (lit "score", PyFloat (vr_score freq_weight r)); (lit "dist_score", PyFloat (vr_dist r));
      (lit "freq_score", PyFloat (vr_freq r))] ++ via ++ [(lit "lexicons", PyList (map PyStr ls))])).

  (** bindings/python/src/lib.rs:698-701 [__contains__] *)
  Definition py_contains (text : str) : res bool := has m text.
  (** bindings/python/src/lib.rs:704-717 [find_variants], the lookup given *)
  Definition py_find_variants (lookup : str -> res (list variant_result)) (input : str) : res pyval :=
    let* rs := lookup input in
    let* ds := rmapM result_dict rs in
    Ok (PyList ds).
  (** bindings/python/src/lib.rs:720-750 [find_variants_par]; that the schedule
      does not matter is a theorem (M_Par.v) *)
  Definition py_find_variants_par (lookup : str -> res (list variant_result)) (inputs : list str) : res pyval :=
    let* output := rmapM (fun input => let* rs := lookup input in Ok (input, rs)) inputs in
    let* ds := rmapM (fun x : str * list variant_result =>
      let* vs := rmapM result_dict x.2 in
      Ok (PyDict [(lit "input", PyStr x.1); (lit "variants", PyList vs)])) output in
    Ok (PyList ds).
  (** bindings/python/src/lib.rs:762-802: one match *)
  Definition match_dict (x : tmatch) : res pyval :=
    let* tags := match tm_tag x with
      | [] => Ok []
      | _ =>
          let zs := zip (tm_tag x) (tm_seqnr x) in
          let* names := rmapM (fun z : N * nat => rexpect (m_tags m !! N.to_nat z.1)) zs in
          Ok [(lit "tag", PyList (map PyStr names)); (lit "seqnr", PyList (map (fun z : N * nat => PyInt (Z.of_nat z.2)) zs))]
      end in
    let* vs := match tm_variants x with Some l => rmapM result_dict (listed (tm_selected x) l) | None => Ok [] end in
    Ok (PyDict ([(lit "input", PyStr (tm_text x));
      (lit "offset", PyDict [(lit "begin", PyInt (Z.of_nat (tm_begin x))); (lit "end", PyInt (Z.of_nat (tm_end x)))])] ++
      tags ++ [(lit "variants", PyList vs)])).
  (** bindings/python/src/lib.rs:752-805 [find_all_matches], the search given *)
  Definition py_find_all_matches (search : str -> res (list tmatch)) (text : str) : res pyval :=
    let* ms := search text in
    let* ds := rmapM match_dict ms in
    Ok (PyList ds).
End results.

(** * Sessions *)
(** calls of the methods of a [VariantModel] that change it *)
Inductive py_call :=
| CBuild                                                        (* build() *)
| CAdd (text : str) (freq : option N) (p : vocab_params)        (* add_to_vocabulary(text, frequency, params) *)
| CVocabulary (name : str) (p : vocab_params)                   (* read_vocabulary(filename, params) *)
| CLexicon (name : str)                                         (* read_lexicon(filename) *)
| CLanguageModel (name : str)                                   (* read_lm(filename) *)
| CVariantList (name : str) (transparent : bool)                (* read_variants(filename, transparent) *)
| CConfusables (name : str)                                     (* read_confusablelist(filename) *)
| CRules (name : str)                                           (* read_contextrules(filename) *)
| CRule (pattern : str) (score : f32) (tag tagoffset : list str) (* add_contextrule(pattern, score, tag, tagoffset) *)
| CEarly.                                                       (* set_confusables_before_pruning() *)

Section session.
  Context (ws : N -> bool) (parse_f64 : str -> option f64) (parse_f32 : str -> option f32).
  Context (parse_script : str -> option (list edit_instruction)).
  Context (order : list (N * node) -> list (N * node)) (order' : list (str * vocab_id) -> list (str * vocab_id)).
  Context (fs : str -> option (list (option str))).

  (** a file that is read; a [RuntimeError] if it cannot be opened *)
  Definition py_open {A} (name : str) (f : file -> pyres A) : pyres A :=
    match fs name with Some ls => f (File name (omap id ls)) | None => Raised RuntimeError end.
  (** bindings/python/src/lib.rs:593-598 [new]: the alphabet has to be there *)
  Definition py_model (alphabet : str) (w : weights) : pyres model :=
    rust (let* ls := rexpect (fs alphabet) in Ok (model_new ws ls w)).
  (** bindings/python/src/lib.rs:603-696, 809-811 *)
  Definition py_step (m : model) (c : py_call) : pyres model :=
    match c with
    | CBuild => rust (build order order' m)
    | CAdd t f p => rust (let* (m', _) := add_to_vocabulary m t f p in Ok m')
    | CVocabulary n p => py_open n (fun f => rust (read_vocabulary m (f_name f) (f_lines f) p))
    | CLexicon n => py_open n (fun f => rust (read_vocabulary m (f_name f) (f_lines f) vocab_params_default))
    | CLanguageModel n => py_open n (fun f => rust (read_vocabulary m (f_name f) (f_lines f) lm_params))
    | CVariantList n t => py_open n (fun f => rust (read_variants parse_f64 m (f_name f) (f_lines f) (Some vocab_params_default) t))
    | CConfusables n => py_open n (fun f => runtime (read_confusablelist parse_script parse_f64 m (f_lines f)))
    | CRules n => py_open n (fun f => runtime (read_contextrules ws parse_f32 m (f_lines f)))
    | CRule pat sc tag off => runtime (add_contextrule ws m pat sc tag off)
    | CEarly => Returned (with_confusables m (m_confusables m) true)
    end.
  Fixpoint py_steps (m : model) (cs : list py_call) : pyres model :=
    match cs with [] => Returned m | c :: cs' => pybind (py_step m c) (fun m' => py_steps m' cs') end.
End session.
