(** Specification of the parameter objects of the Python bindings: what the
    keyword arguments and attributes mean by their names. *)
From Coq Require String Ascii.
From Verif Require Import M_Base M_Anahash M_Float M_Types M_Model M_Options M_Python S_Model S_Values S_Cli.
Import String.StringSyntax Ascii.AsciiSyntax.
From stdpp Require Import options.

(** * Values *)
(** Python's whole numbers; [True] is 1 and [False] is 0 *)
Inductive whole : pyval -> Z -> Prop :=
| whole_int z : whole (PyInt z) z
| whole_true : whole (PyBool true) 1
| whole_false : whole (PyBool false) 0.
Definition natural (bound : N) (v : pyval) (n : nat) : Prop := whole v (Z.of_nat n) /\ (N.of_nat n <= bound)%N.
Definition u8_max : N := 255.
Definition usize_max : N := 18446744073709551615.
(** a number: as it is, or the double nearest to a whole number; [float_of_int]
    and [to_f32] are the conversions of IEEE 754, see S_Number.v *)
Definition number (v : pyval) (x : f64) : Prop := v = PyFloat x \/ exists z, whole v z /\ float_of_int z = Some x.
Definition single (v : pyval) (y : f32) : Prop := exists x, number v x /\ y = to_f32 x.
Definition truth (v : pyval) (b : bool) : Prop := v = PyBool b.
(** [None] or a value *)
Definition maybe {A} (R : pyval -> A -> Prop) (v : pyval) (x : option A) : Prop :=
  match x with None => v = PyNone | Some a => R v a end.
(** Thresholds: a whole number up to 255, any other number as a ratio, a pair
    of both, or a text. *)
Inductive threshold_given (parse_f32 : str -> option f32) (v : pyval) : threshold -> Prop :=
| tg_absolute n : natural u8_max v n -> threshold_given parse_f32 v (TAbsolute n)
| tg_ratio x : single v x -> (forall n, ~ natural u8_max v n) -> threshold_given parse_f32 v (TRatio x)
| tg_pair a b x n : v = PyTuple [a; b] -> single a x -> natural u8_max b n -> threshold_given parse_f32 v (TRatioWithLimit x n)
| tg_text s t : v = PyStr s -> threshold_text parse_f32 s t -> threshold_given parse_f32 v t.

(** * Keyword arguments *)
(** Keyword arguments as Python passes them: no name twice. *)
Definition call_of (kws : list (str * pyval)) : Prop := NoDup (map fst kws).
(** [x] is what the argument called [n] stands for, or [d] if there is no such
    argument or its value stands for nothing. *)
Definition takes {A} (kws : list (str * pyval)) (n : String.string) (R : pyval -> A -> Prop) (d x : A) : Prop :=
  (exists v, (name n, v) ∈ kws /\ R v x) \/ ((forall v y, (name n, v) ∈ kws -> ~ R v y) /\ x = d).
Arguments takes {A} kws n%string_scope R d x.

(** An object after keyword arguments (or one assignment): each field is what
    the argument called so stands for, or what it was. *)
Record weights_changed (kws : list (str * pyval)) (w0 w : weights) : Prop := {
  wg_ld : takes kws "ld" number (w_ld w0) (w_ld w);
  wg_lcs : takes kws "lcs" number (w_lcs w0) (w_lcs w);
  wg_prefix : takes kws "prefix" number (w_prefix w0) (w_prefix w);
  wg_suffix : takes kws "suffix" number (w_suffix w0) (w_suffix w);
  wg_case : takes kws "case" number (w_case w0) (w_case w)
}.
Definition stops (v : pyval) (c : stop_criterion) : Prop :=
  truth v true /\ c = StopAtExactMatch \/ truth v false /\ c = Exhaustive.
Section search.
  Context (parse_f32 : str -> option f32) (kws : list (str * pyval)) (P0 P : tool_parameters).
  #[local] Notation p0 := (tp_search P0).
  #[local] Notation p := (tp_search P).
  Record search_changed : Prop := {
    sg_anagram : takes kws "max_anagram_distance" (threshold_given parse_f32) (p_max_anagram_distance p0) (p_max_anagram_distance p);
    sg_edit : takes kws "max_edit_distance" (threshold_given parse_f32) (p_max_edit_distance p0) (p_max_edit_distance p);
    sg_matches : takes kws "max_matches" (natural usize_max) (p_max_matches p0) (p_max_matches p);
    sg_score : takes kws "score_threshold" number (p_score_threshold p0) (p_score_threshold p);
    sg_cutoff : takes kws "cutoff_threshold" number (p_cutoff_threshold p0) (p_cutoff_threshold p);
    sg_stop : takes kws "stop_at_exact_match" stops (p_stop_criterion p0) (p_stop_criterion p);
    sg_ngram : takes kws "max_ngram" (natural u8_max) (p_max_ngram p0) (p_max_ngram p);
    sg_seq : takes kws "max_seq" (natural usize_max) (p_max_seq p0) (p_max_seq p);
    sg_variantmodel : takes kws "variantmodel_weight" single (p_variantmodel_weight p0) (p_variantmodel_weight p);
    sg_lm : takes kws "lm_weight" single (p_lm_weight p0) (p_lm_weight p);
    sg_contextrules : takes kws "contextrules_weight" single (p_contextrules_weight p0) (p_contextrules_weight p);
    sg_freq : takes kws "freq_weight" single (p_freq_weight p0) (p_freq_weight p);
    sg_context : takes kws "context_weight" single (tp_context_weight P0) (tp_context_weight P);
    sg_unicode : takes kws "unicodeoffsets" truth (p_unicodeoffsets p0) (p_unicodeoffsets p);
    sg_thread : takes kws "single_thread" truth (tp_single_thread P0) (tp_single_thread P);
    sg_consolidate : takes kws "consolidate_matches" truth (tp_consolidate_matches P0) (tp_consolidate_matches P);
    sg_order : tp_lm_order P = tp_lm_order P0
  }.
End search.
(** a text that is one of the names, and what it stands for *)
Definition handling (v : pyval) (h : freq_handling) : Prop :=
  v = PyStr (name match h with FSum => "sum" | FMax => "max" | FMin => "min" | FReplace => "replace" end).
Inductive vocabulary_type : pyval -> N -> Prop :=
| vt_none : vocabulary_type (PyStr (name "NONE")) 0
| vt_indexed : vocabulary_type (PyStr (name "INDEXED")) VT_INDEXED
| vt_transparent : vocabulary_type (PyStr (name "TRANSPARENT")) (N.lor VT_TRANSPARENT VT_INDEXED)
| vt_lm : vocabulary_type (PyStr (name "LM")) VT_LM.
Record vocab_changed (kws : list (str * pyval)) (p0 p : vocab_params) : Prop := {
  vg_text : takes kws "text_column" (natural u8_max) (vp_text_column p0) (vp_text_column p);
  vg_freq : takes kws "freq_column" (maybe (natural u8_max)) (vp_freq_column p0) (vp_freq_column p);
  vg_handling : takes kws "freqhandling" handling (vp_freq_handling p0) (vp_freq_handling p);
  vg_type : takes kws "vocabtype" vocabulary_type (vp_vocab_type p0) (vp_vocab_type p);
  vg_index : takes kws "index" (fun v x => natural u8_max v (N.to_nat x)) (vp_index p0) (vp_index p)
}.
(** names that stand for something have to be texts *)
Definition texts_where_needed (kws : list (str * pyval)) : Prop :=
  forall n v, (n, v) ∈ kws -> n = name "freqhandling" \/ n = name "vocabtype" -> exists s, v = PyStr s.

(** the defaults (src/types.rs:42-67, 73-192; src/vocab.rs:121-131) *)
Definition half : f64 := S754_finite false 4503599627370496 (-53).
Definition quarter : f64 := S754_finite false 4503599627370496 (-54).
Definition eighth : f64 := S754_finite false 4503599627370496 (-55).
Definition three32 : f32 := S754_finite false 12582912 (-22).
Definition usual_weights : weights := Weights half eighth eighth eighth eighth.
Definition usual_parameters : tool_parameters :=
  {| tp_search := {| p_max_anagram_distance := TAbsolute 3; p_max_edit_distance := TAbsolute 3; p_max_matches := 20;
       p_score_threshold := quarter; p_cutoff_threshold := f2; p_stop_criterion := Exhaustive; p_max_ngram := 3;
       p_max_seq := N.to_nat 250; p_variantmodel_weight := three32; p_lm_weight := f32_1; p_contextrules_weight := f32_1;
       p_freq_weight := S754_zero false; p_unicodeoffsets := false |};
     tp_single_thread := false; tp_consolidate_matches := true; tp_lm_order := 3; tp_context_weight := S754_zero false |}.
Definition usual_vocab_params : vocab_params :=
  {| vp_text_column := 0; vp_freq_column := Some 1; vp_freq_handling := FMax; vp_vocab_type := VT_INDEXED; vp_index := 0 |}.

(** * Attributes *)
(** What happens on an assignment to the attribute [n] of an object [p] with
    the attributes [mine], and [fixed] ones that can only be read: if the value
    is [acceptable] the object is [changed], otherwise there is an error.  Other
    names are kept by Python and mean nothing. *)
Inductive assigned {P} (mine fixed : list str) (acceptable : Prop) (changed : P -> Prop) (error : exception) (p : P) (n : str) : pyres P -> Prop :=
| as_done p' : n ∈ mine -> acceptable -> changed p' -> assigned mine fixed acceptable changed error p n (Returned p')
| as_refused : n ∈ mine -> ~ acceptable -> assigned mine fixed acceptable changed error p n (Raised error)
| as_fixed : n ∈ fixed -> assigned mine fixed acceptable changed error p n (Raised AttributeError)
| as_other : n ∉ mine -> n ∉ fixed -> assigned mine fixed acceptable changed error p n (Returned p).
Definition of_type {A} (l : list str) (R : pyval -> A -> Prop) (n : str) (v : pyval) : Prop := n ∈ l /\ exists x, R v x.

Definition threshold_attributes : list str := [name "max_anagram_distance"; name "max_edit_distance"].
Definition size_attributes : list str := [name "max_matches"; name "max_seq"].
Definition weight_attributes : list str :=
  [name "context_weight"; name "freq_weight"; name "lm_weight"; name "contextrules_weight"; name "variantmodel_weight"].
Definition flag_attributes : list str := [name "single_thread"; name "consolidate_matches"; name "unicodeoffsets"; name "stop_at_exact_match"].
Definition search_attributes : list str :=
  threshold_attributes ++ size_attributes ++ [name "max_ngram"] ++ weight_attributes ++ flag_attributes.
Definition search_accepts (parse_f32 : str -> option f32) (n : str) (v : pyval) : Prop :=
  of_type threshold_attributes (threshold_given parse_f32) n v \/ of_type size_attributes (natural usize_max) n v \/
  of_type [name "max_ngram"] (natural u8_max) n v \/ of_type weight_attributes single n v \/ of_type flag_attributes truth n v.
Definition search_assigned (parse_f32 : str -> option f32) (P : tool_parameters) (n : str) (v : pyval) : pyres tool_parameters -> Prop :=
  assigned search_attributes [name "score_threshold"; name "cutoff_threshold"] (search_accepts parse_f32 n v)
    (search_changed parse_f32 [(n, v)] P) (if decide (n ∈ threshold_attributes) then ValueError else ConversionError) P n.
Definition weights_assigned (w : weights) (n : str) (v : pyval) : pyres weights -> Prop :=
  assigned [name "ld"; name "lcs"; name "prefix"; name "suffix"; name "case"] [] (exists x, number v x) (weights_changed [(n, v)] w) ConversionError w n.
Definition vocab_assigned (p : vocab_params) (n : str) (v : pyval) : pyres vocab_params -> Prop :=
  assigned [name "text_column"; name "freq_column"; name "index"] []
    (n = name "freq_column" /\ v = PyNone \/ exists x, natural u8_max v x) (vocab_changed [(n, v)] p) ConversionError p n.

(** What an attribute shows. *)
Definition shows {P} (getters : list (str * (P -> pyval))) (p : P) (n : str) (v : pyval) : Prop :=
  exists get, (n, get) ∈ getters /\ v = get p.
(** Every readable attribute shows a value that, given as argument or assigned,
    stands for what the object has. *)
Section readable.
  Context (parse_f32 : str -> option f32) (P : tool_parameters) (get : str -> pyval -> Prop).
  #[local] Notation p := (tp_search P).
  #[local] Notation reads n R x := (exists v, get n v /\ R v x).
  Record readable : Prop := {
    rd_anagram : reads (name "max_anagram_distance") (threshold_given parse_f32) (p_max_anagram_distance p);
    rd_edit : reads (name "max_edit_distance") (threshold_given parse_f32) (p_max_edit_distance p);
    rd_matches : reads (name "max_matches") (natural usize_max) (p_max_matches p);
    rd_score : reads (name "score_threshold") number (p_score_threshold p);
    rd_cutoff : reads (name "cutoff_threshold") number (p_cutoff_threshold p);
    rd_ngram : reads (name "max_ngram") (natural u8_max) (p_max_ngram p);
    rd_seq : reads (name "max_seq") (natural usize_max) (p_max_seq p);
    rd_variantmodel : reads (name "variantmodel_weight") single (p_variantmodel_weight p);
    rd_lm : reads (name "lm_weight") single (p_lm_weight p);
    rd_contextrules : reads (name "contextrules_weight") single (p_contextrules_weight p);
    rd_freq : reads (name "freq_weight") single (p_freq_weight p);
    rd_context : reads (name "context_weight") single (tp_context_weight P);
    rd_unicode : reads (name "unicodeoffsets") truth (p_unicodeoffsets p);
    rd_thread : reads (name "single_thread") truth (tp_single_thread P);
    rd_consolidate : reads (name "consolidate_matches") truth (tp_consolidate_matches P)
  }.
End readable.

(** The values a Python program can hold: floats are doubles. *)
Fixpoint proper (v : pyval) : Prop :=
  match v with
  | PyFloat x => valid_binary 53 1024 x = true
  | PyTuple l | PyList l => foldr (fun v P => proper v /\ P) True l
  | PyDict l => foldr (fun kv P => proper kv.2 /\ P) True l
  | _ => True
  end.
(** What the numbers of an object can be. *)
Definition is_single (x : f32) : Prop := valid_binary 24 128 x = true.
Definition is_double (x : f64) : Prop := valid_binary 53 1024 x = true.
Definition threshold_sound (t : threshold) : Prop :=
  match t with
  | TAbsolute n => (N.of_nat n <= u8_max)%N
  | TRatio x => is_single x
  | TRatioWithLimit x n => is_single x /\ (N.of_nat n <= u8_max)%N
  end.
Record sound_parameters (P : tool_parameters) : Prop := {
  so_anagram : threshold_sound (p_max_anagram_distance (tp_search P));
  so_edit : threshold_sound (p_max_edit_distance (tp_search P));
  so_matches : (N.of_nat (p_max_matches (tp_search P)) <= usize_max)%N;
  so_score : is_double (p_score_threshold (tp_search P));
  so_cutoff : is_double (p_cutoff_threshold (tp_search P));
  so_ngram : (N.of_nat (p_max_ngram (tp_search P)) <= u8_max)%N;
  so_seq : (N.of_nat (p_max_seq (tp_search P)) <= usize_max)%N;
  so_variantmodel : is_single (p_variantmodel_weight (tp_search P));
  so_lm : is_single (p_lm_weight (tp_search P));
  so_contextrules : is_single (p_contextrules_weight (tp_search P));
  so_freq : is_single (p_freq_weight (tp_search P));
  so_context : is_single (tp_context_weight P)
}.
(** thresholds with a limit *)
Definition limited (t : threshold) : Prop := exists x n, t = TRatioWithLimit x n.

(** The documented ways to give a threshold: a whole number from 0 to 255 is
    absolute, a number between 0 and 1 is a ratio, a pair is a ratio with limit;
    nothing else. *)
Definition between_0_1 (x : f32) : Prop := fle f0 x = true /\ fle x f32_1 = true.
Inductive threshold_documented (parse_f32 : str -> option f32) : pyval -> threshold -> Prop :=
| td_absolute z n : Z.of_nat n = z -> (N.of_nat n <= u8_max)%N -> threshold_documented parse_f32 (PyInt z) (TAbsolute n)
| td_ratio y : between_0_1 (to_f32 y) -> threshold_documented parse_f32 (PyFloat y) (TRatio (to_f32 y))
| td_pair y z n : between_0_1 (to_f32 y) -> Z.of_nat n = z -> (N.of_nat n <= u8_max)%N ->
    threshold_documented parse_f32 (PyTuple [PyFloat y; PyInt z]) (TRatioWithLimit (to_f32 y) n)
| td_text s t : threshold_text parse_f32 s t -> threshold_documented parse_f32 (PyStr s) t.
(** What is accepted besides. *)
Inductive threshold_besides : pyval -> threshold -> Prop :=
| tb_bool (b : bool) : threshold_besides (PyBool b) (TAbsolute (if b then 1 else 0))
| tb_int z x : ~ (0 <= z <= 255)%Z -> single (PyInt z) x -> threshold_besides (PyInt z) (TRatio x)
| tb_float y : ~ between_0_1 (to_f32 y) -> threshold_besides (PyFloat y) (TRatio (to_f32 y))
| tb_pair a b x n : single a x -> natural u8_max b n ->
    ~ between_0_1 x \/ (forall y, a <> PyFloat y) \/ (forall z, b <> PyInt z) -> threshold_besides (PyTuple [a; b]) (TRatioWithLimit x n).

(** The objects a Python program can get: made with keyword arguments, then
    changed by assignments. *)
Inductive reached (parse_f32 : str -> option f32) : tool_parameters -> Prop :=
| re_made kws : call_of kws -> (forall n v, (n, v) ∈ kws -> proper v) -> reached parse_f32 (py_parameters parse_f32 kws)
| re_assigned P n v P' : reached parse_f32 P -> proper v -> assign_parameter parse_f32 P n v = Returned P' -> reached parse_f32 P'.
