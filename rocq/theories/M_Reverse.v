(** Model of the reverse index and of how search parameters are shown. *)
From Coq Require String Ascii.
From Verif Require Import M_Base M_Anahash M_Float M_Types M_Model M_Cli M_Options.
Import String.StringSyntax Ascii.AsciiSyntax.
From stdpp Require Import options.
#[local] Arguments lit s%string_scope.

(** src/index.rs:15-20 [Variant] *)
Inductive rvariant := Known (id : vocab_id) | Unknown (t : str).
(** src/index.rs:23 [ReverseIndex] *)
Notation reverse_index := (gmap vocab_id (list (rvariant * f64))).

(** src/lib.rs:1759-1785 [add_to_reverse_index], without debug output *)
Definition add_to_reverse_index (m : model) (r : reverse_index) (input : str) (id : vocab_id) (score : f64) : reverse_index :=
  let push v := <[id := match r !! id with Some l => l ++ [(v, score)] | None => [(v, score)] end]> r in
  match m_encoder m !! input with
  | Some k => if k =? id then r else push (Known k)
  | None => push (Unknown input)
  end.

Section show.
  (** [Display] of f64 and f32, [Debug] of f32 *)
  Context (fmt : f64 -> str) (fmt32 debug32 : f32 -> str).
  #[local] Notation whole n := (show (N.of_nat n)).
  Definition truth (b : bool) : str := if b then lit "true" else lit "false".
  (** src/types.rs:74 [#[derive(Debug)]] of [DistanceThreshold] *)
  Definition debug_threshold (t : threshold) : str :=
    match t with
    | TRatio x => lit "Ratio(" ++ debug32 x ++ lit ")"
    | TRatioWithLimit x n => lit "RatioWithLimit(" ++ debug32 x ++ lit ", " ++ whole n ++ lit ")"
    | TAbsolute n => lit "Absolute(" ++ whole n ++ lit ")"
    end.
  (** [writeln!(f, " name={}", value)] *)
  Definition field (s : String.string) (v : str) : str := lit " " ++ lit s ++ lit "=" ++ v ++ newline.
  #[local] Arguments field s%string_scope.
  (** src/types.rs:194-212 [fmt] of [SearchParameters] *)
  Definition display_parameters (P : tool_parameters) : str :=
    let p := tp_search P in
    field "max_anagram_distance" (debug_threshold (p_max_anagram_distance p)) ++
    field "max_edit_distance" (debug_threshold (p_max_edit_distance p)) ++
    field "max_matches" (whole (p_max_matches p)) ++
    field "score_threshold" (fmt (p_score_threshold p)) ++
    field "cutoff_threshold" (fmt (p_cutoff_threshold p)) ++
    field "max_ngram" (whole (p_max_ngram p)) ++
    field "lm_order" (whole (tp_lm_order P)) ++
    field "single_thread" (truth (tp_single_thread P)) ++
    field "max_seq" (whole (p_max_seq p)) ++
    field "freq_weight" (fmt32 (p_freq_weight p)) ++
    field "variantmodel_weight" (fmt32 (p_variantmodel_weight p)) ++
    field "lm_weight" (fmt32 (p_lm_weight p)) ++
    field "contextrules_weight" (fmt32 (p_contextrules_weight p)) ++
    field "consolidate_matches" (truth (tp_consolidate_matches P)) ++
    field "unicodeoffsets" (truth (p_unicodeoffsets p)).
End show.
