(** Specification of the reverse index, and of how parameters are shown. *)
From Verif Require Import M_Base M_Anahash M_Float M_Types M_Model M_Options M_Reverse S_Model S_Search.
From stdpp Require Import options.

(** an input, the entry it was matched with, and the score *)
Definition addition : Type := str * vocab_id * f64.
(** The input is the text of the entry. *)
Definition exact (m : model) (x : addition) : Prop := exists v, m_decoder m !! x.1.2 = Some v /\ vv_text v = x.1.1.
(** An input is kept as an entry, if there is one with its text. *)
Inductive stands_for (m : model) (t : str) : rvariant -> Prop :=
| stands_known id v : m_decoder m !! id = Some v -> vv_text v = t -> stands_for m t (Known id)
| stands_unknown : (forall v, v ∈ m_decoder m -> vv_text v <> t) -> stands_for m t (Unknown t).
(** The variants of an entry are the other inputs that were matched with it, in order. *)
Definition reverse_of (m : model) (l : list addition) (r : reverse_index) : Prop :=
  forall id vs, r !! id = Some vs <-> vs <> [] /\ exists xs, selects (fun x => x.1.2 = id /\ ~ exact m x) l xs /\
    Forall2 (fun x v => stands_for m x.1.1 v.1 /\ v.2 = x.2) xs vs.

(** * Parameters *)
(** Numbers are written in one way, without line ends and commas. *)
Record written (ok : spec_float -> Prop) (f : spec_float -> str) : Prop := {
  wr_one : forall x y, ok x -> ok y -> f x = f y -> x = y;
  wr_plain : forall x, ok x -> 10%N ∉ f x /\ 44%N ∉ f x;
}.
Definition threshold_number (t : threshold) : Prop := match t with TRatio x | TRatioWithLimit x _ => single x | TAbsolute _ => True end.
(** The parameters are numbers of their types. *)
Record numbers (P : tool_parameters) : Prop := {
  nu_anagram : threshold_number (p_max_anagram_distance (tp_search P));
  nu_edit : threshold_number (p_max_edit_distance (tp_search P));
  nu_score : double (p_score_threshold (tp_search P));
  nu_cutoff : double (p_cutoff_threshold (tp_search P));
  nu_freq : single (p_freq_weight (tp_search P));
  nu_variants : single (p_variantmodel_weight (tp_search P));
  nu_lm : single (p_lm_weight (tp_search P));
  nu_rules : single (p_contextrules_weight (tp_search P));
}.
