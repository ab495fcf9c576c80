(** Learning variants from text: src/lib.rs:1030-1139. *)
From Verif Require Import M_Base M_Utf8 M_Anahash M_Iter M_Float M_Types M_Model M_Values M_Search M_Text M_Rules M_Matches.
From stdpp Require Import options.

(** src/lib.rs:1078-1080 *)
Definition learn_params : vocab_params := with_params_type vocab_params_default VT_TRANSPARENT.

Section learn.
  (** the lookup of one string ([find_variants]) and the search in a text
      ([find_all_matches]), in the model as it is before learning *)
  Context (lookup : str -> res (list variant_result)) (search : str -> res (list tmatch)).

  (** src/lib.rs:1046-1055: the selected variant of a match, with its text *)
  Definition learn_match (x : tmatch) : option (str * variant_result) :=
    match tm_variants x, tm_selected x with
    | Some vs, Some i => match vs !! i with Some r => Some (tm_text x, r) | None => None end
    | _, _ => None
    end.
  (** src/lib.rs:1030-1059 [find_variants_for_learning] *)
  Definition find_variants_for_learning (strict : bool) (input : str) : res (list (str * variant_result)) :=
    if strict then let* rs := lookup input in Ok (map (pair input) rs)
    else let* ms := search input in Ok (omap learn_match ms).

  (** src/lib.rs:1103-1129: one pair of input and result *)
  Definition learn_one (st : model * nat * option str) (x : str * variant_result) : res (model * nat * option str) :=
    let '(m, count, prev) := st in
    let '(input, result) := x in
    let* mi :=
      match m_encoder m !! input with
      | Some id =>
          let* item := rexpect (m_decoder m !! id) in
          let* f := if bool_decide (prev = Some input) then Ok (vv_frequency item) else u32_add (vv_frequency item) 1%N in
          Ok (with_vocab m (<[id := VocabValue (vv_text item) (vv_norm item) f (vv_tokencount item) (vv_lexindex item) (vv_variants item) (vv_type item)]>
                (m_decoder m)) (m_encoder m), id)
      | None => add_to_vocabulary m input (Some 1%N) learn_params
      end in
    let '(m, id) := mi in
    if vr_id result =? id then Ok (m, count, Some input)
    else
      let '(m, added) := add_variant_by_id m (vr_id result) id (vr_dist result) in
      Ok (m, if added then S count else count, Some input).

  (** src/lib.rs:1062-1139 [learn_variants].  The lookups of all inputs come
      first, in order of the inputs also when done in parallel (C47). *)
  Definition learn_variants (order : list (N * node) -> list (N * node)) (order' : list (str * vocab_id) -> list (str * vocab_id))
      (m : model) (strict auto_build : bool) (inputs : list str) : res (model * nat) :=
    let* all := rmapM (find_variants_for_learning strict) inputs in
    let* st := rfoldl learn_one (m, 0, None) (concat all) in
    let '(m, count, _) := st in
    if auto_build then let* m := build order order' m in Ok (m, count) else Ok (m, count).
End learn.
