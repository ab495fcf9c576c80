(** Specification of learning. *)
From Verif Require Import M_Base M_Utf8 M_Anahash M_Iter M_Float M_Types M_Model M_Values M_Search M_Text M_Matches M_Learn S_Model.
From stdpp Require Import options.

(** How often [t] starts to occur in a list; [prev] comes before it. *)
Fixpoint starts (t : str) (prev : option str) (l : list str) : nat :=
  match l with
  | [] => 0
  | s :: l' => (if decide (s = t /\ prev <> Some t) then 1 else 0) + starts t (Some s) l'
  end.

(** The links that pairs of an input and a result stand for: the result is the
    reference, the input its variant. *)
Definition links_for (m : model) (l : list (str * variant_result)) : list link :=
  map (fun x => (vr_id x.2, default 0 (m_encoder m !! x.1), vr_dist x.2)) l.

(** The entry [v] with number [id] becomes [v']: its frequency grows by [k], and
    the links [L] that concern it are added. *)
Record entry_learned (L : list link) (k : nat) (id : vocab_id) (v v' : vocab_value) : Prop := {
  el_text : vv_text v' = vv_text v;
  el_norm : vv_norm v' = vv_norm v;
  el_count : vv_tokencount v' = vv_tokencount v;
  el_lexindex : vv_lexindex v' = vv_lexindex v;
  el_type : vv_type v' = vv_type v;
  el_frequency : vv_frequency v' = (vv_frequency v + N.of_nat k)%N;
  el_references : stored_references v' = stored_references v ++ declared_references id L;
  el_variants : stored_variants v' = stored_variants v ++ first_mentions (map fst (stored_variants v)) (declared_variants id L);
}.

(** A model [m] from which [m'] arises by learning the pairs [l], after [prev]:
    every input has an entry, new ones are transparent and not searchable; the
    rest of the model is as before. *)
Record learned (prev : option str) (l : list (str * variant_result)) (m m' : model) : Prop := {
  le_rest : m' = with_vocab m (m_decoder m') (m_encoder m');
  le_inverse : lookups_inverse m';
  le_old : forall id v, m_decoder m !! id = Some v ->
    exists v', m_decoder m' !! id = Some v' /\ entry_learned (links_for m' l) (starts (vv_text v) prev (map fst l)) id v v';
  le_new : forall id v', m_decoder m' !! id = Some v' -> m_decoder m !! id = None ->
    vv_text v' ∈ map fst l /\ m_encoder m !! vv_text v' = None /\
    exists v, new_item (m_alphabet m) (vv_text v') 0 learn_params = Ok v /\
      entry_learned (links_for m' l) (starts (vv_text v') prev (map fst l)) id v v';
  le_inputs : forall s, s ∈ map fst l -> is_Some (m_encoder m' !! s);
}.
(** the pairs where the input is not the result itself *)
Definition different (m : model) (l : list (str * variant_result)) : list (str * variant_result) :=
  filter (fun x => m_encoder m !! x.1 <> Some (vr_id x.2)) l.

(** No entry is a variant of itself. *)
Definition no_self_links (m : model) : Prop :=
  forall id v, m_decoder m !! id = Some v -> id ∉ map fst (stored_references v).
