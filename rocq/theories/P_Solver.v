(** A solver that meets the assumptions, for the examples; one-word batches. *)
From Verif Require Import M_Base M_Utf8 M_Float M_Types M_Anahash M_Model M_Values M_Search M_Text M_Rules M_Matches.
From Verif Require Import S_Model S_Search S_Matches P_Base P_Order P_Share P_Matches P_Sequence P_Lattice.
From stdpp Require Import options.

(** all paths of at most [fuel] arcs from a state to a final state *)
Fixpoint paths (fuel : nat) (arcs : list arc) (finals : list nat) (s : nat) : list (list arc) :=
  (if existsb (Nat.eqb s) finals then [[]] else []) ++
  match fuel with
  | 0 => []
  | S f => flat_map (fun a => if a_from a =? s then map (cons a) (paths f arcs finals (a_to a)) else []) arcs
  end.
Definition path_weight (l : list arc) : f32 := foldr (fun a w => f32add (a_cost a) w) f0 l.
(** [n] of them, in some order *)
Definition some_solver (order : list (list arc) -> list (list arc)) (g : fst_graph) (n : nat) : list (list nat * f32) :=
  map (fun l => (written l, path_weight l)) (take n (order (paths (list_max (f_final g)) (f_arcs g) (f_final g) 0))).

Lemma paths_sound arcs finals : forall fuel s l, l ∈ paths fuel arcs finals s -> exists t, route arcs s l t /\ t ∈ finals.
Proof.
  induction fuel as [|fuel IH]; intros s l; cbn [paths]; rewrite elem_of_app.
  - intros [H|H]; [|by inversion H]. destruct (existsb (Nat.eqb s) finals) eqn:E; [|by inversion H].
    apply elem_of_list_singleton in H as ->. apply existsb_exists in E as (t & Ht & ->%Nat.eqb_eq).
    exists t. split; [constructor|by apply elem_of_list_In].
  - intros [H|H].
    + destruct (existsb (Nat.eqb s) finals) eqn:E; [|by inversion H].
      apply elem_of_list_singleton in H as ->. apply existsb_exists in E as (t & Ht & ->%Nat.eqb_eq).
      exists t. split; [constructor|by apply elem_of_list_In].
    + apply elem_of_list_In, in_flat_map in H as (a & Ha & H). destruct (Nat.eqb_spec (a_from a) s) as [<-|]; [|done].
      apply in_map_iff in H as (l' & <- & H). apply elem_of_list_In, IH in H as (t & R & Ht).
      exists t. split; [|done]. constructor; [by apply elem_of_list_In|done].
Qed.
Lemma paths_complete arcs finals s l t : route arcs s l t -> t ∈ finals -> forall fuel, length l <= fuel -> l ∈ paths fuel arcs finals s.
Proof.
  intros R Ht. induction R as [s|a l t Hin R IH]; intros fuel Hf.
  - assert (existsb (Nat.eqb s) finals = true) as E by (apply existsb_exists; exists s; split; [by apply elem_of_list_In|by apply Nat.eqb_eq]).
    destruct fuel; cbn [paths]; rewrite E; apply elem_of_app; left; left.
  - destruct fuel as [|fuel]; [cbn in Hf; lia|]. cbn [paths]. apply elem_of_app. right. apply elem_of_list_In, in_flat_map.
    exists a. split; [by apply elem_of_list_In|]. rewrite Nat.eqb_refl. apply in_map_iff. exists l. split; [done|].
    apply elem_of_list_In. apply IH; [done|cbn in Hf; lia].
Qed.
Lemma forward_length arcs s l t : (forall a, a ∈ arcs -> a_from a < a_to a) -> route arcs s l t -> s + length l <= t.
Proof. intros H R. induction R as [s|a l t Hin R IH]; cbn; [lia|]. specialize (H a Hin). lia. Qed.
Lemma some_solver_sound order : some_order order -> solver_sound (some_solver order).
Proof.
  intros Ho g n labels w H. unfold some_solver in H. apply elem_of_list_In, in_map_iff in H as (l & [= <- <-] & H).
  apply elem_of_list_In, elem_of_take in H as (i & H & _). apply elem_of_list_lookup_2 in H.
  rewrite (Ho (paths _ _ _ _)) in H. apply paths_sound in H as (t & R & Ht). by exists l, t.
Qed.
Lemma some_solver_complete order : some_order order -> solver_complete (some_solver order).
Proof.
  intros Ho g n l t Hn Hf R Ht. unfold some_solver.
  assert (l ∈ order (paths (list_max (f_final g)) (f_arcs g) (f_final g) 0)) as Hin.
  { rewrite (Ho (paths _ _ _ _)). apply (paths_complete _ _ _ _ t R Ht). pose proof (forward_length _ _ _ _ Hf R) as L.
    assert (t <= list_max (f_final g)); [|lia]. pose proof (proj1 (list_max_le (f_final g) (list_max (f_final g))) ltac:(lia)) as M.
    rewrite List.Forall_forall in M. apply M. by apply elem_of_list_In. }
  destruct (order (paths _ _ _ _)); [by inversion Hin|]. destruct n; [lia|]. done.
Qed.

(** * One word *)
Lemma choose_same score x l v b0 : Forall (fun s => score s = v) (x :: l) -> choose score b0 None (x :: l) = Some x.
Proof.
  intros H. inversion H as [|? ? Hx Hl]; subst. cbn [choose]. rewrite orb_true_r. clear H.
  induction Hl as [|y l Hy Hl IH]; [done|]. cbn [choose]. rewrite Hy. unfold fgt. fold (flt (score x) (score x)).
  by rewrite flt_irrefl.
Qed.
Lemma one_word ln32 ln ws solve m p ms b e out : ln f0 = S754_infinity true ->
  (m_have_lm m = false \/ feq (p_lm_weight p) f0 = true) -> (m_context_rules m = [] \/ feq (p_contextrules_weight p) f0 = true) ->
  most_likely_sequence ln32 ln ws solve m p ms [b] e = Ok out ->
  out = ms /\ Forall (fun x => tm_variants x = None \/ tm_variants x = Some []) ms \/ exists g symbols seqs,
    lattice (p_freq_weight p) ms [b] e symbols g /\ rmapM (path_sequence ln32 ws m p [b] symbols) (solve g (p_max_seq p)) = Ok seqs /\
    (Forall (fun s => weight_single (sq_cost s) /\ flt f0 (sq_cost s) = true) seqs ->
     exists first rest, seqs = first :: rest /\ selected_matches ms first = Ok out).
Proof.
  intros Hz H1 H2. unfold most_likely_sequence. destruct (final_states [b] e) as [|f0' fs] eqn:Ef; [done|].
  destruct (all_arcs (p_freq_weight p) [b] 1 0 ms) as [[symbols arcs]|] eqn:Ea; [|done]. cbn [rbind].
  destruct symbols as [|s0 ss]; [intros [= <-]; left; split; [done|by eapply no_symbols]|].
  pose proof (lattice_built _ _ _ e _ _ Ea) as Hl. rewrite Ef in Hl. set (g := Fst _ _ _) in *.
  destruct (rmapM _ (solve g (p_max_seq p))) as [seqs|] eqn:Es; [|done]. cbn [rbind]. intros H. right.
  exists g, (dummy_symbol :: s0 :: ss), seqs. split; [done|]. split; [done|]. intros Hc.
  destruct seqs as [|first rest]; [done|]. exists first, rest. split; [done|].
  assert (b_cost (foldl (update_bests (use_lm m p)) (initial_bests (length [b])) (first :: rest)) = f0) as E0.
  { change (length [b]) with 1. destruct (bests_fold (use_lm m p) (first :: rest) (initial_bests 1)) as (_ & -> & _).
    change (b_cost (initial_bests 1)) with f0. clear -Hc. induction Hc as [|s l [_ Hs] _ IH]; [done|]. cbn [map foldl].
    assert (flt (sq_cost s) f0 = false) as ->; [|exact IH]. apply not_true_iff_false. intros Hlt.
    pose proof (flt_trans _ _ _ Hs Hlt) as Hx. by rewrite flt_irrefl in Hx. }
  rewrite (choose_same _ _ _ (S754_infinity true)) in H; [exact H|].
  eapply Forall_impl; [exact Hc|]. intros s [Hw Hp]. unfold sequence_score. rewrite E0.
  assert ((negb (m_have_lm m) || feq (p_lm_weight p) f0) && (bool_decide (m_context_rules m = []) || feq (p_contextrules_weight p) f0) = true) as ->.
  { apply andb_true_iff. split; apply orb_true_iff; [destruct H1 as [->|]; auto|].
    destruct H2 as [->|]; [left; by apply bool_decide_eq_true|by right]. }
  change (to_f64 f0) with f0. rewrite (zero_share (sq_cost s) Hw Hp). exact Hz.
Qed.
Lemma choose_nan score x l b0 : fis_nan (score x) = true -> choose score b0 None (x :: l) = Some x.
Proof.
  intros H. cbn [choose]. rewrite orb_true_r. induction l as [|y l IH]; [done|]. cbn [choose].
  unfold fgt. fold (flt (score x) (score y)). rewrite nan_not_flt by auto. exact IH.
Qed.
Lemma mls_nan ln32 ln ws solve m p ms bs e f fs s0 ss arcs first rest :
  final_states bs e = f :: fs -> all_arcs (p_freq_weight p) bs 1 0 ms = Ok (s0 :: ss, arcs) ->
  rmapM (path_sequence ln32 ws m p bs (dummy_symbol :: s0 :: ss)) (solve (Fst (S (length bs)) (f :: fs) (arcs ++ failsafe_arcs bs)) (p_max_seq p)) = Ok (first :: rest) ->
  fis_nan (sequence_score ln m p (foldl (update_bests (use_lm m p)) (initial_bests (length bs)) (first :: rest)) first) = true ->
  most_likely_sequence ln32 ln ws solve m p ms bs e = selected_matches ms first.
Proof.
  intros E1 E2 E3 H. unfold most_likely_sequence. rewrite E1, E2. cbn [rbind]. rewrite E3. cbn [rbind].
  rewrite choose_nan by exact H. done.
Qed.
