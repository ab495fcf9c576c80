(** Specification of what a search in running text covers, and of solvers and
    logarithms that are accurate. *)
From Coq Require Import Reals.
From Flocq Require Import Core BinarySingleNaN.
From Verif Require Import M_Base M_Utf8 M_Float M_Types M_Model M_Search M_Text M_Matches S_Text S_Search S_Float S_Matches S_SearchAll.
From stdpp Require Import options.

(** every letter of the text is inside a match; offsets in characters or bytes *)
Definition place (chars : bool) (s : str) : nat := if chars then length s else byte_len s.
Definition covered (alpha : N -> bool) (chars : bool) (t : str) (ms : list tmatch) : Prop :=
  forall pre c post, t = pre ++ c :: post -> alpha c = true ->
    exists x, x ∈ ms /\ tm_begin x <= place chars pre < tm_end x.

(** * Solvers *)
(** The exact cost of a path.  A computed cost is right up to 1/10000. *)
Definition cost_of (l : list arc) : R := fold_right (fun a c => (real (a_cost a) + c)%R) 0%R l.
Definition about (x y : R) : Prop := (Rabs (x - y) <= y / 10000)%R.
(** graphs with at most 1000 boundaries and costs from 1 to 100 *)
Definition ordinary (g : fst_graph) : Prop :=
  forall a, a ∈ f_arcs g -> a_from a < a_to a /\ (N.of_nat (a_to a) <= 1000)%N /\ weight_single (a_cost a) /\ (1 <= real (a_cost a) <= 100)%R.
(** The solver returns paths with their costs, and one that costs no more than
    any other. *)
Record solver_accurate (solve : fst_graph -> nat -> list (list nat * f32)) : Prop := {
  sa_paths : forall g n labels w, ordinary g -> (labels, w) ∈ solve g n ->
    exists l t, route (f_arcs g) 0 l t /\ t ∈ f_final g /\ labels = written l /\ weight_single w /\ about (real w) (cost_of l);
  sa_least : forall g n l t, ordinary g -> 0 < n -> route (f_arcs g) 0 l t -> t ∈ f_final g ->
    exists labels w, (labels, w) ∈ solve g n /\ (real w <= cost_of l * (1 + / 10000))%R;
}.
(** this path comes first *)
Definition cheapest_first (solve : fst_graph -> nat -> list (list nat * f32)) : Prop :=
  forall g n x rest l t, ordinary g -> solve g n = x :: rest -> route (f_arcs g) 0 l t -> t ∈ f_final g ->
    (real x.2 <= cost_of l * (1 + / 10000))%R.

(** * Logarithms *)
(** right up to 1/100000, for 64-bit and 32-bit numbers *)
Definition log_accurate (ln : f64 -> f64) : Prop :=
  forall x, double x -> is_finite_SF x = true -> (0 < real x)%R ->
    double (ln x) /\ is_finite_SF (ln x) = true /\ (Rabs (real (ln x) - Rpower.ln (real x)) <= / 100000)%R.
Definition log32_accurate (ln : f32 -> f32) : Prop :=
  forall x, single x -> is_finite_SF x = true -> (0 < real x)%R ->
    single (ln x) /\ is_finite_SF (ln x) = true /\ (Rabs (real (ln x) - Rpower.ln (real x)) <= / 100000)%R.
(** at most 1000 words *)
Definition few_words (alpha : N -> bool) (t : str) : Prop := forall ps, segmentation alpha t ps -> (N.of_nat (length ps) <= 1000)%N.
(** the letter after [pre] is in a part of the text that has more than one piece *)
Definition in_company (alpha : N -> bool) (t pre : str) : Prop :=
  forall ps parts a k j w1 w2 b, segmentation alpha t ps -> parts_from ps 0 parts -> (a, k) ∈ parts -> a <= j < a + k ->
    ps !! j = Some (w1 ++ w2, b) -> w2 <> [] -> pre = joined (take j ps) ++ w1 -> 2 <= k.
(** matches are chosen by their costs only *)
Definition costs_decide (m : model) (p : search_parameters) : Prop :=
  (m_have_lm m = false \/ feq (p_lm_weight p) f0 = true) /\ (m_context_rules m = [] \/ feq (p_contextrules_weight p) f0 = true).
