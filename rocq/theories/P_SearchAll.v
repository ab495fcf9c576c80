(** Proofs about whole searches: what is found is what is specified, and the
    specification leaves nothing open. *)
From Coq Require Import Lia.
From Verif Require Import M_Base M_Utf8 M_Anahash M_Float M_Types M_Model M_Values M_Confusable M_Search M_Text M_Rules M_Matches.
From Verif Require Import S_Anahash S_Text S_Model S_Search S_Lookup S_Rules S_Matches S_SearchAll.
From Verif Require Import P_Base P_Anahash P_Text P_Model P_Lm P_Rules P_Parse P_Order P_Nonan P_Matches P_Lattice P_Index P_Gather P_Lookup P_LookupAll P_Sequence.
From Verif Require S_Program P_Query P_Results P_RuleFile.
From stdpp Require Import options.

(** * Relations with one outcome *)
Lemma Forall2_det {A B} (R : A -> B -> Prop) l l1 l2 : (forall x y z, x ∈ l -> R x y -> R x z -> y = z) ->
  Forall2 R l l1 -> Forall2 R l l2 -> l1 = l2.
Proof.
  intros H F. revert l2. induction F as [|x y l l1 Hxy F IH]; intros l2 F2; inversion F2; subst; [done|]. f_equal.
  - eapply H; [left|done|done].
  - apply IH; [|done]. intros. eapply H; [by right|done|done].
Qed.
Lemma when_det {A} (P : Prop) (R : A -> A -> Prop) l x y : (forall x y, R l x -> R l y -> x = y) -> when P R l x -> when P R l y -> x = y.
Proof. intros H [[HP H1]|[HP H1]] [[HP' H2]|[HP' H2]]; [by apply H|done|done|congruence]. Qed.

Lemma split_compare {A} (l1 l1' l2 l2' : list A) x x' : l1 ++ x :: l2 = l1' ++ x' :: l2' ->
  (l1 = l1' /\ x = x' /\ l2 = l2') \/ (x ∈ l1' /\ x' ∈ l2) \/ (x' ∈ l1 /\ x ∈ l2').
Proof.
  revert l1'. induction l1 as [|a l1 IH]; intros [|a' l1'] E; cbn in E; injection E as E1 E2; subst.
  - by left.
  - right. left. split; [left|]. apply elem_of_app. right. left.
  - right. right. split; [left|]. apply elem_of_app. right. left.
  - destruct (IH _ E2) as [(-> & -> & ->)|[[H1 H2]|[H1 H2]]]; [by left|right; left|right; right]; (split; [by right|done]).
Qed.
Lemma first_of_det better l x y : first_of better l x -> first_of better l y -> x = y.
Proof.
  intros (Nx & l1 & l2 & -> & F1 & F2) (Ny & k1 & k2 & E & G1 & G2). rewrite Forall_forall in F1, F2, G1, G2.
  destruct (split_compare _ _ _ _ _ _ E) as [(_ & ? & _)|[[H1 H2]|[H1 H2]]]; [done| |].
  - destruct (G1 x H1) as [?|?]; [congruence|]. specialize (F2 y H2). congruence.
  - destruct (F1 y H1) as [?|?]; [congruence|]. specialize (G2 x H2). congruence.
Qed.
Lemma preferred_det {A} (score : A -> f64) l x y : preferred score l x -> preferred score l y -> x = y.
Proof.
  intros (l1 & l2 & -> & Hx) (k1 & k2 & E & Hy). destruct (split_compare _ _ _ _ _ _ E) as [(_ & ? & _)|[[H1 H2]|[H1 H2]]]; [done| |].
  - destruct Hy as [[-> _]|(Ny & G1 & G2 & G3)]; [by inversion H1|]. rewrite Forall_forall in G1, G2.
    destruct Hx as [[-> Nx]|(Nx & F1 & F2 & F3)].
    + destruct k1 as [|z k1]; [by inversion H1|]. cbn in E. injection E as <- _. specialize (G3 x eq_refl). congruence.
    + rewrite Forall_forall in F1, F2. destruct (G1 x H1) as [?|?]; [congruence|]. specialize (F2 y H2). congruence.
  - destruct Hx as [[-> _]|(Nx & F1 & F2 & F3)]; [by inversion H1|]. rewrite Forall_forall in F1, F2.
    destruct Hy as [[-> Ny]|(Ny & G1 & G2 & G3)].
    + destruct l1 as [|z l1]; [by inversion H1|]. cbn in E. injection E as -> _. specialize (F3 y eq_refl). congruence.
    + rewrite Forall_forall in G1, G2. destruct (F1 y H1) as [?|?]; [congruence|]. specialize (G2 x H2). congruence.
Qed.
Lemma parts_from_det ps a l l' : parts_from ps a l -> parts_from ps a l' -> l = l'.
Proof.
  intros H. revert l'. induction H as [a Hn|a k l Hb He _ IH]; intros l' H'; inversion H' as [? Hn'|? k' l0 Hb' He' Hl']; subst; [done| | |].
  - exfalso. apply (Hn (a + k')); [lia|done].
  - exfalso. apply (Hn' (a + k)); [lia|done].
  - assert (k = k') as ->.
    { destruct (Nat.lt_trichotomy k k') as [L|[L|L]]; [|done|].
      - exfalso. apply (Hb' (a + k)); [lia|done].
      - exfalso. apply (Hb (a + k')); [lia|done]. }
    f_equal. by apply IH.
Qed.
Lemma is_boundary_det ps i b b' : is_boundary ps i b -> is_boundary ps i b' -> b = b'.
Proof. intros (w & s & E & ->) (w' & s' & E' & ->). congruence. Qed.
Lemma part_bounds_det ps a k bs e bs' e' : part_bounds ps a k bs e -> part_bounds ps a k bs' e' -> bs = bs' /\ e = e'.
Proof.
  intros (L & H & b & Eb & ->) (L' & H' & b' & Eb' & ->). assert (bs = bs') as ->.
  { apply list_eq_same_length with (n := k); [done|done|]. intros i x y Hi Ex Ey. eapply is_boundary_det; eauto. }
  split; [done|]. congruence.
Qed.
Lemma char_offset_det t b c c' : char_offset t b c -> char_offset t b c' -> c = c'.
Proof. intros (p1 & q1 & -> & -> & ->) (p2 & q2 & E & L & ->). by destruct (byte_len_inj _ _ _ _ E L) as [-> _]. Qed.
Lemma relocated_det t x y z : relocated t x y -> relocated t x z -> y = z.
Proof.
  intros (b & e & B & E & ->) (b' & e' & B' & E' & ->). by rewrite (char_offset_det _ _ _ _ B B'), (char_offset_det _ _ _ _ E E').
Qed.
Lemma picks_det batch s out out' : picks batch s out -> picks batch s out' -> out = out'.
Proof.
  intros [L H] [L' H']. apply list_eq_same_length with (n := length (sq_symbols s)); [done|done|]. intros i x y Hi Ex Ey.
  destruct (lookup_lt_is_Some_2 _ _ Hi) as [o Eo]. destruct (H i o Eo) as (z & Ez & E1), (H' i o Eo) as (z' & Ez' & E1'). congruence.
Qed.
(** boundaries one after the other *)
Definition in_line (bs : list tmatch) : Prop :=
  (forall i b, bs !! i = Some b -> tm_begin b <= tm_end b) /\ forall i j b c, i < j -> bs !! i = Some b -> bs !! j = Some c -> tm_end b < tm_begin c.
Lemma spans_det bs x f n f' n' : in_line bs -> spans bs x f n -> spans bs x f' n' -> f = f' /\ n = n'.
Proof.
  intros [O1 O2] (_ & (b & Eb & Hb) & Hf) (_ & (b' & Eb' & Hb') & Hf').
  assert (forall i j b c, bs !! i = Some b -> bs !! j = Some c -> tm_begin b = tm_begin c -> i = j) as Bi.
  { intros i j y z Ey Ez E. destruct (Nat.lt_trichotomy i j) as [L|[L|L]]; [|done|].
    - pose proof (O2 _ _ _ _ L Ey Ez). pose proof (O1 _ _ Ey). lia.
    - pose proof (O2 _ _ _ _ L Ez Ey). pose proof (O1 _ _ Ez). lia. }
  assert (forall i j b c, bs !! i = Some b -> bs !! j = Some c -> tm_end b = tm_end c -> i = j) as Ei.
  { intros i j y z Ey Ez E. destruct (Nat.lt_trichotomy i j) as [L|[L|L]]; [|done|].
    - pose proof (O2 _ _ _ _ L Ey Ez). pose proof (O1 _ _ Ez). lia.
    - pose proof (O2 _ _ _ _ L Ez Ey). pose proof (O1 _ _ Ey). lia. }
  split; [|eapply Bi; eauto; congruence].
  destruct f as [|f], f' as [|f'].
  - done.
  - destruct Hf' as (c & Ec & Hc). by destruct (Hf _ _ Ec).
  - destruct Hf as (c & Ec & Hc). by destruct (Hf' _ _ Ec).
  - destruct Hf as (c & Ec & Hc), Hf' as (c' & Ec' & Hc'). f_equal. eapply Ei; eauto. congruence.
Qed.

Section det.
  Context (lc : N -> bool) (ses : str -> str -> list edit_instruction).
  Context (ln32 : f32 -> f32) (ln : f64 -> f64) (ws alpha : N -> bool) (solve : fst_graph -> nat -> list (list nat * f32)).
  Context (m : model) (p : search_parameters).
  #[local] Set Default Proof Using "Type".

  Lemma readings_det i x from next l l' : readings p i x from next l -> readings p i x from next l' -> l = l'.
  Proof.
    intros [vs E H|E H|E H] [vs' E' H'|E' H'|E' H'].
    - congruence.
    - exfalso. destruct E'; congruence.
    - exfalso. destruct E'; congruence.
    - exfalso. destruct E; congruence.
    - done.
    - congruence.
    - exfalso. destruct E; congruence.
    - congruence.
    - done.
  Qed.
  Lemma drawn_det batch bs e ss g ss' g' : in_line bs -> drawn p batch bs e ss g -> drawn p batch bs e ss' g' -> ss = ss' /\ g = g'.
  Proof.
    intros O (rs & fs & L & H & -> & F & ->) (rs' & fs' & L' & H' & -> & F' & ->).
    assert (rs = rs') as ->.
    { apply list_eq_same_length with (n := length batch); [done|done|]. intros i x y Hi Ex Ey.
      destruct (lookup_lt_is_Some_2 _ _ Hi) as [z Ez]. destruct (H i z Ez) as (f & n & l & E1 & S1 & R1), (H' i z Ez) as (f' & n' & l' & E2 & S2 & R2).
      destruct (spans_det _ _ _ _ _ _ O S1 S2) as [-> ->]. rewrite (readings_det _ _ _ _ _ _ R1 R2) in *. congruence. }
    rewrite (selects_det _ _ _ _ F F'). done.
  Qed.
  Lemma entry_read_det id ts ts' : entry_read m id ts -> entry_read m id ts' -> ts = ts'.
  Proof.
    intros (v & ids & E & W & ->) (v' & ids' & E' & W' & ->). assert (v = v') as <- by congruence.
    apply entry_words_fun in W as ->, W' as ->. done.
  Qed.
  Lemma separator_read_det s ts ts' : separator_read ws m s ts -> separator_read ws m s ts' -> ts = ts'.
  Proof.
    intros (t & St & H) (t' & St' & H'). assert (t = t') as <- by (apply P_RuleFile.stripped_iff in St, St'; congruence).
    destruct H as [[? ->]|[(? & ? & ->)|(? & id & E & R)]], H' as [[? ->]|[(? & ? & ->)|(? & id' & E' & R')]]; try done; [congruence|congruence|].
    assert (id = id') as <- by congruence. by eapply entry_read_det.
  Qed.
  Lemma symbol_read_det bs o ts ts' : symbol_read ws m bs o ts -> symbol_read ws m bs o ts' -> ts = ts'.
  Proof.
    intros (b & own & sep & E & Ho & Hs & ->) (b' & own' & sep' & E' & Ho' & Hs' & ->). assert (b = b') as <- by congruence.
    rewrite (separator_read_det _ _ _ Hs Hs'). f_equal.
    destruct Ho as [[? ->]|[? R]], Ho' as [[? ->]|[? R']]; [done|done|done|]. by eapply entry_read_det.
  Qed.
  Global Instance lm_used_dec : Decision (lm_used m p).
  Proof. unfold lm_used. apply _. Qed.
  Lemma path_scored_det bs ss path s s' : path_scored ln32 ws m p bs ss path s -> path_scored ln32 ws m p bs ss path s' -> s = s'.
  Proof.
    intros [H1 H2 H3 H4 H5 H6] [G1 G2 G3 G4 G5 G6].
    assert (sq_symbols s = sq_symbols s') as Es.
    { eapply Forall2_det; [|exact H1|exact G1]. intros x y z _ (k & -> & E) (k' & [= <-] & E'). congruence. }
    assert (sq_logprob s = sq_logprob s' /\ sq_perplexity s = sq_perplexity s') as [El Ep].
    { destruct (decide (lm_used m p)) as [U|U].
      - destruct (H3 U) as (tss & F & E1 & E2), (G3 U) as (tss' & F' & E1' & E2'). rewrite <- Es in F'.
        assert (tss = tss') as <- by (eapply Forall2_det; [|exact F|exact F']; intros x y z _; apply symbol_read_det).
        rewrite E2, E2', E1, E1'. done.
      - destruct (H4 U) as [-> ->], (G4 U) as [-> ->]. done. }
    assert (sq_context s = sq_context s' /\ sq_tags s = sq_tags s') as [Ec Et].
    { destruct (decide (m_context_rules m = [])) as [U|U].
      - destruct (H5 U) as [-> ->], (G5 U) as [-> ->]. done.
      - destruct (H6 U) as (a & A & E1 & E2), (G6 U) as (a' & A' & E1' & E2'). rewrite <- Es in A', E1', E2'.
        assert (a = a') as <- by (eapply greedy_unique; [exact A|exact A']). rewrite E1, E2, E1', E2'. done. }
    destruct s, s'. cbn in *. congruence.
  Qed.
  Lemma chosen_det bs e batch out out' : in_line bs -> chosen ln32 ln ws solve m p bs e batch out ->
    chosen ln32 ln ws solve m p bs e batch out' -> out = out'.
  Proof.
    intros O [N|M E|ss g seqs best x c t out1 M E D F X C T B P] H'; inversion H' as [N'|M' E'|ss' g' seqs' best' x' c' t' out2 M' E' D' F' X' C' T' B' P']; try done.
    destruct (drawn_det _ _ _ _ _ _ _ O D D') as [<- <-].
    assert (seqs = seqs') as <- by (eapply Forall2_det; [|exact F|exact F']; intros ? ? ? _; apply path_scored_det).
    assert (x = x') as <- by (eapply when_det; [|exact X|exact X']; intros ? ? A1 A2; exact (first_of_det _ _ _ _ A1 A2)).
    rewrite <- (first_of_det _ _ _ _ C C') in *. rewrite <- (first_of_det _ _ _ _ T T') in *.
    rewrite <- (preferred_det _ _ _ _ B B') in *. by eapply picks_det.
  Qed.
End det.

(** * Choosing *)
Section choosing.
  (** [x] is the best up to now *)
  Context {A : Type} (key : A -> f64) (better : f64 -> f64 -> bool).
  Hypothesis (Hb_num : forall x y, better x y = true -> fis_nan x = false).
  Hypothesis (Hb_trans : forall x y z, better x y = true -> better y z = true -> better x z = true).
  Hypothesis (Hb_over : forall x y z, better y x = true -> better z x = false -> fis_nan z = true \/ better y z = true).
  #[local] Set Default Proof Using "All".
  Definition best_so_far (l : list A) (x : A) : Prop :=
    fis_nan (key x) = false /\ exists l1 l2, l = l1 ++ x :: l2 /\
      Forall (fun y => fis_nan (key y) = true \/ better (key x) (key y) = true) l1 /\ Forall (fun y => better (key y) (key x) = false) l2.
  Lemma best_step l x y : best_so_far l x -> best_so_far (l ++ [y]) (if better (key y) (key x) then y else x).
  Proof.
    intros (N & l1 & l2 & -> & F1 & F2). destruct (better (key y) (key x)) eqn:E.
    - split; [by eapply Hb_num|]. exists (l1 ++ x :: l2), []. split; [done|]. split; [|constructor].
      rewrite Forall_forall in F1, F2. apply Forall_app. split; [|constructor; [by right|]]; apply Forall_forall; intros z Hz.
      + destruct (F1 z Hz) as [?|?]; [by left|right]. by eapply Hb_trans.
      + eapply Hb_over; [exact E|]. by apply F2.
    - split; [done|]. exists l1, (l2 ++ [y]). split; [by rewrite <- app_assoc|]. split; [done|]. apply Forall_app. split; [done|]. by constructor.
  Qed.
  Lemma best_fold l : forall k x, best_so_far k x -> best_so_far (k ++ l) (foldl (fun b y => if better (key y) (key b) then y else b) x l).
  Proof.
    induction l as [|y l IH]; intros k x H; [by rewrite app_nil_r|]. cbn [foldl]. rewrite cons_middle, app_assoc. apply IH. by apply best_step.
  Qed.
End choosing.
Lemma flt_num_l x y : flt x y = true -> fis_nan x = false. Proof. rewrite flt_key. by intros (? & _). Qed.
Lemma flt_num_r x y : flt x y = true -> fis_nan y = false. Proof. rewrite flt_key. by intros (_ & ? & _). Qed.
Lemma under x y z : flt y x = true -> flt z x = false -> fis_nan z = true \/ flt y z = true.
Proof.
  intros H1 H2. destruct (fis_nan z) eqn:N; [by left|right]. apply flt_key in H1 as (Ny & Nx & K). apply flt_key. split; [done|]. split; [done|].
  rewrite <- not_true_iff_false, flt_key in H2. assert (~ klt (fkey z) (fkey x)) as K' by tauto. clear H2. unfold klt in *. lia.
Qed.
Lemma over x y z : flt x y = true -> flt x z = false -> fis_nan z = true \/ flt z y = true.
Proof.
  intros H1 H2. destruct (fis_nan z) eqn:N; [by left|right]. apply flt_key in H1 as (Nx & Ny & K). apply flt_key. split; [done|]. split; [done|].
  rewrite <- not_true_iff_false, flt_key in H2. assert (~ klt (fkey x) (fkey z)) as K' by tauto. clear H2. unfold klt in *. lia.
Qed.
Lemma best_first better l x : best_so_far (fun x => x) better l x -> first_of better l x.
Proof. done. Qed.
Lemma least_first init l : fis_nan init = false -> first_of flt (init :: l) (foldl (fun b y => if flt y b then y else b) init l).
Proof.
  intros N. apply best_first. apply (best_fold (fun x => x) flt flt_num_l flt_trans under l [init] init).
  split; [done|]. exists [], []. done.
Qed.
Lemma greatest_first init l : fis_nan init = false ->
  first_of (fun x y => flt y x) (init :: l) (foldl (fun b y => if fgt y b then y else b) init l).
Proof.
  intros N. apply best_first. unfold fgt. fold flt.
  apply (best_fold (fun x => x) (fun x y => flt y x) (fun x y H => flt_num_r y x H) (fun x y z H1 H2 => flt_trans z y x H2 H1) over l [init] init).
  split; [done|]. exists [], []. done.
Qed.
Lemma choose_fold score l : forall s0, choose score (score s0) (Some s0) l =
  Some (foldl (fun b y => if flt (score b) (score y) then y else b) s0 l).
Proof.
  induction l as [|s l IH]; intros s0; [done|]. cbn [choose foldl]. rewrite orb_false_r. unfold fgt. fold (flt (score s0) (score s)).
  destruct (flt (score s0) (score s)); apply IH.
Qed.
Lemma choose_preferred score b l x : choose score b None l = Some x -> preferred score l x.
Proof.
  destruct l as [|s0 l]; [done|]. cbn [choose]. rewrite orb_true_r, choose_fold. intros [= <-].
  destruct (fis_nan (score s0)) eqn:N.
  - assert (foldl (fun b y => if flt (score b) (score y) then y else b) s0 l = s0) as ->.
    { clear -N. induction l as [|y l IH]; [done|]. cbn [foldl]. by rewrite nan_not_flt by auto. }
    exists [], l. split; [done|]. by left.
  - pose proof (best_fold score (fun x y => flt y x) (fun x y H => flt_num_r y x H) (fun x y z H1 H2 => flt_trans z y x H2 H1) over l [s0] s0) as H.
    destruct H as (Nx & l1 & l2 & E & F1 & F2).
    { split; [done|]. exists [], []. done. }
    exists l1, l2. split; [done|]. right. split; [done|]. split; [done|]. split; [done|].
    intros y Hy. destruct l1 as [|z l1]; [done|]. injection E as <- _. by injection Hy as <-.
Qed.

(** * Context rules *)
Lemma token_results_ok sequence rules apps rs : applied rules sequence apps -> backed sequence apps rs ->
  rs = map (token_results apps) (seq 0 (length sequence)).
Proof.
  intros Ha (Hl & Hx & Hs & _). pose proof (applied_pairs _ _ _ Ha) as Hp.
  apply list_eq_same_length with (n := length sequence); [by rewrite map_length, seq_length|done|].
  intros i y x Hi Ey Ex. rewrite list_lookup_fmap, lookup_seq_lt in Ex by done. cbn in Ex. injection Ex as <-.
  assert (forall l, (forall a, a ∈ l -> a ∈ apps) ->
    (forall i j a a', i < j -> l !! i = Some a -> l !! j = Some a' -> forall k, uses a k -> uses a' k -> says a.2 (k - a.1) = []) ->
    token_results l i = [] \/ exists a, a ∈ l /\ uses a i /\ says a.2 (i - a.1) <> [] /\ token_results l i = says a.2 (i - a.1)) as G.
  { clear -Hi. induction l as [|a l IH]; intros Hin Hpl; [by left|].
    destruct IH as [E|(b & Hb & U & Hne & E)].
    - intros b Hb. apply Hin. by right.
    - intros i1 j1 b b' L E1 E2. apply (Hpl (S i1) (S j1)); [lia|done|done].
    - unfold token_results in *. cbn [map concat]. rewrite E, app_nil_r. destruct (decide (uses a i)) as [U|U]; [|by left].
      destruct (decide (says a.2 (i - a.1) = [])) as [E0|E0]; [by left|]. right. exists a. split; [left|done].
    - right. exists b. split; [by right|]. split; [done|]. split; [done|]. unfold token_results in *. cbn [map concat]. rewrite E.
      destruct (decide (uses a i)) as [U'|U']; [|done]. apply elem_of_list_lookup in Hb as [j Hj].
      rewrite (Hpl 0 (S j) a b ltac:(lia) eq_refl Hj i U' U). done. }
  assert (forall a, a ∈ apps -> uses a i -> token_results apps i = [] -> says a.2 (i - a.1) = []) as G0.
  { intros a Hin U E. unfold token_results in E. apply elem_of_list_split in Hin as (l1 & l2 & E').
    rewrite E', map_app, concat_app in E. cbn [map concat] in E. rewrite decide_True in E by done.
    apply app_eq_nil in E as [_ E]. by apply app_eq_nil in E as [E _]. }
  destruct (G apps) as [E|(a & Hin & U & Hne & E)]; [done|done| |].
  - rewrite E. destruct (Hx i y Ey) as [->|(a & Hin & U & ->)]; [done|]. by apply G0.
  - rewrite E. specialize (Hs a i Hin U Hne). congruence.
Qed.
Lemma average_scores (l : list (list pattern_result)) :
  fdiv (to_f64 (foldl (fun a x => f32add a (element_score x)) (S754_zero false) l)) (f64_of_nat (length l)) = average (map result_score l).
Proof.
  unfold average. rewrite map_length. do 2 f_equal. generalize (S754_zero false).
  induction l as [|x l IH]; intros acc; [done|]. cbn [foldl map]. apply IH.
Qed.

Section sound.
  Context (lc : N -> bool) (ses : str -> str -> list edit_instruction).
  Context (ln32 : f32 -> f32) (ln : f64 -> f64) (ws alpha : N -> bool) (solve : fst_graph -> nat -> list (list nat * f32)).
  Context (m : model) (p : search_parameters).
  Hypothesis (Hscorable : scorable m) (Hsound : solver_sound solve).
  Hypothesis (Hfinal : forall r, final_score (p_freq_weight p) r = vr_score (p_freq_weight p) r).
  #[local] Set Default Proof Using "Type".

  Lemma use_lm_used : use_lm m p = true <-> lm_used m p.
  Proof. unfold use_lm, lm_used. rewrite andb_true_iff. done. Qed.
  Lemma entry_tokens_read id ts : entry_tokens m id = Ok ts -> entry_read m id ts.
  Proof using Hscorable.
    unfold entry_tokens. intros H. destruct (m_decoder m !! id) as [v|] eqn:Ev.
    - rewrite (into_ngram_vng m id v None Ev (sc_words _ Hscorable id v Ev)) in H. cbn [rbind fst] in H. injection H as <-.
      exists v, (word_ids m (vv_text v)). split; [done|]. split; [by apply entry_words_fun|].
      destruct (ng_from_list (word_ids m (vv_text v))) as [g|] eqn:Eg.
      + apply ng_from_list_inv in Eg. rewrite <- Eg. rewrite decide_True by apply ng_to_vec_length. done.
      + rewrite decide_False; [done|]. intros L. destruct (ng_from_list_short _ L) as [g Hg]. congruence.
    - exfalso. unfold into_ngram in H. by rewrite Ev in H.
  Qed.
  Lemma symbol_tokens_read bs o ts : symbol_tokens ws m bs o = Ok ts -> symbol_read ws m bs o ts.
  Proof using Hscorable.
    unfold symbol_tokens. rewrite nth_error_lookup_eq. destruct (bs !! os_boundary o) as [b|] eqn:Eb; [|done]. cbn [rexpect rbind].
    destruct (if os_vocab o =? 0 then _ else _) as [own|] eqn:Eo; [|done]. cbn [rbind].
    destruct (match trim ws (tm_text b) with [] => _ | _ => _ end) as [sep|] eqn:Es; [|done]. cbn [rbind]. intros [= <-].
    exists b, own, sep. split; [done|]. split; [|split; [|done]].
    - destruct (Nat.eqb_spec (os_vocab o) 0) as [E|E]; [left; split; [done|congruence]|right]. split; [done|]. by apply entry_tokens_read.
    - exists (trim ws (tm_text b)). split; [by apply P_RuleFile.stripped_iff|]. destruct (trim ws (tm_text b)) as [|c r].
      + left. split; [done|congruence].
      + right. destruct (m_encoder m !! (c :: r)) as [id|] eqn:Ee.
        * right. split; [done|]. exists id. split; [done|]. by apply entry_tokens_read.
        * left. split; [done|]. split; [done|]. congruence.
  Qed.
  Lemma path_sequence_scored bs ss path s : Forall (fun l => l <> 0) path.1 ->
    path_sequence ln32 ws m p bs (dummy_symbol :: ss) path = Ok s -> path_scored ln32 ws m p bs ss path s.
  Proof using Hscorable.
    intros Hnz. unfold path_sequence. destruct (rmapM _ path.1) as [os|] eqn:Eo; [|done]. cbn [rbind].
    destruct (if use_lm m p then _ else _) as [[lp px]|] eqn:El; [|done]. cbn [rbind].
    destruct (match m_context_rules m with [] => _ | _ => _ end) as [[cx tags]|] eqn:Ec; [|done]. cbn [rbind fst snd]. intros [= <-].
    apply rmapM_inv in Eo.
    split; cbn [sq_symbols sq_cost sq_logprob sq_perplexity sq_context sq_tags].
    - clear -Eo Hnz. induction Eo as [|l o ls os E F IH]; [constructor|]. inversion Hnz; subst. constructor; [|by apply IH].
      destruct l as [|k]; [done|]. exists k. split; [done|]. rewrite nth_error_lookup_eq in E. cbn in E.
      destruct (ss !! k); [|done]. cbn in E. congruence.
    - done.
    - intros U. apply use_lm_used in U. rewrite U in El. unfold lm_score in El.
      destruct (rmapM (symbol_tokens ws m bs) os) as [tss|] eqn:Et; [|done]. cbn [rbind] in El.
      rewrite lm_score_tokens_spec in El by done. injection El as <- <-. exists tss.
      split; [|done]. apply rmapM_inv in Et. eapply Forall2_impl; [exact Et|]. intros o ts. apply symbol_tokens_read.
    - intros U. assert (use_lm m p = false) as E by (apply not_true_iff_false; by rewrite use_lm_used). rewrite E in El.
      injection El as <- <-. done.
    - intros U. rewrite U in Ec. injection Ec as <- <-. done.
    - intros U. assert ((let* (c, rs) := test_context_rules m (map os_vocab os) in Ok (c, tags_of rs)) = Ok (cx, tags)) as Ec'.
      { by destruct (m_context_rules m). }
      clear Ec. unfold test_context_rules in Ec'.
      destruct (test_rules_spec (m_context_rules m) (lex_sequence (m_decoder m) (map os_vocab os)) (sc_rules _ Hscorable)) as (rs & apps & Et & Ha & Hb).
      rewrite Et in Ec'. cbn [rbind] in Ec'. injection Ec' as <- <-. exists apps. split; [done|]. cbv zeta.
      assert (length (lex_sequence (m_decoder m) (map os_vocab os)) = length os) as Hl by (by rewrite lex_sequence_length, map_length).
      pose proof (token_results_ok _ _ _ _ Ha Hb) as Er. rewrite Hl in Er. rewrite <- Er. split; [|done].
      unfold context_score. destruct (decide (apps = [])) as [E|E].
      + by rewrite bool_decide_eq_true_2.
      + rewrite bool_decide_eq_false_2 by done. cbn [negb]. apply average_scores.
  Qed.

  (** ** The graph *)
  Lemma match_arcs_drawn bs k i x ss arcs : match_arcs (p_freq_weight p) bs k i x = Ok (ss, arcs) ->
    exists from next l, spans bs x from next /\ readings p i x from next l /\ ss = map fst l /\
      arcs = imap (fun j (oc : output_symbol * f32) => Arc from (S i) (k + j) oc.2 (S next)) l.
  Proof using Hfinal.
    unfold match_arcs. destruct (endpoints x bs) as [[[n from] next]|] eqn:E; [|done]. cbn [rbind].
    apply endpoints_spans in E as [Hs ->]. 
    assert (tm_variants x = None \/ tm_variants x = Some [] ->
      (if S next - from =? 1 then Ok ([OutputSymbol 0 i None next], [Arc from (i + 1) k (f32add (f32_of_nat (S next - from)) f32_1) (S next)]) else Ok ([], [])) = Ok (ss, arcs) ->
      exists from next l, spans bs x from next /\ readings p i x from next l /\ ss = map fst l /\
        arcs = imap (fun j (oc : output_symbol * f32) => Arc from (S i) (k + j) oc.2 (S next)) l) as G.
    { intros Hn H. exists from, next. destruct (Nat.eqb_spec (S next - from) 1) as [E1|E1]; injection H as <- <-.
      - eexists. split; [done|]. split; [by apply readings_word|]. split; [done|]. cbn. rewrite E1, Nat.add_0_r, Nat.add_1_r. done.
      - eexists. split; [done|]. split; [by apply readings_none|]. done. }
    destruct (tm_variants x) as [[|v vs]|] eqn:Ev; [apply G; by right| |apply G; by left].
    intros H. apply (f_equal (fun r => match r with Ok y => y | Panic _ => (ss, arcs) end)) in H. cbv beta iota in H. apply pair_equal_spec in H as [<- <-].
    exists from, next. eexists. split; [done|]. split; [by eapply (readings_variants p i x from next (v :: vs))|]. split.
    - apply list_eq. intros j. rewrite list_lookup_fmap, !list_lookup_imap. by destruct ((v :: vs) !! j).
    - apply list_eq. intros j. rewrite !list_lookup_imap. destruct ((v :: vs) !! j) as [u|]; [|done]. cbn. rewrite Nat.add_1_r.
      unfold variant_cost. by rewrite Hfinal.
  Qed.
  Definition listed (rs : list (nat * nat * nat * list (output_symbol * f32))) :=
    concat (map (fun r : nat * nat * nat * list (output_symbol * f32) => let '(i, from, next, l) := r in
                   map (fun oc : output_symbol * f32 => (i, from, next, oc)) l) rs).
  Lemma all_arcs_drawn bs ms : forall k i ss arcs, all_arcs (p_freq_weight p) bs k i ms = Ok (ss, arcs) ->
    exists rs, length rs = length ms /\
      (forall d x, ms !! d = Some x -> exists from next l, rs !! d = Some (i + d, from, next, l) /\ spans bs x from next /\ readings p (i + d) x from next l) /\
      ss = map (fun q : nat * nat * nat * (output_symbol * f32) => q.2.1) (listed rs) /\
      arcs = imap (fun j (q : nat * nat * nat * (output_symbol * f32)) => let '(i, from, next, oc) := q in Arc from (S i) (k + j) oc.2 (S next)) (listed rs).
  Proof using Hfinal.
    induction ms as [|x ms IH]; intros k i ss arcs; cbn [all_arcs].
    - intros [= <- <-]. exists []. split; [done|]. split; [done|]. done.
    - destruct (match_arcs (p_freq_weight p) bs k i x) as [[s1 a1]|] eqn:E1; [|done]. cbn [rbind].
      destruct (all_arcs (p_freq_weight p) bs (k + length s1) (S i) ms) as [[s2 a2]|] eqn:E2; [|done]. cbn [rbind]. intros [= <- <-].
      apply match_arcs_drawn in E1 as (from & next & l & Hs & Hr & -> & ->). apply IH in E2 as (rs & Hl & Hrs & -> & ->).
      exists ((i, from, next, l) :: rs). split; [cbn; congruence|]. split; [|split].
      + intros [|d] y; cbn [lookup list_lookup].
        * intros [= <-]. exists from, next, l. rewrite Nat.add_0_r. done.
        * intros Ey. rewrite Nat.add_succ_r. by apply Hrs.
      + unfold listed. cbn [map concat]. rewrite map_app, map_map. done.
      + unfold listed. cbn [map concat]. rewrite imap_app. f_equal.
        * apply list_eq. intros j. rewrite !list_lookup_imap, list_lookup_fmap. by destruct (l !! j).
        * fold (listed rs). apply imap_ext. intros j [[[? ?] ?] ?] _. cbn. rewrite !map_length. f_equal. lia.
  Qed.
  Lemma final_states_selected bs e : exists fs, selects (fun ib : nat * tmatch => tm_begin ib.2 = e \/ tm_end ib.2 = e) (imap pair bs) fs /\
    final_states bs e = map (fun ib : nat * tmatch => S ib.1) fs.
  Proof.
    unfold final_states.
    assert (forall k, exists fs, selects (fun ib : nat * tmatch => tm_begin ib.2 = e \/ tm_end ib.2 = e) (imap (fun i b => (k + i, b)) bs) fs /\
      map fst (List.filter (fun ib : nat * tmatch => (tm_begin ib.2 =? e) || (tm_end ib.2 =? e)) (imap (fun i b => (S (k + i), b)) bs)) =
      map (fun ib : nat * tmatch => S ib.1) fs) as G.
    { induction bs as [|b bs IH]; intros k; [exists []; split; [constructor|done]|].
      destruct (IH (S k)) as (fs & Hf & E).
      assert (imap (fun i b => (S (S k + i), b)) bs = imap ((fun i b => (S (k + i), b)) ∘ S) bs) as E1 by (apply imap_ext; intros; cbn; do 2 f_equal; lia).
      assert (imap (fun i b => (S k + i, b)) bs = imap ((fun i b => (k + i, b)) ∘ S) bs) as E2 by (apply imap_ext; intros; cbn; f_equal; lia).
      rewrite E1 in E. rewrite E2 in Hf. rewrite !imap_cons. rewrite Nat.add_0_r. cbn [List.filter snd].
      destruct ((tm_begin b =? e) || (tm_end b =? e)) eqn:Eb.
      - exists ((k, b) :: fs). split; [|cbn [map fst]; by f_equal]. apply selects_keep; [|done]. cbn.
        apply orb_true_iff in Eb as [Eb|Eb]; apply Nat.eqb_eq in Eb; auto.
      - exists fs. split; [|done]. apply selects_skip; [|done]. cbn. apply orb_false_iff in Eb as [Eb1 Eb2].
        apply Nat.eqb_neq in Eb1, Eb2. by intros [?|?]. }
    destruct (G 0) as (fs & Hf & E). exists fs. done.
  Qed.
  Lemma selected_matches_picks batch s out : selected_matches batch s = Ok out -> picks batch s out.
  Proof.
    unfold selected_matches. intros H. apply rmapM_inv in H. split.
    - apply Forall2_length in H. rewrite imap_length in H. done.
    - intros i o Eo. assert (imap pair (sq_symbols s) !! i = Some (i, o)) as Ei by (by rewrite list_lookup_imap, Eo).
      destruct (Forall2_lookup_l _ _ _ _ _ H Ei) as (y & Ey & E). rewrite nth_error_lookup_eq in E.
      destruct (batch !! os_match o) as [x|]; [|done]. cbn [rexpect rbind] in E. exists x. split; [done|]. rewrite Ey.
      injection E as <-. rewrite nth_error_lookup_eq. by destruct (sq_tags s !! i).
  Qed.

  Lemma consolidate_chosen bs e batch out :
    (forall ss arcs, all_arcs (p_freq_weight p) bs 1 0 batch = Ok (ss, arcs) -> batch <> [] -> ss <> []) ->
    consolidate ln32 ln ws solve m p batch bs e = Ok out -> chosen ln32 ln ws solve m p bs e batch out.
  Proof using Hscorable Hsound Hfinal.
    intros Hss. unfold consolidate.
    assert ((1 <? p_max_ngram p) || m_have_lm m || negb (bool_decide (m_context_rules m = [])) = true <-> sequences_matter m p) as Hm.
    { unfold sequences_matter. rewrite !orb_true_iff, Nat.ltb_lt, negb_true_iff, bool_decide_eq_false. tauto. }
    destruct (_ || _ || _).
    2: { intros [= <-]. apply chosen_first. intros M. by apply Hm in M. }
    assert (sequences_matter m p) as M by (by apply Hm). clear Hm. unfold most_likely_sequence.
    destruct (final_states bs e) as [|f0' fs'] eqn:Ef; [done|].
    destruct (all_arcs (p_freq_weight p) bs 1 0 batch) as [[symbols arcs]|] eqn:Ea; [|done]. cbn [rbind].
    destruct symbols as [|s0 ss].
    { intros [= <-]. destruct (decide (batch = [])) as [->|Hne]; [by apply chosen_nothing|]. by destruct (Hss _ _ eq_refl Hne). }
    set (g := Fst _ _ _). destruct (rmapM _ (solve g (p_max_seq p))) as [seqs|] eqn:Es; [|done]. cbn [rbind].
    set (b := foldl _ _ seqs). destruct (choose (sequence_score ln m p b) worst_score None seqs) as [best|] eqn:Ec; [|done].
    cbn [rexpect rbind]. intros Ho.
    assert (batch <> []) as Hne by (intros ->; done).
    destruct (bests_fold (use_lm m p) seqs (initial_bests (length bs))) as (E1 & E2 & E3). fold b in E1, E2, E3.
    cbn [b_perplexity b_cost b_context initial_bests] in E1, E2, E3.
    apply (chosen_best ln32 ln ws solve m p bs e batch (s0 :: ss) g seqs best (b_perplexity b) (b_cost b) (b_context b)); [done|done| | | | | | |].
    - destruct (all_arcs_drawn _ _ _ _ _ _ Ea) as (rs & Hl & Hrs & E & Earcs). destruct (final_states_selected bs e) as (fs & Hfs & Efs).
      exists rs, fs. split; [done|]. split; [done|]. cbv zeta. fold (listed rs). split; [done|]. split; [done|].
      unfold g. rewrite <- Ef, Efs, Earcs. done.
    - apply rmapM_inv in Es.
      assert (forall path, path ∈ solve g (p_max_seq p) -> Forall (fun l => l <> 0) path.1) as Hnz.
      { intros [labels w] Hp. destruct (Hsound _ _ _ _ Hp) as (l & t & _ & _ & ->). cbn. unfold written. apply Forall_forall.
        intros o Hino. apply elem_of_list_In, filter_In in Hino as [_ Hino]. by apply negb_true_iff, Nat.eqb_neq in Hino. }
      clear -Es Hnz Hscorable. induction Es as [|path s paths seqs E F IH]; [constructor|]. constructor.
      + apply path_sequence_scored; [apply Hnz; left|done].
      + apply IH. intros q Hq. apply Hnz. by right.
    - rewrite E1. destruct (use_lm m p) eqn:Eu.
      + left. split; [by apply use_lm_used|]. by apply least_first.
      + right. split; [|done]. rewrite <- use_lm_used. congruence.
    - rewrite E2. apply least_first, cost_init_number.
    - rewrite E3. by apply greatest_first.
    - apply choose_preferred in Ec. assert (Bests (b_perplexity b) (b_cost b) (b_context b) = b) as Eb by (clearbody b; by destruct b).
      rewrite <- Eb in Ec. clear -Ec. destruct Ec as (l1 & l2 & E & H). exists l1, l2. split; [done|].
      setoid_rewrite score_combined in H. exact H.
    - by apply selected_matches_picks.
  Qed.
End sound.

(** * Candidates *)
Lemma stretch_take n : forall (l : pieces) k, n < k -> stretch (take k l) (S n) = stretch l (S n).
Proof.
  induction n as [|n IH]; intros [|[w b] l] [|k] L; try done; try lia. cbn [take]. change (stretch ((w, b) :: ?l) (S (S n))) with (w ++ b ++ stretch l (S n)).
  change (stretch ((w, b) :: take k l) (S (S n))) with (w ++ b ++ stretch (take k l) (S n)).
  change (stretch ((w, b) :: l) (S (S n))) with (w ++ b ++ stretch l (S n)). rewrite IH by lia. done.
Qed.
Lemma stretch_part (ps : pieces) a k i n : i + n < k -> stretch (drop i (take k (drop a ps))) (S n) = stretch (drop (a + i) ps) (S n).
Proof.
  intros L. assert (drop i (take k (drop a ps)) = take (k - i) (drop i (drop a ps))) as ->.
  { rewrite (take_drop_commute _ _ i). by replace (i + (k - i)) with k by lia. }
  rewrite stretch_take by lia. by rewrite drop_drop.
Qed.
Lemma candidate_part (ps : pieces) a k i n : i + n < k ->
  S_Text.candidate (byte_len (joined (take a ps))) (take k (drop a ps)) (S n) i = S_Text.candidate 0 ps (S n) (a + i).
Proof.
  intros L. unfold S_Text.candidate. rewrite stretch_part by done.
  assert (byte_len (joined (take a ps)) + byte_len (joined (take i (take k (drop a ps)))) = 0 + byte_len (joined (take (a + i) ps))) as ->; [|done].
  rewrite take_take, Nat.min_l by lia. cbn [Nat.add]. rewrite <- byte_len_app, <- joined_app. do 2 f_equal.
  destruct (decide (a <= length ps)) as [La|La].
  - rewrite <- (take_drop a ps) at 3. rewrite take_add_app; [done|]. rewrite take_length. lia.
  - rewrite drop_ge by lia. rewrite !take_nil, app_nil_r, !take_ge by lia. done.
Qed.
Lemma selects_shift {A} (P : nat -> Prop) (q : nat -> bool) a (f g : nat -> A) n :
  (forall i, i < n -> q i = true <-> P (a + i)) -> (forall i, i < n -> f i = g (a + i)) ->
  exists js, selects P (seq a n) js /\ map f (List.filter q (seq 0 n)) = map g js.
Proof.
  intros Hq Hf.
  assert (forall d s, s + d = n -> exists js, selects P (seq (a + s) d) js /\ map f (List.filter q (seq s d)) = map g js) as G.
  { induction d as [|d IH]; intros s E; [exists []; split; [constructor|done]|].
    destruct (IH (S s)) as (js & Hs & Em); [lia|]. cbn [seq List.filter]. rewrite Nat.add_succ_r in Hs.
    destruct (q s) eqn:Eq.
    - exists (a + s :: js). split; [apply selects_keep; [apply Hq; [lia|done]|done]|]. cbn [map]. rewrite Em, Hf by lia. done.
    - exists js. split; [|done]. apply selects_skip; [|done]. rewrite <- Hq by lia. congruence. }
  destruct (G n 0 eq_refl) as (js & Hs & Em). rewrite Nat.add_0_r in Hs. by exists js.
Qed.
Lemma known_word_dec u : known_word u \/ ~ known_word u.
Proof.
  unfold known_word. destruct (tm_variants u) as [[|v vs]|].
  - right. by intros (? & ? & ? & _).
  - destruct (flt (vr_dist v) f1) eqn:E; [right; intros (? & ? & [= <- <-] & ?); congruence|left; by exists v, vs].
  - right. by intros (? & ? & ? & _).
Qed.
Lemma redundant_spec c words rest : Forall (fun x => tm_n x = 1) words -> (forall x, head rest = Some x -> tm_n x <> 1) ->
  redundant_match c (words ++ rest) = false <-> exists u, u ∈ words /\ inside u c /\ ~ known_word u.
Proof.
  intros Hw Hr. induction Hw as [|u words Hu Hw IH]; cbn [app].
  - assert (redundant_match c rest = true) as ->.
    { destruct rest as [|x rest]; [done|]. cbn [redundant_match]. specialize (Hr x eq_refl). by apply Nat.eqb_neq in Hr as ->. }
    split; [done|]. intros (u & Hin & _). inversion Hin.
  - cbn [redundant_match]. rewrite Hu, Nat.eqb_refl.
    destruct ((tm_begin c <=? tm_begin u) && (tm_end u <=? tm_end c)) eqn:Ei.
    + apply andb_true_iff in Ei as [E1 E2]. apply Nat.leb_le in E1, E2.
      assert (redundant_match c (words ++ rest) = false -> known_word u -> exists u0, u0 ∈ u :: words /\ inside u0 c /\ ~ known_word u0) as G.
      { intros H _. apply IH in H as (x & ? & ? & ?). exists x. split; [by right|done]. }
      assert (known_word u -> (exists u0, u0 ∈ u :: words /\ inside u0 c /\ ~ known_word u0) -> redundant_match c (words ++ rest) = false) as G'.
      { intros K (x & Hin & ? & ?). apply IH. apply elem_of_cons in Hin as [->|Hin]; [done|]. by exists x. }
      assert (~ known_word u -> exists u0, u0 ∈ u :: words /\ inside u0 c /\ ~ known_word u0) as G0 by (intros K; exists u; split; [left|done]).
      destruct (tm_variants u) as [[|v vs]|] eqn:Ev.
      * split; [|done]. intros _. apply G0. intros (? & ? & ? & _). congruence.
      * destruct (flt (vr_dist v) f1) eqn:Ef.
        -- split; [|done]. intros _. apply G0. intros (? & ? & ? & ?). congruence.
        -- assert (known_word u) as K by (by exists v, vs). split; auto.
      * split; [|done]. intros _. apply G0. intros (? & ? & ? & _). congruence.
    + rewrite IH. split; intros (x & Hin & ? & ?); exists x; (split; [|done]); [by right|].
      apply elem_of_cons in Hin as [->|Hin]; [|done]. exfalso. apply andb_false_iff in Ei. unfold inside in *.
      rewrite !Nat.leb_gt in Ei. lia.
Qed.

Lemma part_bounds_at ps a k lastb : a + k <= length ps -> 0 < k -> boundaries_at 0 ps !! (a + k - 1) = Some lastb ->
  part_bounds ps a k (take k (drop a (boundaries_at 0 ps))) (tm_begin lastb).
Proof.
  intros L Hk El. split; [|split].
  - rewrite take_length, drop_length, boundaries_at_length. lia.
  - intros i b E. apply lookup_take_Some in E as [E Li]. rewrite lookup_drop in E. by apply boundaries_at_lookup in E.
  - exists lastb. split; [|done]. rewrite last_lookup, take_length, drop_length, boundaries_at_length.
    rewrite lookup_take, lookup_drop by lia. rewrite <- El. f_equal. lia.
Qed.
Lemma part_in_line alpha first pos ps : well_cut alpha first ps -> in_line (boundaries_at pos ps).
Proof.
  intros Hc. split.
  - intros i b E. pose proof (boundary_between pos ps i b E). lia.
  - intros i j b c L E E'. by eapply (begin_strict alpha first pos ps Hc i j).
Qed.
Lemma hard_ends alpha t ps i b a : segmentation alpha t ps -> boundaries_at 0 ps !! i = Some b -> a <= i ->
  (match classify_boundaries (boundaries_at 0 ps) !! i with Some Hard => true | _ => false end) &&
    negb (tm_begin b =? byte_len (joined (take a ps))) = true <-> ends_part ps i.
Proof.
  intros Hseg Eb La. rewrite classify_lookup, Eb. cbn. rewrite boundaries_at_length.
  pose proof Eb as Eb'. apply boundaries_at_lookup in Eb' as (w & s & Ep & ->). cbn [tm_begin new_empty]. cbn [Nat.add].
  assert (forall st, (match classify_one (i =? length ps - 1) st with Hard => true | _ => false end) = true <->
    S i = length ps \/ 2 <= byte_len (tm_text st)) as Hcl.
  { intros st. unfold classify_one. pose proof (lookup_lt_Some _ _ _ Ep). destruct (Nat.eqb_spec i (length ps - 1)).
    - split; [left; lia|done].
    - destruct (Nat.ltb_spec 1 (byte_len (tm_text st))); [split; [by right|done]|]. destruct (_ || _); (split; [done|lia]). }
  rewrite andb_true_iff, Hcl, negb_true_iff, Nat.eqb_neq. cbn [tm_text new_empty]. rewrite byte_len_app.
  pose proof Hseg as (_ & _ & Hs). destruct (Hs i w s Ep) as (_ & _ & Hw & _).
  pose proof (start_mono 0 ps a i La) as Hm. unfold start_of in Hm. cbn [Nat.add] in Hm.
  split.
  - intros [H1 H2]. exists w, s. split; [done|]. split; [tauto|]. intros -> ->. cbn in H2. replace a with 0 in H2 by lia. done.
  - intros (w' & s' & E & H1 & H2). rewrite Ep in E. injection E as <- <-. split; [tauto|].
    assert (w <> []) as Hne by (destruct i; [by apply H2|apply Hw; lia]).
    assert (byte_len w <> 0) by (intros E0; by apply byte_len_0 in E0). lia.
Qed.

Section gather.
  Context (lc : N -> bool) (ses : str -> str -> list edit_instruction).
  Context (ln32 : f32 -> f32) (ln : f64 -> f64) (ws alpha : N -> bool) (solve : fst_graph -> nat -> list (list nat * f32)).
  Context (m : model) (p : search_parameters) (lookup : str -> res (list variant_result)) (t : str).
  Hypothesis (Hscorable : scorable m) (Hsound : solver_sound solve).
  Hypothesis (Hfinal : forall r, final_score (p_freq_weight p) r = vr_score (p_freq_weight p) r).
  Hypothesis (Hsp : alpha 32%N = false).
  Hypothesis (Hlookup : forall s b e l, at_bytes t b e s -> s <> [] -> length s <= 255 -> lookup s = Ok l -> exists ks, reads (m_alphabet m) s ks /\ looked_up lc ses m s ks p l).
  Hypothesis (Hshort : short_stretches alpha p t).
  #[local] Set Default Proof Using "Type".

  Lemma gather_offers ps bs a k lastb batch :
    segmentation alpha t ps -> find_boundaries alpha t = Ok bs -> 0 < k -> a + k <= length ps -> bs !! (a + k - 1) = Some lastb ->
    gather_batch lookup t (p_max_ngram p) (take k (drop a bs)) (byte_len (joined (take a ps))) (tm_begin lastb) = Ok batch ->
    offers lc ses m p ps a k batch.
  Proof using Hsp Hlookup Hshort.
    intros Hseg Ebs Hk L El H.
    set (I := fun (i : nat) (batch : list tmatch) => exists xss, length xss = i /\ batch = concat xss /\
      (forall n xs, xss !! n = Some xs -> Forall (fun x => tm_n x = S n) xs) /\
      forall n xs, xss !! n = Some xs -> exists words cs, xss !! 0 = Some words /\ stretches ps a k (S n) cs /\ Forall2 (offered lc ses m p words (S n)) cs xs).
    assert (wp (gather_batch lookup t (p_max_ngram p) (take k (drop a bs)) (byte_len (joined (take a ps))) (tm_begin lastb)) True
      (I (0 + length (seq 1 (p_max_ngram p))))) as G.
    { unfold gather_batch. apply wp_rfoldl; [by exists []|]. cbn [Nat.add]. intros n order acc Eo (xss & Hl & -> & Hn & Hx).
      apply lookup_seq in Eo as [-> Lo]. change (1 + n) with (S n). rewrite (candidates_part alpha t ps bs a k lastb n) by done. cbn [rbind].
      destruct (selects_shift (fun j => stretch (drop j ps) (S n) <> [])
        (fun i => negb (bool_decide (stretch (drop i (take k (drop a ps))) (S n) = []))) a
        (S_Text.candidate (byte_len (joined (take a ps))) (take k (drop a ps)) (S n)) (S_Text.candidate 0 ps (S n)) (k - n)) as (js & Hjs & Ejs).
      { intros i Li. rewrite stretch_part by lia. by rewrite negb_true_iff, bool_decide_eq_false. }
      { intros i Li. apply candidate_part. lia. }
      rewrite Ejs. set (cs := map _ js).
      assert (forall c, c ∈ cs -> tm_n c = S n /\ tm_text c <> [] /\ length (tm_text c) <= 255 /\ at_bytes t (tm_begin c) (tm_end c) (tm_text c)) as Hcs.
      { intros c Hc. apply elem_of_list_fmap in Hc as (j & -> & Hj). split; [done|]. cbn [tm_text S_Text.candidate set_n new_empty].
        assert (j ∈ seq a (k - n) /\ stretch (drop j ps) (S n) <> []) as [Hj1 Hj2].
        { clear -Hjs Hj. induction Hjs as [|x l l' Hx Hs IH|x l l' Hx Hs IH]; [inversion Hj| |].
          - apply elem_of_cons in Hj as [->|Hj]; [split; [left|done]|]. destruct (IH Hj). split; [by right|done].
          - destruct (IH Hj). split; [by right|done]. }
        split; [done|]. apply elem_of_list_In, in_seq in Hj1. split; [apply (Hshort ps j (S n)); [done|lia|lia]|].
        pose proof (candidate_at_bytes [] ps [] n j ltac:(lia)) as Hat. rewrite app_nil_r, <- (proj1 Hseg) in Hat. exact Hat. }
      destruct (rmapM (segment_variants lookup (S n) (concat xss)) cs) as [xs|] eqn:Er; [|done]. cbn [rbind wp].
      apply rmapM_inv in Er.
      assert (Forall (fun x => tm_n x = S n) xs) as Hxs.
      { clear -Er Hcs. induction Er as [|c x cs xs E F IH]; [constructor|]. constructor.
        - unfold segment_variants in E. destruct (_ || _).
          + destruct (lookup (tm_text c)) as [l|]; [|done]. cbn in E. injection E as <-. cbn [tm_n set_variants]. by destruct (Hcs c ltac:(left)).
          + injection E as <-. by destruct (Hcs c ltac:(left)).
        - apply IH. intros c' Hc'. apply Hcs. by right. }
      exists (xss ++ [xs]). split; [rewrite app_length; cbn; lia|]. split; [by rewrite concat_app, concat_cons, app_nil_r|].
      assert (forall i ys, (xss ++ [xs]) !! i = Some ys -> xss !! i = Some ys \/ (i = n /\ ys = xs)) as Hi.
      { intros i ys E. apply lookup_app_Some in E as [E|[Li E]]; [by left|right]. rewrite Hl in Li, E.
        destruct (i - n) as [|d] eqn:Ed; [|by destruct d]. injection E as <-. split; [lia|done]. }
      split.
      { intros i ys E. destruct (Hi i ys E) as [E'|[-> ->]]; [by apply Hn|done]. }
      intros i ys E. destruct (Hi i ys E) as [E'|[-> ->]].
      { destruct (Hx i ys E') as (words & cs' & Hw & Hst & HF). exists words, cs'. split; [|done]. by apply lookup_app_l_Some. }
      assert (exists words, (xss ++ [xs]) !! 0 = Some words) as [words Hw] by (destruct xss; by eexists).
      exists words, cs. split; [done|]. split.
      { exists js. split; [|done]. by replace (k + 1 - S n) with (k - n) by lia. }
      assert (forall c, (S n =? 1) || negb (redundant_match c (concat xss)) = true <-> wanted words (S n) c) as Hwant.
      { intros c. destruct n as [|n]; [cbn; split; [by left|done]|]. cbn [Nat.eqb orb]. rewrite negb_true_iff.
        destruct xss as [|w0 xss]; [done|]. cbn in Hw. injection Hw as ->. cbn [concat]. rewrite redundant_spec.
        - unfold wanted. split; [by right|]. by intros [?|?].
        - by apply (Hn 0).
        - intros x Hhead.
          assert (exists i ys, (words :: xss) !! S i = Some ys /\ x ∈ ys) as (i' & ys & E1 & E2).
          { clear -Hhead. induction xss as [|y xss IH]; [done|]. cbn [concat] in Hhead. destruct y as [|z y].
            - cbn [app] in Hhead. destruct (IH Hhead) as (i & ys & E & Hin). by exists (S i), ys.
            - cbn in Hhead. injection Hhead as ->. exists 0, (x :: y). split; [done|left]. }
          specialize (Hn _ _ E1). rewrite Forall_forall in Hn. rewrite (Hn x E2). lia. }
      clear -Er Hwant Hcs Hlookup. induction Er as [|c x cs xs E F IH]; [constructor|]. constructor.
      - destruct (Hcs c) as (_ & Hne & Hlen & Hat); [left|]. unfold segment_variants in E. destruct (_ || _) eqn:Ew.
        + destruct (lookup (tm_text c)) as [l|] eqn:Ek; [|done]. cbn in E. injection E as <-. left. split; [by apply Hwant|].
          destruct (Hlookup _ _ _ _ Hat Hne Hlen Ek) as (ks & ? & ?). by exists ks, l.
        + injection E as <-. right. split; [|done]. rewrite <- Hwant. congruence.
      - apply IH. intros c' Hc'. apply Hcs. by right. }
    rewrite H in G. cbn [wp Nat.add] in G. rewrite seq_length in G. destruct G as (xss & ? & ? & _ & ?). by exists xss.
  Qed.
  Lemma batches_searched ps l : segmentation alpha t ps -> let bs := boundaries_at 0 ps in
    forall i a out, l = drop i (zip (classify_boundaries bs) bs) -> a <= i -> (forall j, a <= j < i -> ~ ends_part ps j) ->
    batches ln32 ln ws solve lookup m p t bs l i (byte_len (joined (take a ps))) a = Ok out ->
    exists parts outs, parts_from ps a parts /\ Forall2 (part_searched lc ses ln32 ln ws solve m p ps) parts outs /\ out = concat outs.
  Proof using Hscorable Hsound Hfinal Hsp Hlookup Hshort.
    intros Hseg bs. assert (find_boundaries alpha t = Ok bs) as Ebs by (by apply find_boundaries_spec).
    assert (length bs = length ps) as Hlen by apply boundaries_at_length.
    assert (length (zip (classify_boundaries bs) bs) = length ps) as Hzip by (rewrite zip_with_length, classify_length; lia).
    induction l as [|[s b] l IH]; intros i a out El La Hno H.
    { cbn in H. injection H as <-. exists [], []. split; [|split; [constructor|done]]. apply parts_none. intros j Lj He.
      apply (Hno j); [|done]. split; [done|]. destruct He as (w & s & E & _). apply lookup_lt_Some in E.
      assert (length (drop i (zip (classify_boundaries bs) bs)) = 0) as E0 by (by rewrite <- El).
      rewrite drop_length, Hzip in E0. lia. }
    assert (zip (classify_boundaries bs) bs !! i = Some (s, b)) as Ez.
    { rewrite <- (Nat.add_0_r i), <- lookup_drop, <- El. done. }
    apply lookup_zip_with_Some in Ez as (s' & b' & [= <- <-] & Ecl & Eb).
    assert (i < length ps) as Li by (rewrite <- Hlen; by eapply lookup_lt_Some).
    assert (l = drop (S i) (zip (classify_boundaries bs) bs)) as El'.
    { change l with (drop 1 ((s, b) :: l)). rewrite El, drop_drop. f_equal. lia. }
    pose proof (hard_ends alpha t ps i b a Hseg Eb La) as He. fold bs in He. rewrite Ecl in He.
    cbn [batches] in H. destruct (match s with Hard => true | _ => false end && negb (tm_begin b =? byte_len (joined (take a ps)))) eqn:Ec.
    2: { apply (IH (S i) a out); [done|lia| |done]. intros j Lj. destruct (decide (j = i)) as [->|Hji]; [|apply Hno; lia].
         rewrite <- He. done. }
    assert (ends_part ps i) as Hend by (by apply He). clear He.
    apply andb_true_iff in Ec as [_ Ec]. apply negb_true_iff, Nat.eqb_neq in Ec.
    set (k := S i - a) in *. assert (a + k = S i) as Ek by lia. assert (bs !! (a + k - 1) = Some b) as Ebk by (rewrite <- Eb; f_equal; lia).
    destruct (slice t _ _) as [sl|]; [|done]. cbn [rbind] in H.
    destruct (gather_batch _ _ _ _ _ _) as [batch|] eqn:Eg; [|done]. cbn [rbind] in H.
    destruct (consolidate _ _ _ _ _ _ _ _ _) as [out1|] eqn:Eco; [|done]. cbn [rbind] in H.
    destruct (batches _ _ _ _ _ _ _ _ _ l _ _ _) as [rest|] eqn:Er; [|done]. cbn [rbind] in H. injection H as <-.
    assert (tm_end b = byte_len (joined (take (S i) ps))) as Eend by (by destruct (boundary_between 0 ps i b Eb) as [_ ->]).
    rewrite Eend in Er. destruct (IH (S i) (S i) rest El') as (parts & outs & Hp & Hf & ->); [lia|intros; lia|done|].
    exists ((a, k) :: parts), (out1 :: outs). split; [|split; [|done]].
    - replace k with (S (i - a)) by lia. apply parts_next.
      + intros j Lj. apply Hno. lia.
      + by replace (a + (i - a)) with i by lia.
      + by replace (a + S (i - a)) with (S i) by lia.
    - constructor; [|done]. exists (take k (drop a bs)), (tm_begin b), batch. cbn [fst snd].
      split; [apply part_bounds_at; [lia|lia|done]|]. split; [apply (gather_offers ps bs a k b); [done|done|lia|lia|done|done]|].
      apply consolidate_chosen; [done|done|done| |done].
      assert (length (take k (drop a ps)) = k) as Hlp by (rewrite take_length, drop_length; lia).
      assert (take k (drop a bs) = boundaries_at (byte_len (joined (take a ps))) (take k (drop a ps))) as Epart by (apply boundaries_part; lia).
      pose proof Hseg as Hcut0. apply segmentation_cut in Hcut0 as (Et & _ & Hcut0).
      assert (well_cut alpha (match a with 0 => true | _ => false end) (take k (drop a ps))) as Hcut by (by apply well_cut_take, well_cut_drop).
      pose proof (gather_wp solve alpha lookup m p t True (fun _ => True)) as W.
      assert (forall s b e, at_bytes t b e s -> s <> [] -> wp (lookup s) True (Forall (fun v => True))) as Hl1.
      { intros s0 b0 e0 _ _. destruct (lookup s0) as [l0|]; [|done]. cbn. clear. induction l0; by constructor. }
      assert (forall id, True -> wp (entry_tokens m id) True (fun _ => True)) as Hl2 by (intros id _; by destruct (entry_tokens m id)).
      assert (forall ids, wp (test_context_rules m ids) True (fun _ => True)) as Hl3 by (intros ids; by destruct (test_context_rules m ids)).
      specialize (W Hl1 Hl2 ltac:(done) Hl3 Hsound ltac:(done) Hsp ps bs a k b Hseg Ebs ltac:(lia) ltac:(lia) Ebk Ec). rewrite Eg in W. cbn [wp] in W. cbv zeta in W.
      destruct W as (W1 & _ & W3 & _). intros ss arcs Ea Hne.
      destruct (all_arcs_spec alpha _ _ _ Hcut (p_freq_weight p) batch 1 0 W1) as (ss' & arcs' & Ea' & _ & _ & Hss).
      rewrite <- Epart, Ea in Ea'. injection Ea' as <- <-. destruct W3 as [->|(x & j & Hin & Hst)]; [done|]. by eapply Hss.
  Qed.
End gather.

(** * The whole *)
Section whole.
  Context (lc : N -> bool) (ses : str -> str -> list edit_instruction).
  Context (ln32 : f32 -> f32) (ln : f64 -> f64) (ws alpha : N -> bool) (solve : fst_graph -> nat -> list (list nat * f32)).
  Context (m : model) (p : search_parameters) (t : str).
  Hypothesis (Hone : forall s ks l l', s <> [] -> length s <= 255 -> reads (m_alphabet m) s ks ->
    looked_up lc ses m s ks p l -> looked_up lc ses m s ks p l' -> l = l').
  Hypothesis (Hshort : short_stretches alpha p t).
  #[local] Set Default Proof Using "Type".

  Lemma stretches_det ps a k n cs cs' : stretches ps a k n cs -> stretches ps a k n cs' -> cs = cs'.
  Proof. intros (js & H & ->) (js' & H' & ->). by rewrite (selects_det _ _ _ _ H H'). Qed.
  Lemma stretches_short ps a k n cs c : segmentation alpha t ps -> a + k <= length ps -> n < p_max_ngram p -> stretches ps a k (S n) cs -> c ∈ cs ->
    tm_text c <> [] /\ length (tm_text c) <= 255.
  Proof using Hshort.
    clear Hone solve ses lc m ws ln ln32. intros Hseg L Ln (js & Hjs & ->) Hc. apply elem_of_list_fmap in Hc as (j & -> & Hj). cbn [tm_text S_Text.candidate set_n new_empty].
    assert (j ∈ seq a (k + 1 - S n) /\ stretch (drop j ps) (S n) <> []) as [Hj1 Hj2].
    { clear -Hjs Hj. induction Hjs as [|x l l' Hx Hs IH|x l l' Hx Hs IH]; [inversion Hj| |].
      - apply elem_of_cons in Hj as [->|Hj]; [split; [left|done]|]. destruct (IH Hj). split; [by right|done].
      - destruct (IH Hj). split; [by right|done]. }
    split; [done|]. apply elem_of_list_In, in_seq in Hj1. apply (Hshort ps j (S n)); [done|lia|lia].
  Qed.
  Lemma offered_det words n c x y : tm_text c <> [] -> length (tm_text c) <= 255 ->
    offered lc ses m p words n c x -> offered lc ses m p words n c y -> x = y.
  Proof using Hone.
    intros Hne Hl [(W & ks & l & R & H & ->)|[W ->]] [(W' & ks' & l' & R' & H' & ->)|[W' ->]]; try done.
    rewrite (reads_det _ _ _ _ R R') in *. by rewrite (Hone _ _ _ _ Hne Hl R' H H').
  Qed.
  Lemma offers_det ps a k batch batch' : segmentation alpha t ps -> a + k <= length ps ->
    offers lc ses m p ps a k batch -> offers lc ses m p ps a k batch' -> batch = batch'.
  Proof using Hone Hshort.
    clear solve ln ln32 ws. intros Hseg L (xss & Hl & -> & H) (yss & Hl' & -> & H'). f_equal.
    assert (forall n xs ys words cs cs', n < p_max_ngram p -> stretches ps a k (S n) cs -> Forall2 (offered lc ses m p words (S n)) cs xs ->
      stretches ps a k (S n) cs' -> Forall2 (offered lc ses m p words (S n)) cs' ys -> xs = ys) as G.
    { intros n xs ys words cs cs' Ln St F St' F'. rewrite (stretches_det _ _ _ _ _ _ St' St) in F'. eapply Forall2_det; [|exact F|exact F'].
      intros c x y Hc. destruct (stretches_short ps a k n cs c Hseg L Ln St Hc) as [Hne Hs]. by apply offered_det. }
    assert (forall words words', xss !! 0 = Some words -> yss !! 0 = Some words' -> words = words') as Hw.
    { intros words words' E E'. destruct (H 0 _ E) as (w & cs & Ew & St & F), (H' 0 _ E') as (w' & cs' & Ew' & St' & F').
      pose proof (lookup_lt_Some _ _ _ E). eapply (G 0 _ _ w cs cs'); [lia|done|done|done|].
      eapply Forall2_impl; [exact F'|]. intros c x [(W & R)|[W _]]; [left; split; [by left|done]|]. exfalso. apply W. by left. }
    apply list_eq_same_length with (n := p_max_ngram p); [done|done|]. intros n xs ys Ln E E'.
    destruct (H n _ E) as (w & cs & Ew & St & F), (H' n _ E') as (w' & cs' & Ew' & St' & F').
    rewrite (Hw _ _ Ew Ew') in F. by apply (G n xs ys w' cs cs').
  Qed.
  Lemma part_searched_det ps ak out out' : segmentation alpha t ps ->
    part_searched lc ses ln32 ln ws solve m p ps ak out -> part_searched lc ses ln32 ln ws solve m p ps ak out' -> out = out'.
  Proof using Hone Hshort.
    intros Hseg (bs & e & batch & B & O & C) (bs' & e' & batch' & B' & O' & C').
    destruct (part_bounds_det _ _ _ _ _ _ _ B B') as [<- <-]. destruct ak as [a k]. cbn [fst snd] in *.
    pose proof B as (Hlen & Hb & b & El & _).
    assert (0 < k) as Hk by (destruct bs; [done|cbn in Hlen; lia]).
    rewrite last_lookup, Hlen in El. pose proof (Hb _ _ El) as Hlast.
    assert (a + k <= length ps) as L by (destruct Hlast as (w & s & E & _); apply lookup_lt_Some in E; lia).
    rewrite <- (offers_det _ _ _ _ _ Hseg L O O') in C'. eapply chosen_det; [|exact C|exact C'].
    assert (boundaries_at 0 ps !! (a + k - 1) = Some b) as Elb.
    { replace (a + k - 1) with (a + Nat.pred k) by lia. apply boundaries_at_lookup. destruct Hlast as (w & s & E & ->). by exists w, s. }
    pose proof (part_bounds_at ps a k b L Hk Elb) as B2. destruct (part_bounds_det _ _ _ _ _ _ _ B B2) as [-> _].
    rewrite boundaries_part by done. apply segmentation_cut in Hseg as (_ & _ & Hcut).
    eapply (part_in_line alpha). by apply well_cut_take, well_cut_drop.
  Qed.
  Lemma searched_det ms ms' : searched lc ses ln32 ln ws alpha solve m p t ms -> searched lc ses ln32 ln ws alpha solve m p t ms' -> ms = ms'.
  Proof using Hone Hshort.
    intros [N ->|ps parts outs N S Hseg Hp F R] [N' ->|ps' parts' outs' N' S' Hseg' Hp' F' R'].
    - done.
    - by destruct N.
    - by destruct N'.
    - rewrite <- (segmentation_unique _ _ _ _ Hseg Hseg') in *. rewrite <- (parts_from_det _ _ _ _ Hp Hp') in *.
      assert (outs = outs') as <-.
      { eapply Forall2_det; [|exact F|exact F']. intros ak x y _. by apply part_searched_det. }
      eapply when_det; [|exact R|exact R']. intros x y A1 A2. eapply Forall2_det; [|exact A1|exact A2].
      intros u v w _ H1 H2. exact (relocated_det _ _ _ _ H1 H2).
  Qed.
End whole.

Lemma build_same o o' m m' : some_order o' -> build o o' m = Ok m' -> S_Program.same_contents m m'.
Proof.
  intros Ho H. destruct (build_split _ _ _ _ Ho H) as (m1 & ng & fs & E & _ & ->). unfold build_index in E.
  apply rbind_ok in E as (hs & _ & E). apply rbind_ok in E as (ix & _ & E). injection E as <-. done.
Qed.
Lemma index_searchable m m' : built m m' -> m_index m' <> ∅ <-> searchable m'.
Proof.
  intros B. destruct (bt_build _ _ B) as (o & o' & Ho & Ho' & Hb). pose proof (build_right _ _ _ _ (bt_alphabet _ _ B) Ho Ho' Hb) as R.
  unfold searchable. rewrite (ir_decoder _ _ R). split.
  - intros H. apply map_choose in H as (h & nd & E). destruct (ir_node _ _ R h nd E) as [Hne _].
    destruct (nd_instances nd) as [|id l] eqn:Ei; [done|]. destruct (proj1 (ir_content _ _ R h id)) as (v & [Hv Hf] & _).
    { exists nd. split; [done|]. rewrite Ei. left. }
    exists v. split; [by eapply elem_of_list_lookup_2|done].
  - intros (v & Hin & Hf) E. apply elem_of_list_lookup in Hin as [id Hid].
    destruct (reads_total_unique (m_alphabet m) (vv_text v) (bt_alphabet _ _ B)) as (ks & Hr & _).
    pose proof (anahash_reads _ _ _ (bt_alphabet _ _ B) Hr) as Eh.
    destruct (proj2 (ir_content _ _ R _ id) (ex_intro _ v (conj (conj Hid Hf) Eh))) as (nd & En & _).
    rewrite E in En. done.
Qed.
Lemma remap_relocated t ms ms' : remap_offsets t ms = Ok ms' -> Forall2 (relocated t) ms ms'.
Proof.
  unfold remap_offsets. cbv zeta. intros H. apply rmapM_inv in H. eapply Forall2_impl; [exact H|]. cbn beta. intros x x'.
  destruct (convert_one _ (tm_begin x)) as [b|] eqn:Eb; [|done]. destruct (convert_one _ (tm_end x)) as [e|] eqn:Ee; [|done].
  cbn [rbind]. intros [= <-]. apply convert_spec in Eb as (p1 & q1 & E1 & L1 & ->), Ee as (p2 & q2 & E2 & L2 & ->).
  exists (length p1), (length p2). split; [by exists p1, q1|]. split; [by exists p2, q2|]. done.
Qed.

Section statement.
  Context (lc : N -> bool) (ses : str -> str -> list edit_instruction).
  Context (ln32 : f32 -> f32) (ln : f64 -> f64) (ws alpha : N -> bool) (solve : fst_graph -> nat -> list (list nat * f32)).
  Context (m m' : model) (p : search_parameters) (t : str).
  Hypothesis (B : built m m') (T : tame m p) (Hsc : scorable m') (Hsound : solver_sound solve) (Hsp : alpha 32%N = false).
  Hypothesis (Hlen : (N.of_nat (length t) < 65281)%N) (Hshort : short_stretches alpha p t).
  #[local] Set Default Proof Using "Type".

  Lemma same_model : S_Program.same_contents m m'.
  Proof using B. destruct (bt_build _ _ B) as (o & o' & Ho & Ho' & Hb). by eapply build_same. Qed.
  Lemma lookups_one s ks l l' : s <> [] -> length s <= 255 -> reads (m_alphabet m') s ks ->
    looked_up lc ses m' s ks p l -> looked_up lc ses m' s ks p l' -> l = l'.
  Proof using B T.
    clear Hlen. intros Hne Hl R H H'. pose proof same_model as Sm. pose proof (P_Query.same_contents_sym _ _ Sm) as Sm'.
    apply (P_Query.looked_up_same _ _ _ _ _ _ _ _ Sm') in H, H'. rewrite (S_Program.sc_alphabet _ _ Sm) in R.
    pose proof (reads_shorter _ _ _ R) as Lk.
    destruct (one_outcome lc ses m m' s ks p B) as (r & _ & Hr); [|lia|done|].
    - split; [done|by apply (reads_nonempty _ _ _ R)|lia].
    - rewrite (Hr _ H), (Hr _ H'). done.
  Qed.
  Lemma one_search ms ms' : searched lc ses ln32 ln ws alpha solve m' p t ms -> searched lc ses ln32 ln ws alpha solve m' p t ms' -> ms = ms'.
  Proof using B T Hshort. apply searched_det; [apply lookups_one|done]. Qed.
  Lemma search_sound lookup ms :
    (forall s b e l, at_bytes t b e s -> s <> [] -> lookup s = Ok l -> finds lc ses m' s p l) ->
    find_all_matches ln32 ln ws solve alpha lookup m' t p = Ok ms -> searched lc ses ln32 ln ws alpha solve m' p t ms.
  Proof using B T Hsc Hsound Hsp Hshort.
    clear Hlen. intros Hk H. unfold find_all_matches in H.
    destruct (bool_decide_reflect (t = [])) as [Et|Et]; [injection H as <-; apply searched_nothing; [by left|done]|].
    pose proof (index_searchable _ _ B) as Hi.
    destruct (bool_decide_reflect (m_index m' = ∅)) as [Ei|Ei]; [injection H as <-; apply searched_nothing; [right; intros Q; by apply Hi in Q|done]|].
    destruct (find_boundaries_cut alpha t) as (ps & Hseg & Ebs). rewrite Ebs in H. cbn [rbind] in H.
    destruct (batches _ _ _ _ _ _ _ _ _ _ _ _ _) as [out|] eqn:Eb; [|done]. cbn [rbind] in H.
    destruct (batches_searched lc ses ln32 ln ws alpha solve m' p lookup t) with (ps := ps)
      (l := zip (classify_boundaries (boundaries_at 0 ps)) (boundaries_at 0 ps)) (i := 0) (a := 0) (out := out)
      as (parts & outs & Hp & HF & ->); try done.
    - intros r. apply final_is, (tm_weight _ _ T).
    - intros s b e l Hat Hne Hl Hs. pose proof same_model as Sm. rewrite (S_Program.sc_alphabet _ _ Sm).
      destruct (reads_total_unique (m_alphabet m) s (bt_alphabet _ _ B)) as (ks & R & _). exists ks. split; [done|].
      apply (P_Query.looked_up_same _ _ _ _ _ _ _ _ Sm). pose proof (reads_shorter _ _ _ R) as Lk.
      apply (lookup_exact lc ses m m'); [done| |lia|done|by eapply Hk]. split; [done|by apply (reads_nonempty _ _ _ R)|lia].
    - intros j Lj. lia.
    - eapply (searched_text lc ses ln32 ln ws alpha solve m' p t ms ps parts outs); [done|by apply Hi|done|done|done|].
      destruct (p_unicodeoffsets p); [left|right]; (split; [done|]); [by apply remap_relocated|by injection H as <-].
  Qed.
  Lemma search_exact : solver_complete solve -> 0 < p_max_seq p ->
    exists F, forall lookup, looks_up lc ses F m' p lookup ->
      forall ms, find_all_matches ln32 ln ws solve alpha lookup m' t p = Ok ms <-> searched lc ses ln32 ln ws alpha solve m' p t ms.
  Proof using B T Hsc Hsound Hsp Hlen Hshort.
    intros Hc H0. destruct (search_succeeds lc ses ln32 ln ws solve alpha m m' t p B T Hsc Hsound Hc H0 Hsp Hlen) as (F1 & ms0 & H1).
    set (strs := List.filter (fun s => negb (bool_decide (s = []))) (P_Sequence.parts t)).
    destruct (enough_fuel lc ses m' p strs) as [F2 H2].
    { intros s Hin%elem_of_list_In. apply filter_In in Hin as [Hin Hb]. apply elem_of_list_In in Hin.
      assert (s <> []) as Hne by (by destruct (bool_decide_reflect (s = []))).
      destruct (reads_total_unique (m_alphabet m) s (bt_alphabet _ _ B)) as (ks & Hr & _).
      apply (P_Results.total lc ses m m' s ks B); [|done]. split; [done|by apply (reads_nonempty _ _ _ Hr)|].
      pose proof (reads_shorter _ _ _ Hr). pose proof (part_length _ _ Hin). lia. }
    exists (F1 + F2). intros lookup Hk.
    assert (find_all_matches ln32 ln ws solve alpha lookup m' t p = Ok ms0) as E.
    { apply H1. intros s. destruct (Hk s) as (f & order & L & ? & ?). exists f, order. split; [lia|done]. }
    assert (searched lc ses ln32 ln ws alpha solve m' p t ms0) as S0.
    { apply (search_sound lookup); [|done]. intros s b e l Hat Hne Hs.
      destruct (H2 s) as (r & Hr & Hf).
      { apply elem_of_list_In, filter_In. split; [apply elem_of_list_In; by eapply part_in|]. by rewrite bool_decide_eq_false_2. }
      destruct (Hk s) as (f & order & L & Ho & Ek). rewrite Ek, (Hf f order) in Hs by (done || lia). injection Hs as <-. done. }
    intros ms. split.
    - intros E'. rewrite E in E'. by injection E' as <-.
    - intros Hs. by rewrite (one_search _ _ Hs S0).
  Qed.
End statement.
