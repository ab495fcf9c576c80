(** Proofs about learning mode with several iterations and inputs. *)
From Coq Require String Ascii.
From Coq Require Import Lia.
From Verif Require Import M_Base M_Utf8 M_Anahash M_Iter M_Distance M_Float M_Types M_Model M_Confusable M_ConfList M_Rules M_Search M_Text M_Values.
From Verif Require Import M_Matches M_Learn M_Cli M_Main M_Options M_Program.
From Verif Require Import S_Anahash S_Text S_Model S_Search S_Lookup S_Rules S_Learn S_Cli S_Options S_SearchAll S_Main S_RuleFile S_Program S_SearchRun S_LearnRun S_LearnMore.
From Verif Require Import P_Base P_Model P_Options P_Start P_Query P_SearchRun P_Learn P_LearnRun.
From Verif Require S_Matches P_Anahash P_Lm P_Vocab P_Files P_Links P_Matches P_CliOut P_Cli P_LookupAll P_Main P_Index P_Text P_Results C_LearnVia.
Import String.StringSyntax Ascii.AsciiSyntax.
From stdpp Require Import options.
#[local] Arguments lit s%string_scope.

Lemma build_counts o o' m m' g : some_order o' -> words_counted m -> 1 <= length (m_freq_sum m) -> build o o' m = Ok m' ->
  (default 0 (m_ngrams m' !! g) <= default 0 (m_ngrams m !! g) + sum_frequency (m_decoder m))%N.
Proof.
  intros Ho W L B. destruct (build_split _ _ _ _ Ho B) as (m1 & ng & fs & E & R & ->).
  pose proof (build_index_vocab _ _ _ E) as (D1 & E1 & A1).
  assert (m_freq_sum m1 = m_freq_sum m /\ m_ngrams m1 = m_ngrams m) as [F1 N1].
  { unfold build_index in E. apply rbind_ok in E as (hs & _ & E). apply rbind_ok in E as (ix & _ & E). by injection E as <-. }
  rewrite F1 in R. destruct (P_Lm.lm_run m1 (length (m_decoder m1)) _ _ _ _ ltac:(intros id v; rewrite D1; apply W) L ltac:(done) R) as (ng' & fs' & Heq & L' & Hn & _).
  injection Heq as <- <-. cbn [m_ngrams]. rewrite Hn, N1. etransitivity; [apply add_opt_bounded|]. apply N.add_le_mono_l.
  etransitivity; [apply P_Lm.sum_filter_le|]. rewrite D1, firstn_all. done.
Qed.
Lemma build_frame o o' m m' : some_order o' -> build o o' m = Ok m' -> same_contents m m'.
Proof.
  intros Ho B. destruct (build_split _ _ _ _ Ho B) as (m1 & ng & fs & E & R & ->).
  unfold build_index in E. apply rbind_ok in E as (hs & _ & E). apply rbind_ok in E as (ix & _ & E). injection E as <-. by split.
Qed.
Lemma learned_references prev l m m1 : learned prev l m m1 ->
  forall id v r s, m_decoder m1 !! id = Some v -> (r, s) ∈ stored_references v ->
    (exists v0, m_decoder m !! id = Some v0 /\ (r, s) ∈ stored_references v0) \/ (exists x, x ∈ l /\ vr_id x.2 = r /\ vr_dist x.2 = s).
Proof.
  intros L id v' r s D' Hr.
  assert (forall id, (r, s) ∈ declared_references id (links_for m1 l) -> exists x, x ∈ l /\ vr_id x.2 = r /\ vr_dist x.2 = s) as G.
  { intros i Hs. unfold declared_references in Hs. apply elem_of_list_fmap in Hs as (x & [= -> ->] & Hx). apply elem_of_list_filter in Hx as [_ Hx].
    unfold links_for in Hx. apply elem_of_list_fmap in Hx as (z & -> & Hz). by exists z. }
  destruct (m_decoder m !! id) as [v|] eqn:D.
  - destruct (le_old _ _ _ _ L id v D) as (v2 & D2 & K). rewrite D' in D2. injection D2 as <-. rewrite (el_references _ _ _ _ _ K) in Hr.
    apply elem_of_app in Hr as [Hr|Hr]; [left; by exists v|right; by eapply G].
  - destruct (le_new _ _ _ _ L id v' D' D) as (_ & _ & v & Nw & K). rewrite (el_references _ _ _ _ _ K) in Hr. apply new_item_empty in Nw.
    unfold stored_references in Hr at 1. rewrite Nw in Hr. apply elem_of_app in Hr as [Hr|Hr]; [by apply elem_of_nil in Hr|right; by eapply G].
Qed.
Lemma transfer_same m m' d e : same_contents m m' -> same_contents (with_vocab m' d e) (with_vocab m d e).
Proof. intros []. by split. Qed.

Section step.
  Context (ws lc alpha : N -> bool) (ln32 : f32 -> f32) (ln : f64 -> f64) (ses : str -> str -> list edit_instruction) (solve : fst_graph -> nat -> list (list nat * f32)).
  Context (o : list (N * node) -> list (N * node)) (o' : list (str * vocab_id) -> list (str * vocab_id)) (o'' : list (nat * list N) -> list (nat * list N)).
  Context (Ho : some_order o) (Ho' : some_order o') (Ho'' : some_order o'') (p : search_parameters).
  Record state (ms mi : model) (B : N) : Prop := {
    st_pred : exists m0, built m0 mi /\ same_contents m0 ms /\ links_inside m0 /\ tame m0 p;
    st_same : same_contents ms mi;
    st_words : words_counted mi;
    st_totals : 1 <= length (m_freq_sum mi);
    st_inverse : lookups_inverse ms;
    st_self : no_self_links ms;
    st_inside : variants_inside ms;
    st_counts : forall g, (default 0 (m_ngrams mi !! g) <= B)%N;
    st_conf : m_confusables ms = [];
  }.
  #[local] Notation learns fuel mi lines := (learn_variants (lookup_in lc ses o'' fuel mi (in_bytes p)) (search_in ws lc alpha ln32 ln ses solve o'' fuel mi (in_bytes p)) o o' mi true true lines).

  Lemma state_pairs ms mi B s : state ms mi B -> lookup_line s -> count_spaces s < 255 ->
    exists l, line_pairs lc ses ln32 ln ws alpha solve ms mi p true s l /\ Forall (fun x => unit_score (vr_dist x.2)) l.
  Proof using Ho''.
    intros [(m0 & Bt & S0 & I0 & T) _ _ _ _ _ _ _ Cf] Hl Hs. destruct (built_answers lc ses ms m0 mi s p Bt S0 I0 T Hl) as (l & An).
    exists (map (pair s) l). split; [by apply strict_pairs|]. destruct An as [(ks & Hr & _) _ Hf _ _ _].
    pose proof (reads_short _ _ _ Hr) as Hk. destruct Hl as [Hq1 Hq2].
    assert (ks <> []) as Hks by (eapply reads_some; [exact Hr|]; by destruct s; [cbn in Hq1; lia|]).
    assert (query m0 s ks) as Qu by (split; [by rewrite <- (sc_alphabet _ _ S0)|done|lia]).
    pose proof (P_Results.unit_scores lc ses m0 mi s ks Bt Qu p l T ltac:(by rewrite <- (sc_confusables _ _ S0)) Hf) as U.
    apply Forall_forall. intros x (r & -> & Hr')%elem_of_list_fmap. rewrite Forall_forall in U. by apply U.
  Qed.

  Lemma step ms mi B lines : state ms mi B -> Forall (fun s => lookup_line s /\ count_spaces s < 255) lines ->
    (B + sum_frequency (m_decoder ms) + N.of_nat (sum_list (map byte_len lines)) < 4294967296)%N ->
    exists l ms1 mi1 c F, iteration lc ses p lines ms l ms1 /\
      state ms1 mi1 (B + sum_frequency (m_decoder ms) + N.of_nat (sum_list (map byte_len lines)))%N /\
      (sum_frequency (m_decoder ms1) <= sum_frequency (m_decoder ms) + N.of_nat (sum_list (map byte_len lines)))%N /\
      (c = 0 <-> different ms1 l = []) /\
      forall fuel, F <= fuel -> learns fuel mi lines = Ok (mi1, c).
  Proof using Ho Ho' Ho''.
    intros St Hls Rm.
    assert (exists all, Forall2 (fun s l => line_pairs lc ses ln32 ln ws alpha solve ms mi p true s l /\ Forall (fun x => unit_score (vr_dist x.2)) l) lines all) as (all & Fa).
    { clear Rm. induction Hls as [|s l [H1 H2] _ (all & IH)]; [exists []; constructor|]. destruct (state_pairs _ _ _ s St H1 H2) as (x & Hx).
      exists (x :: all). by constructor. }
    destruct St as [(m0 & Bt & S0 & I0 & T) SC Wc Lf Wi Ns Vi Hct Cf].
    assert (exists F, forall fuel, F <= fuel -> rmapM (find_variants_for_learning (lookup_in lc ses o'' fuel mi (in_bytes p)) (search_in ws lc alpha ln32 ln ses solve o'' fuel mi (in_bytes p)) true) lines = Ok all) as (F & HF).
    { clear -Fa Ho''. induction Fa as [|s l lines all [[_ _ (F1 & H1) _ _] _] _ (F2 & H2)]; [by exists 0|]. exists (F1 `max` F2). intros fuel Hf. cbn [rmapM].
      rewrite H1 by (done || lia). cbn [rbind]. rewrite H2 by lia. done. }
    assert (alphabet_ok (m_alphabet mi)) as AO.
    { pose proof (bt_alphabet _ _ Bt) as H. by rewrite <- (sc_alphabet _ _ S0), <- (sc_alphabet _ _ SC) in H. }
    assert (Forall (fun x => vr_id x.2 < length (m_decoder mi) /\ count_spaces x.1 < 255) (concat all)) as Hin.
    { rewrite (sc_decoder _ _ SC). apply Forall_concat. clear -Fa. induction Fa as [|s l ? ? [[_ _ _ H _] _] _ IH]; constructor; done. }
    assert (Forall (fun x => unit_score (vr_dist x.2)) (concat all)) as Hun.
    { apply Forall_concat. clear -Fa. induction Fa as [|s l ? ? [_ H] _ IH]; constructor; done. }
    assert (changes None (map fst (concat all)) <= sum_list (map byte_len lines)) as Hch.
    { apply changes_prev. eapply Forall2_impl; [exact Fa|]. intros s l [H _]. apply H. }
    assert (lookups_inverse mi) as Wi'. { intros t id. rewrite (sc_encoder _ _ SC), (sc_decoder _ _ SC). apply Wi. }
    assert (no_self_links mi) as Ns'. { intros id v. rewrite (sc_decoder _ _ SC). apply Ns. }
    destruct (learn_run_ok (concat all) mi 0 None Wi' Ns' AO Hin) as (m1 & c1 & prev1 & E1 & [T1 T2 T3]); [done|rewrite (sc_decoder _ _ SC); lia|].
    destruct (learn_run (concat all) mi 0 None m1 c1 prev1 Wi' Ns') as [Le Hc1]; [eapply Forall_impl; [exact Hin|]; by intros x [? _]|done|exact E1|].
    assert (m_alphabet m1 = m_alphabet mi /\ m_freq_sum m1 = m_freq_sum mi /\ m_ngrams m1 = m_ngrams mi /\ m_confusables m1 = m_confusables mi) as (R1 & R2 & R3 & R4).
    { rewrite (le_rest _ _ _ _ Le). done. }
    destruct (rebuild_succeeds o o' m1 B) as (m2 & B2); [by rewrite R1|done|by apply T3|by rewrite R2|intros g; rewrite R3; apply Hct|rewrite T1, (sc_decoder _ _ SC); lia|].
    pose proof (build_frame _ _ _ _ Ho' B2) as Fr.
    set (mx := with_vocab ms (m_decoder m1) (m_encoder m1)).
    assert (learned None (concat all) ms mx) as Lx by (by eapply learned_transfer).
    assert (in_order (concat all) ms mx) as Ox.
    { unfold in_order. cbn [mx m_decoder with_vocab]. by rewrite T2, (sc_decoder _ _ SC). }
    assert (length (m_decoder ms) <= length (m_decoder mx)) as Hlen by (apply (f_equal length) in Ox; rewrite app_length, !map_length in Ox; lia).
    assert (same_contents m1 mx) as S1.
    { rewrite (le_rest _ _ _ _ Le). by apply transfer_same. }
    assert (sum_frequency (m_decoder m1) <= sum_frequency (m_decoder ms) + N.of_nat (sum_list (map byte_len lines)))%N as Hsum by (rewrite T1, (sc_decoder _ _ SC); lia).
    exists (concat all), mx, m2, c1, F. split; [|split; [|split; [|split]]].
    - exists all. split; [|done]. eapply Forall2_impl; [exact Fa|]. intros s l [H _]. exact (lp_spec _ _ _ _ _ _ _ _ _ _ _ _ _ H).
    - assert (links_inside m1) as I1.
      { intros id v r s D H. assert (length (m_decoder mi) <= length (m_decoder m1)) as Hl' by (rewrite (sc_decoder _ _ SC); exact Hlen).
        destruct (learned_references _ _ _ _ Le id v r s D H) as [(v0 & D0 & H0)|(x & Hx & <- & _)].
        - rewrite (sc_decoder _ _ SC), (sc_decoder _ _ S0) in D0. pose proof (I0 id v0 r s D0 H0) as Hi. rewrite <- (sc_decoder _ _ S0), <- (sc_decoder _ _ SC) in Hi. lia.
        - rewrite Forall_forall in Hin. destruct (Hin x Hx). lia. }
      split.
      + exists m1. split; [by eapply C_LearnVia.learned_built|]. split; [done|]. split; [done|].
        destruct T as [Tw _ _ _ Tl _]. assert (m_confusables m1 = []) as Cf1 by (rewrite R4, (sc_confusables _ _ SC); exact Cf). split.
        * done.
        * rewrite Cf1. cbn. lia.
        * rewrite Cf1. constructor.
        * done.
        * intros id v r s D H. destruct (learned_references _ _ _ _ Le id v r s D H) as [(v0 & D0 & H0)|(x & Hx & _ & <-)].
          -- rewrite (sc_decoder _ _ SC), (sc_decoder _ _ S0) in D0. by eapply Tl.
          -- rewrite Forall_forall in Hun. by apply Hun.
        * intros id v D. pose proof (sum_elem _ _ _ D). lia.
      + eapply same_contents_trans; [apply same_contents_sym; exact S1|exact Fr].
      + intros id v. rewrite (sc_decoder _ _ Fr). by apply T3.
      + eapply build_totals; [done| |by rewrite R2|exact B2]. by apply T3.
      + exact (le_inverse _ _ _ _ Lx).
      + by eapply learned_no_self.
      + by eapply learned_inside.
      + intros g. etransitivity; [eapply (build_counts o o' m1 m2 g Ho'); [by apply T3|by rewrite R2|exact B2]|]. rewrite R3. specialize (Hct g). lia.
      + exact Cf.
    - exact Hsum.
    - rewrite Hc1. cbn [plus]. change (different mx (concat all)) with (different m1 (concat all)). split; [apply nil_length_inv|by intros ->].
    - intros fuel Hf. unfold learn_variants. rewrite (HF fuel Hf). cbn [rbind]. rewrite E1. cbn [rbind]. rewrite B2. done.
  Qed.

  Lemma many k : forall ms mi B T b lines, state ms mi B -> Forall (fun s => lookup_line s /\ count_spaces s < 255) lines -> sum_list (map byte_len lines) <= b ->
    (sum_frequency (m_decoder ms) + N.of_nat k * N.of_nat b <= T)%N -> (B + N.of_nat k * T < 4294967296)%N ->
    exists ms1 mi1 F, iterations lc ses p lines k ms ms1 /\ state ms1 mi1 (B + N.of_nat k * T)%N /\
      (sum_frequency (m_decoder ms1) <= sum_frequency (m_decoder ms) + N.of_nat k * N.of_nat b)%N /\
      forall fuel, F <= fuel -> learn_iterations ws lc alpha ln32 ln ses solve o o' o'' fuel k (in_bytes p) true lines mi = Ok mi1.
  Proof using Ho Ho' Ho''.
    induction k as [|k IH]; intros ms mi B T b lines St Hls Hb HT HB.
    { exists ms, mi, 0. split; [constructor|]. split; [by replace (B + N.of_nat 0 * T)%N with B by lia|]. split; [lia|done]. }
    assert (forall ms mi B B', state ms mi B -> (B <= B')%N -> state ms mi B') as Mono.
    { clear. intros ms mi B B' [] H. split; try done. intros g. apply (N.le_trans _ B); [apply st_counts0|exact H]. }
    assert (N.of_nat (S k) * N.of_nat b = N.of_nat b + N.of_nat k * N.of_nat b)%N as Kb by lia.
    assert (N.of_nat (S k) * T = T + N.of_nat k * T)%N as KT by lia.
    assert (N.of_nat (sum_list (map byte_len lines)) <= N.of_nat b)%N as Hb' by lia.
    destruct (step ms mi B lines St Hls) as (l & ms1 & mi1 & c & F1 & It & St1 & Hs1 & Hc & HF1); [lia|].
    destruct (IH ms1 mi1 (B + T)%N T b lines) as (ms2 & mi2 & F2 & Its & St2 & Hs2 & HF2); [eapply Mono; [exact St1|lia]|done|done|lia|lia|].
    destruct (decide (c = 0)) as [Ec|Ec].
    - exists ms1, mi1, F1. split; [eapply it_last; [exact It|by apply Hc]|]. split; [eapply Mono; [exact St1|lia]|]. split; [lia|].
      intros fuel Hf. cbn [learn_iterations]. rewrite (HF1 fuel Hf). cbn [rbind]. by rewrite Ec.
    - exists ms2, mi2, (F1 `max` F2). split; [eapply it_more; [exact It|by rewrite <- Hc|exact Its]|]. split; [eapply Mono; [exact St2|lia]|]. split; [lia|].
      intros fuel Hf. cbn [learn_iterations]. rewrite (HF1 fuel) by lia. cbn [rbind]. rewrite (proj2 (Nat.eqb_neq _ _) Ec). apply HF2. lia.
  Qed.
End step.

Section run.
  Context (pf : str -> option f64) (pf32 : str -> option f32) (fmt : f64 -> str) (ws lc alpha : N -> bool) (ln32 : f32 -> f32) (ln : f64 -> f64).
  Context (ps : str -> option (list edit_instruction)) (ses : str -> str -> list edit_instruction) (solve : fst_graph -> nat -> list (list nat * f32)).
  Context (o : list (N * node) -> list (N * node)) (o' : list (str * vocab_id) -> list (str * vocab_id)) (o'' : list (nat * list N) -> list (nat * list N)).
  Context (fs : str -> option (list (option str))) (ts : list typed).
  Context (W : well_typed Learn ts) (debug : option str) (P : tool_parameters) (stdin : list (option str)) (k : nat) (lls : list (list str)).
  Context (A : strict_asked pf pf32 fs stdin debug ts P k lls) (m : model) (C : contents_say ws pf pf32 ps fs Learn ts m) (L : within_limits m).
  Context (Cf : m_confusables m = []) (Rm : room_for m (k * length lls) (all_bytes lls)).
  Context (Ho : some_order o) (Ho' : some_order o') (Ho'' : some_order o'').
  Context (Hj : ~ flag_typed ts "json") (Hm : ~ flag_typed ts "multi-output").
  #[local] Notation prog fuel := (program pf pf32 fmt ws lc alpha ln32 ln ps ses solve o o' o'' fs stdin fuel (Invocation debug (Some Learn) ts)).
  #[local] Notation p := (tp_search P).

  Lemma more_loaded : exists m', loaded_model pf pf32 ws ps o o' fs Learn ts = Ok m' /\ state p m m' (sum_frequency (m_decoder m)).
  Proof using W A C L Cf Ho Ho' solve.
    destruct (loaded_built pf pf32 ws ps o o' fs Learn ts W m Ho Ho' C L) as (m' & m0 & E & SC & K' & Wc & Bt & S0 & I0 & HT).
    exists m'. split; [done|].
    assert (forall ss, sources_typed fs ts ss -> length ss <= 256) as Hl.
    { intros ss Hss. destruct (cs_entries _ _ _ _ _ _ _ _ C) as (ss' & a & l & r & L' & Hs & _ & _ & _ & _ & _ & Hx).
      rewrite (sources_typed_det _ _ _ _ Hss Hs), <- (map_length source_name), <- Hx. pose proof (wl_files _ L). lia. }
    destruct (load_contents pf pf32 ws ps o o' fs Learn ts W m' Ho' Hl E) as (C' & m2 & B & _ & _ & _ & SC2 & Hng & Hfs).
    destruct (contents_inverse _ _ _ _ _ _ _ _ C) as [Wi Ns]. pose proof (contents_inside _ _ _ _ _ _ _ _ C) as Vi.
    split.
    - exists m0. split; [done|]. split; [done|]. split; [done|]. apply HT. exact (sk_weight _ _ _ _ _ _ _ _ _ A).
    - done.
    - done.
    - eapply (build_totals o o' m2 m'); [done| |by rewrite Hfs|exact B]. intros id v. rewrite <- (sc_decoder _ _ SC2). apply Wc.
    - done.
    - done.
    - done.
    - intros g. rewrite <- (sc_decoder _ _ SC). exact (counts_bounded m' g K').
    - exact Cf.
  Qed.

  Lemma flags l : flag_defined Learn l = true -> is_present Learn ts l = true <-> TFlag l ∈ ts.
  Proof using W. intros H. apply flag_spec; [by apply accepted_spec|done]. Qed.

  #[local] Notation files fuel mi input ns := (over_files fmt ws lc alpha ln32 ln ses solve o o' o'' fs fuel Learn ts (byte_offsets P) mi input ns).
  Lemma inputs input ns lls0 : inputs_say fs input ns lls0 -> forall lls', Forall2 lines_read lls0 lls' -> Forall (Forall (fun s => lookup_line s /\ count_spaces s < 255)) lls' ->
    forall ms mi B T b, state p ms mi B -> Forall (fun lines => sum_list (map byte_len lines) <= b) lls' ->
    (sum_frequency (m_decoder ms) + N.of_nat (k * length lls') * N.of_nat b <= T)%N -> (B + N.of_nat (k * length lls') * T < 4294967296)%N ->
    exists outs F, learned_from lc ses p fmt k lls' ms outs /\ forall fuel, F <= fuel -> files fuel mi input ns = Printed (concat (map (fun l => l ++ [10%N]) outs)) None.
  Proof using W A Ho Ho' Ho'' Hj Hm.
    assert (is_present Learn ts (lit "json") = false) as Ej by (apply not_true_iff_false; intros H; by apply Hj, (flags (lit "json") eq_refl)).
    assert (is_present Learn ts (lit "multi-output") = false) as Em by (apply not_true_iff_false; intros H; by apply Hm, (flags (lit "multi-output") eq_refl)).
    assert (is_present Learn ts (lit "strict") = true) as Es by (apply (flags (lit "strict") eq_refl); exact (sk_strict _ _ _ _ _ _ _ _ _ A)).
    assert (parsed parse_small (value_of Learn ts (lit "iterations")) = Ok k) as Ek.
    { apply (parsed_spec Learn ts (proj2 (accepted_spec _ _) W) parse_small (counts_to 255)); [apply small_spec|by vm_compute|exact (sk_iterations _ _ _ _ _ _ _ _ _ A)]. }
    assert (forall lines lls' ns ls input, lines_read ls lines -> Forall (fun s => lookup_line s /\ count_spaces s < 255) lines ->
      (forall ms mi B T b, state p ms mi B -> Forall (fun lines => sum_list (map byte_len lines) <= b) lls' ->
        (sum_frequency (m_decoder ms) + N.of_nat (k * length lls') * N.of_nat b <= T)%N -> (B + N.of_nat (k * length lls') * T < 4294967296)%N ->
        exists outs F, learned_from lc ses p fmt k lls' ms outs /\ forall fuel, F <= fuel -> files fuel mi input ns = Printed (concat (map (fun l => l ++ [10%N]) outs)) None) ->
      forall ms mi B T b, state p ms mi B -> Forall (fun lines => sum_list (map byte_len lines) <= b) (lines :: lls') ->
        (sum_frequency (m_decoder ms) + N.of_nat (k * length (lines :: lls')) * N.of_nat b <= T)%N -> (B + N.of_nat (k * length (lines :: lls')) * T < 4294967296)%N ->
        exists outs F, learned_from lc ses p fmt k (lines :: lls') ms outs /\ forall fuel, F <= fuel ->
          pres (let* k := parsed parse_small (value_of Learn ts (lit "iterations")) in
                learn_iterations ws lc alpha ln32 ln ses solve o o' o'' fuel k (in_bytes p) (is_present Learn ts (lit "strict")) (readable ls) mi)
            (fun m' => pthen (learned_tsv fmt m') (files fuel m' input ns)) = Printed (concat (map (fun l => l ++ [10%N]) outs)) None) as Step.
    { intros lines lls' ns' ls input' Hrd Hls IH ms mi B T b St Hb HT HB. inversion Hb as [|? ? Hb1 Hb2]; subst.
      assert (N.of_nat (k * length (lines :: lls')) = N.of_nat k + N.of_nat (k * length lls'))%N as Hk by (cbn [length]; lia). rewrite Hk in HT, HB.
      rewrite N.mul_add_distr_r in HT, HB.
      destruct (many ws lc alpha ln32 ln ses solve o o' o'' Ho Ho' Ho'' p k ms mi B T b lines St Hls Hb1) as (ms1 & mi1 & F1 & It & St1 & Hs1 & HF1); [lia|lia|].
      destruct (IH ms1 mi1 (B + N.of_nat k * T)%N T b St1 Hb2) as (outs & F2 & Lf & HF2); [lia|lia|].
      destruct (learned_tsv_ok fmt ms1 (st_inside _ _ _ _ St1)) as (o1 & Ol & Eo).
      exists (o1 ++ outs), (F1 `max` F2). split; [by econstructor|]. intros fuel Hf. rewrite Ek. cbn [rbind]. rewrite Es, (readable_spec _ _ Hrd), HF1 by lia. cbn [pres].
      rewrite HF2 by lia. rewrite (learned_tsv_same fmt ms1 mi1) by exact (sc_decoder _ _ (st_same _ _ _ _ St1)). rewrite Eo. unfold pthen. cbn [p_stop p_out].
      by rewrite map_app, concat_app. }
    induction 1 as [input|input n ns ls lls0 Hn Ef Hi IH|input n ns lls0 Hn Hi IH]; intros lls' Hrd Hls ms mi B T b St Hb HT HB.
    - inversion Hrd; subst. exists [], 0. split; [constructor|done].
    - inversion Hrd as [|? lines ? lls2 Hr1 Hr2]; subst. inversion Hls as [|? ? Hl1 Hl2]; subst.
      destruct (Step lines lls2 ns ls input Hr1 Hl1 (IH lls2 Hr2 Hl2) ms mi B T b St Hb HT HB) as (outs & F & Lf & HF). exists outs, F. split; [done|]. intros fuel Hf.
      rewrite <- (HF fuel Hf). cbn [over_files]. rewrite Em, Ej. assert (is_stdin n = false) as -> by (unfold is_stdin; by apply bool_decide_eq_false).
      unfold open. rewrite Ef. cbn [rexpect pres]. done.
    - inversion Hrd as [|? lines ? lls2 Hr1 Hr2]; subst. inversion Hls as [|? ? Hl1 Hl2]; subst.
      destruct (Step lines lls2 ns input [] Hr1 Hl1 (IH lls2 Hr2 Hl2) ms mi B T b St Hb HT HB) as (outs & F & Lf & HF). exists outs, F. split; [done|]. intros fuel Hf.
      rewrite <- (HF fuel Hf). cbn [over_files]. rewrite Em, Ej. assert (is_stdin n = true) as -> by (unfold is_stdin; by apply bool_decide_eq_true).
      cbn [pres]. done.
  Qed.

  Lemma bytes_each : Forall (fun lines => sum_list (map byte_len lines) <= all_bytes lls) lls.
  Proof.
    unfold all_bytes. clear. assert (forall a b, sum_list (a ++ b) = sum_list a + sum_list b) as S by (induction a; cbn; intros; [done|]; rewrite IHa; lia).
    induction lls as [|l ll IH]; constructor; cbn [concat]; rewrite map_app, S; [lia|].
    eapply Forall_impl; [exact IH|]. cbn beta. intros x Hx. lia.
  Qed.

  Lemma more_run : exists outs, learned_from lc ses p fmt k lls m outs /\
    exists F, forall fuel, F <= fuel -> prog fuel = Outcome (concat (map (fun l => l ++ [10%N]) outs)) Ended.
  Proof using W A C L Cf Rm Ho Ho' Ho'' Hj Hm.
    destruct more_loaded as (m' & E & St). pose proof (sk_inputs _ _ _ _ _ _ _ _ _ A) as (ns & lls0 & Hns & Hi & Hrd). unfold room_for in Rm.
    destruct (inputs stdin ns lls0 Hi lls Hrd (sk_lines _ _ _ _ _ _ _ _ _ A) m m' (sum_frequency (m_decoder m))
      (sum_frequency (m_decoder m) + N.of_nat (k * length lls) * N.of_nat (all_bytes lls))%N (all_bytes lls) St bytes_each) as (outs & F & Lf & HF).
    { lia. }
    { rewrite Nat2N.inj_succ, N.mul_succ_l in Rm. lia. }
    exists outs. split; [done|]. exists F. intros fuel Hfu. specialize (HF fuel Hfu). pose proof (sk_debug _ _ _ _ _ _ _ _ _ A) as Hd. pose proof (sk_parameters _ _ _ _ _ _ _ _ _ A) as HP.
    pose proof (sk_cutoff _ _ _ _ _ _ _ _ _ A) as Hcut.
    unfold program. cbn [iv_command iv_typed iv_debug]. rewrite (proj2 (accepted_spec _ _) W). unfold run.
    assert (exists k, parse_u8 (default (lit "0") debug) = Some k) as (kd & ->).
    { destruct debug as [s|]; [|by eexists]. destruct (Hd s eq_refl) as (kd & Hk). exists kd. by apply P_Vocab.parse_uint_spec. }
    cbn [rexpect rbind]. rewrite E. cbn [ores].
    assert (tool_params pf pf32 Learn ts = Ok (byte_offsets P)) as ->.
    { apply params_spec; [by apply accepted_spec|]. split; [|done]. clear -HP. destruct HP. by split. }
    cbn [ores]. assert (cutoff_refused (tp_search (byte_offsets P)) = false) as ->.
    { unfold cutoff_refused. change (p_cutoff_threshold (tp_search (byte_offsets P))) with (p_cutoff_threshold p).
      destruct (flt _ _); [by rewrite Hcut|done]. }
    rewrite (names_input _ _ Hns).
    assert (is_present Learn ts (lit "json") = false) as Ej by (apply not_true_iff_false; intros H; by apply Hj, (flags (lit "json") eq_refl)).
    rewrite Ej, HF. unfold pthen, put, of_printed. cbn [p_stop p_out app]. by rewrite app_nil_r.
  Qed.
End run.
