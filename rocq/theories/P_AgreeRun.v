(** Proofs about runs of the tool and sessions that answer the same questions. *)
From Coq Require String Ascii.
From Coq Require Import Lia.
From Verif Require Import M_Base M_Anahash M_Iter M_Distance M_Float M_Types M_Model M_Confusable M_Rules M_Search M_Text M_Matches M_Cli M_Main M_Options M_Program.
From Verif Require Import S_Anahash S_Model S_Search S_Lookup S_Confusable S_Rules S_Matches S_Cli S_Main S_Options S_SearchAll S_RuleFile S_Program S_SearchRun.
From Verif Require Import M_Python S_Session S_Agree.
From Verif Require Import P_Base P_Agree.
From Verif Require P_Query P_SearchRun P_Objects.
Import String.StringSyntax Ascii.AsciiSyntax.
From stdpp Require Import options.

Section run.
  Context (pf : str -> option f64) (pf32 : str -> option f32) (fmt : f64 -> str) (ws lc alpha : N -> bool) (ln32 : f32 -> f32) (ln : f64 -> f64).
  Context (ps : str -> option (list edit_instruction)) (ses : str -> str -> list edit_instruction) (solve : fst_graph -> nat -> list (list nat * f32)).
  Context (o q : list (N * node) -> list (N * node)) (o' q' : list (str * vocab_id) -> list (str * vocab_id)) (o'' : list (nat * list N) -> list (nat * list N)).
  Context (fs : str -> option (list (option str))) (stdin : list (option str)) (debug : option str) (ts : list typed).
  Context (Ho : some_order o) (Ho' : some_order o') (Ho'' : some_order o'') (Hq : some_order q) (Hq' : some_order q').
  Context (alphabet : str) (w : weights) (cs : list py_call) (m : model).
  Context (Hs : same_session ts cs) (Ha : TOption (name "alphabet") alphabet ∈ ts) (L : within_limits m).
  Context (Hj : flag_typed ts "json") (Hl : flag_typed ts "output-lexmatch") (Hf : forall x, finite x -> number (fmt x)).
  #[local] Notation runs c fuel := (program pf pf32 fmt ws lc alpha ln32 ln ps ses solve o o' o'' fs stdin fuel (Invocation debug (Some c) ts)).
  #[local] Notation leaves := (fun m => exists m0, py_model ws fs alphabet w = Returned m0 /\ py_steps ws pf pf32 ps q q' fs m0 cs = Returned m).

  Lemma lexmatch_here : lexmatch_typed ts true.
  Proof using Hl. by split. Qed.

  Lemma query_agrees P lls : well_typed Query ts -> asked pf pf32 fs stdin debug ts P lls -> contents_say ws pf pf32 ps fs Query ts m ->
    weights_say pf Query ts w -> length lls = 1 -> clean_texts m lls ->
    exists m' ds js, leaves m' /\ Forall2 (shows fmt) ds js /\
      (exists F, forall lookup, looks_up lc ses F m' (tp_search P) lookup -> py_find_variants_par m' (p_freq_weight (tp_search P)) lookup (queries lls) = Ok (PyList ds)) /\
      exists F, forall fuel, F <= fuel -> exists out, runs Query fuel = Outcome out Ended /\ says out (JArr js).
  Proof using Ho Ho' Ho'' Hq Hq' Hs Ha L Hj Hl Hf.
    intros W A C Hw H1 H2.
    destruct (P_Query.run_json pf pf32 fmt ws lc alpha ln32 ln ps ses solve o o' o'' fs ts W debug P stdin lls A m C L Ho Ho' Ho'' Hj H1 H2 Hf) as (js & _ & U & HF).
    pose proof (session_of ws pf pf32 ps fs Query ts cs Hs alphabet w m W Ha Hw C) as Se.
    assert (orderly cs) as Od by (apply (session_orderly ws pf pf32 ps fs Query ts cs Hs m C); pose proof (wl_files _ L); lia).
    destruct (P_Objects.inputs_returned ws pf pf32 ps q q' fs Hq Hq' alphabet w cs Od m Se L lc ses) as (m' & Hm & Hd).
    destruct (Hd (tp_search P) (as_weight _ _ _ _ _ _ _ _ A) (queries lls) (as_lines _ _ _ _ _ _ _ _ A)) as (d & Ud & HFd).
    destruct (proj2 (Ud d) eq_refl) as (ds & Fd & ->). exists m', ds, js. split; [done|]. split; [|done].
    assert (exists js', Forall2 (answer_value lc ses fmt m ts (tp_search P)) (queries lls) js' /\ Forall2 (shows fmt) ds js') as (js' & F1 & F2); [|by rewrite <- (U _ F1)].
    clear -Fd Hl. induction Fd as [|x d qs ds (ks & l & Hr & Hk & Hi) _ (js & F1 & F2)]; [exists []; split; constructor|].
    destruct (input_shown fmt _ m x l d Hi) as (j & J1 & J2). exists (j :: js). split; constructor; [|done|done|done].
    exists ks, l, true. split; [done|]. split; [done|]. split; [exact lexmatch_here|done].
  Qed.

  Lemma search_agrees P ls : well_typed Search ts -> search_asked pf pf32 alpha fs stdin debug ts P [ls] -> contents_say ws pf pf32 ps fs Search ts m ->
    weights_say pf Search ts w -> counts_say m -> Forall rule_ok (m_context_rules m) -> solver_sound solve -> solver_complete solve -> alpha 32%N = false ->
    clean_search m ts [ls] ->
    exists m' texts dss js, leaves m' /\ input_texts ts ls texts /\ Forall2 (match_shows fmt) (concat dss) js /\
      Forall2 (fun t ds => exists F, forall lookup, looks_up lc ses F m' (in_bytes (tp_search P)) lookup ->
        py_find_all_matches m' (p_freq_weight (tp_search P)) (fun t => find_all_matches ln32 ln ws solve alpha lookup m' t (in_bytes (tp_search P))) t = Ok (PyList ds)) texts dss /\
      exists F, forall fuel, F <= fuel -> exists out, runs Search fuel = Outcome out Ended /\ says out (JArr js).
  Proof using Ho Ho' Ho'' Hq Hq' Hs Ha L Hj Hl Hf.
    intros W A C Hw K R H1 H2 Hsp H3.
    destruct (P_SearchRun.search_json pf pf32 fmt ws lc alpha ln32 ln ps ses solve o o' o'' fs ts W debug P stdin [ls] A m C L K R H1 H2 Hsp Ho Ho' Ho'' ls Hj eq_refl H3 Hf)
      as (texts & jss & Ht & _ & U & HF).
    pose proof (session_of ws pf pf32 ps fs Search ts cs Hs alphabet w m W Ha Hw C) as Se.
    assert (orderly cs) as Od by (apply (session_orderly ws pf pf32 ps fs Search ts cs Hs m C); pose proof (wl_files _ L); lia).
    destruct (P_Objects.matches_returned ws pf pf32 ps q q' fs Hq Hq' alphabet w cs Od m Se L lc ses alpha ln32 ln solve K R H1 H2 Hsp) as (m' & Hm & Hd).
    assert (exists dss jss', Forall2 (text_values lc ses ln32 ln ws alpha solve fmt m ts (tp_search P)) texts jss' /\ Forall2 (match_shows fmt) (concat dss) (concat jss') /\
      Forall2 (fun t ds => exists F, forall lookup, looks_up lc ses F m' (in_bytes (tp_search P)) lookup ->
        py_find_all_matches m' (p_freq_weight (tp_search P)) (fun t => find_all_matches ln32 ln ws solve alpha lookup m' t (in_bytes (tp_search P))) t = Ok (PyList ds)) texts dss)
      as (dss & jss' & F1 & F2 & F3).
    { assert (Forall (fun t => (N.of_nat (length t) < 65281)%N /\ short_stretches alpha (in_bytes (tp_search P)) t) texts) as Ft.
      { apply Forall_forall. intros t Hin. apply (sa_texts _ _ _ _ _ _ _ _ _ A ls texts t); [left|done|done]. }
      pose proof (sa_weight _ _ _ _ _ _ _ _ _ A) as Hw'. pose proof (sa_sequences _ _ _ _ _ _ _ _ _ A) as Hms.
      clear -Ft Hd Hl Hw' Hms. induction Ft as [|t texts [T1 T2] _ (dss & jss & F1 & F2 & F3)]; [exists [], []; split; [constructor|]; split; constructor|].
      destruct (Hd (in_bytes (tp_search P)) Hw' Hms t T1 T2) as (d & Ud & HFd). destruct (proj2 (Ud d) eq_refl) as (ms & ds & Hf & Fm & ->).
      assert (exists js, Forall2 (found_says fmt (final_score (p_freq_weight (tp_search P))) true m) ms js /\ Forall2 (match_shows fmt) ds js) as (js & J1 & J2).
      { clear -Fm. change (p_freq_weight (in_bytes (tp_search P))) with (p_freq_weight (tp_search P)) in Fm.
        induction Fm as [|x d ms ds Hx _ (js & J1 & J2)]; [exists []; split; constructor|]. destruct (match_shown fmt _ m x d Hx) as (j & H1 & H2). exists (j :: js). split; by constructor. }
      exists (ds :: dss), (js :: jss). cbn [concat]. split; [|split].
      - constructor; [|done]. exists ms, true. split; [done|]. split; [exact lexmatch_here|done].
      - by apply Forall2_app.
      - by constructor. }
    rewrite (U _ _ Ht F1) in F2. exists m', texts, dss, (concat jss). split; [done|]. split; [done|]. split; [done|]. split; [done|exact HF].
  Qed.
End run.
