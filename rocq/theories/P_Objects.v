(** Proofs about the objects that lookups and searches return in Python. *)
From Coq Require String Ascii.
From Coq Require Import Lia.
From Verif Require Import M_Base M_Anahash M_Iter M_Distance M_Float M_Types M_Model M_Confusable M_Rules M_Search M_Text M_Matches M_Cli M_Main.
From Verif Require Import S_Anahash S_Iter S_Distance S_Model S_Search S_Lookup S_Confusable S_Rules S_Cli S_Main S_SearchAll S_RuleFile S_Program.
From Verif Require Import M_Python S_Session.
From Verif Require Import P_Base P_Session.
From Verif Require P_Parse P_Json P_Cli P_Query P_SearchRun.
Import String.StringSyntax Ascii.AsciiSyntax.
From stdpp Require Import options.

Lemma rmapM_iff {A B} (f : A -> res B) (R : A -> B -> Prop) l l' : (forall a b, f a = Ok b <-> R a b) -> rmapM f l = Ok l' <-> Forall2 R l l'.
Proof.
  intros H. split.
  - intros E%P_Parse.rmapM_inv. eapply Forall2_impl; [exact E|]. intros a b. apply H.
  - intros F. apply P_Parse.rmapM_ok. eapply Forall2_impl; [exact F|]. intros a b. apply H.
Qed.

Section objects.
  Context (m : model) (fw : f32) (score : variant_result -> f64).
  Context (Hl : length (m_lexicons m) <= 32) (Hs : forall r, score r = vr_score fw r).

  Lemma lexicons_iff v ls : lexicons_of m v = Ok ls <-> ls = lexicon_names (m_lexicons m) v.
  Proof using Hl.
    split; [intros E; by apply P_Json.lexicons_of_names in E; [|lia]|].
    intros ->. destruct (P_Json.lexicons_of_ok m v Hl) as (ls & E). rewrite E. f_equal. apply P_Json.lexicons_of_names in E; [done|lia].
  Qed.
  Lemma expect_iff {A} (x : option A) a : rexpect x = Ok a <-> x = Some a.
  Proof using Type. destruct x; cbn; split; congruence. Qed.
  Lemma result_iff r d : result_dict m fw r = Ok d <-> result_object m score r d.
  Proof using Hl Hs.
    unfold result_dict, result_object, get_vocab. rewrite Hs. split.
    - intros H. apply rbind_ok in H as (v & E1%expect_iff & H). apply rbind_ok in H as (via & E2 & H). apply rbind_ok in H as (ls & E3%lexicons_iff & [= <-]).
      exists v, via. split; [done|]. split; [|by subst ls]. destruct (vr_via r) as [i|]; [|by injection E2].
      apply rbind_ok in E2 as (w & E2%expect_iff & [= <-]). by exists w.
    - intros (v & via & E1 & E2 & ->). rewrite E1. cbn [rexpect rbind]. rewrite (proj2 (lexicons_iff v _) eq_refl).
      destruct (vr_via r) as [i|]; [destruct E2 as (w & -> & ->)|subst via]; reflexivity.
  Qed.
  Lemma results_iff rs d : (let* ds := rmapM (result_dict m fw) rs in Ok (PyList ds)) = Ok d <-> results_object m score rs d.
  Proof using Hl Hs.
    unfold results_object. split.
    - intros H. apply rbind_ok in H as (ds & E & [= <-]). exists ds. split; [|done]. eapply rmapM_iff; [|exact E]. apply result_iff.
    - intros (ds & F & ->). rewrite (proj2 (rmapM_iff _ _ _ _ result_iff) F). done.
  Qed.
  Lemma tags_iff x ts : match tm_tag x with
      | [] => Ok []
      | _ =>
          let zs := zip (tm_tag x) (tm_seqnr x) in
          let* names := rmapM (fun z : N * nat => rexpect (m_tags m !! N.to_nat z.1)) zs in
          Ok [(lit "tag", PyList (map PyStr names)); (lit "seqnr", PyList (map (fun z : N * nat => PyInt (Z.of_nat z.2)) zs))]
      end = Ok ts <-> tags_object m x ts.
  Proof using Type.
    assert (forall zs names, rmapM (fun z : N * nat => rexpect (m_tags m !! N.to_nat z.1)) zs = Ok names <->
      Forall2 (fun z t => m_tags m !! N.to_nat (fst z) = Some t) zs names) as K.
    { intros zs names. apply rmapM_iff. intros a b. apply expect_iff. }
    split.
    - pose proof (to_some m x) as T. destruct (tm_tag x) as [|t l] eqn:E; [intros [= <-]; by constructor|]. intros H. cbv zeta in H. apply rbind_ok in H as (names & E1%K & [= <-]).
      by apply T.
    - intros [E|ts' E F]; [by rewrite E|]. destruct (tm_tag x) as [|t l] eqn:E1; [done|]. cbv zeta. rewrite (proj2 (K _ _) F). done.
  Qed.
  Lemma match_iff x d : match_dict m fw x = Ok d <-> match_object m score x d.
  Proof using Hl Hs.
    unfold match_dict, match_object. split.
    - intros H. apply rbind_ok in H as (ts & E1%tags_iff & H). apply rbind_ok in H as (vs & E2 & [= <-]).
      exists ts, (listed (tm_selected x) (default [] (tm_variants x))), (PyList vs). split; [done|]. split; [apply P_Cli.listed_selected_first|]. split; [|done].
      apply results_iff. destruct (tm_variants x) as [l|]; [change (default [] (Some l)) with l; by rewrite E2|]. injection E2 as <-. by destruct (tm_selected x) as [[]|].
    - intros (ts & rs & vs & E1%tags_iff & E2 & (ds & F & ->) & ->). cbv zeta in E1. rewrite E1. cbn [rbind].
      rewrite (P_SearchRun.selected_first_det _ _ _ _ (P_Cli.listed_selected_first _ _) E2) in F.
      destruct (tm_variants x) as [l|].
      + change (default [] (Some l)) with l in F. rewrite (proj2 (rmapM_iff _ _ _ _ result_iff) F). done.
      + assert (listed (tm_selected x) (default [] None) = []) as E by (by destruct (tm_selected x) as [[]|]). rewrite E in F. inversion F. done.
  Qed.
  Lemma matches_iff ms d : (let* ds := rmapM (match_dict m fw) ms in Ok (PyList ds)) = Ok d <-> exists ds, Forall2 (match_object m score) ms ds /\ d = PyList ds.
  Proof using Hl Hs.
    split.
    - intros H. apply rbind_ok in H as (ds & E & [= <-]). exists ds. split; [|done]. eapply rmapM_iff; [|exact E]. apply match_iff.
    - intros (ds & F & ->). rewrite (proj2 (rmapM_iff _ _ _ _ match_iff) F). done.
  Qed.
  Lemma input_iff q rs d : (let* vs := rmapM (result_dict m fw) rs in Ok (PyDict [(lit "input", PyStr q); (lit "variants", PyList vs)])) = Ok d <->
    input_object m score q rs d.
  Proof using Hl Hs.
    unfold input_object. split.
    - intros H. apply rbind_ok in H as (vs & E & [= <-]). exists (PyList vs). split; [|done]. apply results_iff. by rewrite E.
    - intros (vs & (ds & F & ->) & ->). rewrite (proj2 (rmapM_iff _ _ _ _ result_iff) F). done.
  Qed.

  (** Existence *)
  Lemma result_there r : P_Query.result_inside m r -> exists d, result_object m score r d.
  Proof using Type.
    intros [(v & Hv) Hw]. unfold result_object. destruct (vr_via r) as [i|] eqn:E.
    - destruct (Hw i eq_refl) as (w & Ew). eexists _, v, _. split; [done|]. split; [|reflexivity]. exists w. split; [done|reflexivity].
    - eexists _, v, _. split; [done|]. split; reflexivity.
  Qed.
  Lemma there_all {A B} (R : A -> B -> Prop) l : Forall (fun a => exists b, R a b) l -> exists l', Forall2 R l l'.
  Proof using Type. induction 1 as [|a l (b & Hb) _ (l' & IH)]; [by exists []|]. exists (b :: l'). by constructor. Qed.
  Lemma results_there rs : Forall (P_Query.result_inside m) rs -> exists d, results_object m score rs d.
  Proof using Type.
    intros F. destruct (there_all (result_object m score) rs) as (ds & Fd).
    { eapply Forall_impl; [exact F|]. intros r. apply result_there. }
    exists (PyList ds). by exists ds.
  Qed.
  Lemma selected_there {A} (P : A -> Prop) sel l l' : selected_first sel l l' -> Forall P l -> Forall P l'.
  Proof using Type.
    intros [pre x post|s l0 _|l0] F; [|done|done]. apply Forall_app in F as [F1 F2]. inversion F2; subst. constructor; [done|]. by apply Forall_app.
  Qed.
  Lemma match_there t x : P_SearchRun.shown m t x -> exists d, match_object m score x d.
  Proof using Type.
    intros [_ _ Hi Ht]. assert (exists ts, tags_object m x ts) as (ts & T).
    { destruct (decide (tm_tag x = [])) as [E|E]; [exists []; by constructor|].
      destruct (there_all (fun z t => m_tags m !! N.to_nat (fst z) = Some t) (zip (tm_tag x) (tm_seqnr x))) as (ts & F); [|eexists; by apply to_some].
      revert Ht. generalize (tm_tag x), (tm_seqnr x). clear. intros tags. induction tags as [|a tags IH]; intros [|b l] F; try constructor.
      - inversion F; subst. cbn. by apply lookup_lt_is_Some_2.
      - apply IH. by inversion F. }
    destruct (results_there (listed (tm_selected x) (default [] (tm_variants x)))) as (vs & V).
    { eapply selected_there; [apply P_Cli.listed_selected_first|done]. }
    eexists. exists ts, (listed (tm_selected x) (default [] (tm_variants x))), vs. split; [done|]. split; [apply P_Cli.listed_selected_first|]. split; [done|reflexivity].
  Qed.
End objects.

(** ** Answers *)
Lemma dict_same m m' fw : same_contents m m' -> result_dict m' fw = result_dict m fw /\ match_dict m' fw = match_dict m fw.
Proof. intros []. destruct m, m'; cbn in *; subst. split; reflexivity. Qed.

Section answers.
  Context (ws : N -> bool) (pf : str -> option f64) (pf32 : str -> option f32) (ps : str -> option (list edit_instruction)).
  Context (o : list (N * node) -> list (N * node)) (o' : list (str * vocab_id) -> list (str * vocab_id)).
  Context (fs : str -> option (list (option str))) (Ho : some_order o) (Ho' : some_order o').
  Context (al : str) (w : weights) (cs : list py_call) (Od : orderly cs) (m : model).
  Context (C : session_says ws pf pf32 ps fs al w cs m) (L : within_limits m).
  Context (lc : N -> bool) (ses : str -> str -> list edit_instruction).
  #[local] Notation session := (fun m' => exists m0, py_model ws fs al w = Returned m0 /\ py_steps ws pf pf32 ps o o' fs m0 cs = Returned m').

  (** a lookup that looks in [m'] *)
  Definition in_model (m' : model) (p : search_parameters) (F : nat) (lookup : str -> res (list variant_result)) : Prop := S_Matches.looks_up lc ses F m' p lookup.

  Lemma lookups : exists m', session m' /\ same_contents m m' /\ forall p, weight_single (p_freq_weight p) -> forall q, lookup_line q ->
    exists l, P_Query.answers lc ses m m' p q l.
  Proof using Ho Ho' Od C L.
    destruct (content_built ws pf pf32 ps o o' fs al w cs m Ho Ho' Od C L) as (m1 & m' & m0 & E1 & E2 & SC & _ & _ & Bt & S0 & I0 & HT).
    exists m'. split; [by exists m1|]. split; [done|]. intros p Hw q Hq. eapply P_Query.built_answers; [exact Bt|done..|by apply HT|done].
  Qed.
  Lemma finds_lookup m' p q l : finds lc ses m' q p l -> exists F, forall lookup, S_Matches.looks_up lc ses F m' p lookup -> lookup q = Ok l.
  Proof using Type.
    intros (F & HF). exists F. intros lookup Hl. destruct (Hl q) as (f & ord & Hf & Hor & ->). by apply HF.
  Qed.
  Lemma looks_more m' p F F' lookup : F <= F' -> S_Matches.looks_up lc ses F' m' p lookup -> S_Matches.looks_up lc ses F m' p lookup.
  Proof using Type. intros Hle H s. destruct (H s) as (f & ord & ? & ? & ?). exists f, ord. split; [lia|done]. Qed.

  Lemma variants_returned : exists m', session m' /\ forall p, weight_single (p_freq_weight p) -> forall q, lookup_line q ->
    exists d, (forall d', variants_object lc ses m p q d' <-> d' = d) /\
      exists F, forall lookup, S_Matches.looks_up lc ses F m' p lookup -> py_find_variants m' (p_freq_weight p) lookup q = Ok d.
  Proof using Ho Ho' Od C L.
    destruct lookups as (m' & Se & SC & An). exists m'. split; [done|]. intros p Hw q Hq. destruct (An p Hw q Hq) as (l & [(ks & Hr & Hu) U Fi _ In Sc]).
    pose proof (wl_files _ L) as Hf. destruct (results_there m (final_score (p_freq_weight p)) l In) as (d & Hd). pose proof Hd as Ed. eapply results_iff in Ed; [|done|exact Sc].
    exists d. split.
    - intros d'. split.
      + intros (ks' & l' & H1 & H2 & H3). rewrite (U _ _ H1 H2) in H3. eapply results_iff in H3; [|done|exact Sc]. congruence.
      + intros ->. by exists ks, l.
    - destruct (finds_lookup _ _ _ _ Fi) as (F & HF). exists F. intros lookup Hl. unfold py_find_variants. rewrite (HF _ Hl). cbn [rbind].
      destruct (dict_same m m' (p_freq_weight p) SC) as [-> _]. done.
  Qed.
  Lemma inputs_returned : exists m', session m' /\ forall p, weight_single (p_freq_weight p) -> forall qs, Forall lookup_line qs ->
    exists d, (forall d', inputs_object lc ses m p qs d' <-> d' = d) /\
      exists F, forall lookup, S_Matches.looks_up lc ses F m' p lookup -> py_find_variants_par m' (p_freq_weight p) lookup qs = Ok d.
  Proof using Ho Ho' Od C L.
    destruct lookups as (m' & Se & SC & An). exists m'. split; [done|]. intros p Hw qs Hq. pose proof (wl_files _ L) as Hf.
    set (R := fun q d => exists ks l, reads (m_alphabet m) q ks /\ looked_up lc ses m q ks p l /\ input_object m (final_score (p_freq_weight p)) q l d).
    assert (exists ds, (forall ds', Forall2 R qs ds' <-> ds' = ds) /\ exists F, forall lookup, S_Matches.looks_up lc ses F m' p lookup ->
      exists out, rmapM (fun input => let* rs := lookup input in Ok (input, rs)) qs = Ok out /\
        rmapM (fun x : str * list variant_result => let* vs := rmapM (result_dict m' (p_freq_weight p)) x.2 in
          Ok (PyDict [(lit "input", PyStr x.1); (lit "variants", PyList vs)])) out = Ok ds) as (ds & U & F & HF).
    { induction Hq as [|q qs H1 _ (ds & IU & F & IH)].
      - exists []. split; [intros ds'; split; [intros H; by inversion H|by intros ->]|]. exists 0. intros lookup _. by exists [].
      - destruct (An p Hw q H1) as (l & [(ks & Hr & Hu) U Fi _ In Sc]).
        destruct (results_there m (final_score (p_freq_weight p)) l In) as (vs & Hv).
        assert (input_object m (final_score (p_freq_weight p)) q l (PyDict [(name "input", PyStr q); (name "variants", vs)])) as Hd by (by exists vs).
        pose proof Hd as Ed. eapply input_iff in Ed; [|done|exact Sc]. set (d := PyDict [(name "input", PyStr q); (name "variants", vs)]) in *.
        destruct (finds_lookup _ _ _ _ Fi) as (F' & HF'). exists (d :: ds). split.
        + intros ds'. split.
          * intros H. inversion H as [|? d' ? ds'' (ks' & l' & G1 & G2 & G3) G4]; subst. apply IU in G4 as ->. f_equal.
            rewrite (U _ _ G1 G2) in G3. eapply input_iff in G3; [|done|exact Sc]. congruence.
          * intros ->. constructor; [by exists ks, l|by apply IU].
        + exists (F `max` F'). intros lookup Hl. destruct (IH lookup) as (out & E1 & E2); [eapply looks_more; [|exact Hl]; lia|].
          exists ((q, l) :: out). cbn [rmapM]. rewrite E1, (HF' lookup) by (eapply looks_more; [|exact Hl]; lia). split; [done|]. cbn [fst snd] in *.
          rewrite E2. destruct (dict_same m m' (p_freq_weight p) SC) as [-> _]. rewrite Ed. done. }
    exists (PyList ds). split.
    - intros d'. split; [intros (ds' & H & ->); by apply U in H as ->|]. intros ->. exists ds. split; [by apply U|done].
    - exists F. intros lookup Hl. destruct (HF lookup Hl) as (out & E1 & E2). unfold py_find_variants_par. rewrite E1. cbn [rbind]. rewrite E2. done.
  Qed.

  Context (alpha : N -> bool) (ln32 : f32 -> f32) (ln : f64 -> f64) (solve : fst_graph -> nat -> list (list nat * f32)).
  Lemma matches_returned : counts_say m -> Forall rule_ok (m_context_rules m) -> S_Matches.solver_sound solve -> S_Matches.solver_complete solve -> alpha 32%N = false ->
    exists m', session m' /\ forall p, weight_single (p_freq_weight p) -> 0 < p_max_seq p -> forall t, (N.of_nat (length t) < 65281)%N -> short_stretches alpha p t ->
    exists d, (forall d', matches_object lc ses m p ln32 ln ws alpha solve t d' <-> d' = d) /\
      exists F, forall lookup, S_Matches.looks_up lc ses F m' p lookup ->
        py_find_all_matches m' (p_freq_weight p) (fun t => find_all_matches ln32 ln ws solve alpha lookup m' t p) t = Ok d.
  Proof using Ho Ho' Od C L.
    intros K R Hs Hc Hsp. pose proof (wl_files _ L) as Hf.
    destruct (content_built ws pf pf32 ps o o' fs al w cs m Ho Ho' Od C L) as (m1 & m' & m0 & E1 & E2 & SC & K' & Wc & Bt & S0 & I0 & HT).
    exists m'. split; [by exists m1|]. intros p Hw Hq t Ht Hsh.
    destruct (P_SearchRun.built_searches ws alpha lc ses ln32 ln solve m m0 m' p t) as (Sc & ms & [T1 T2 (F & HF) T4]); try done.
    { by apply HT. }
    { intros x id. by eapply content_inside. }
    { pose proof (sn_rules _ _ _ _ _ _ _ _ _ C) as X. apply rules_inside in X as [_ X]; done. }
    destruct (there_all (match_object m (final_score (p_freq_weight p))) ms) as (ds & Fd).
    { eapply Forall_impl; [exact T4|]. intros x. apply match_there. }
    assert ((let* ds := rmapM (match_dict m (p_freq_weight p)) ms in Ok (PyList ds)) = Ok (PyList ds)) as Ed.
    { eapply matches_iff; [done|exact Sc|]. by exists ds. }
    exists (PyList ds). split.
    - intros d'. split.
      + intros (ms' & ds' & H1 & H2 & ->). rewrite (T2 _ H1) in H2.
        assert ((let* ds := rmapM (match_dict m (p_freq_weight p)) ms in Ok (PyList ds)) = Ok (PyList ds')) as Ed'.
        { eapply matches_iff; [done|exact Sc|]. by exists ds'. }
        congruence.
      + intros ->. by exists ms, ds.
    - exists F. intros lookup Hl. unfold py_find_all_matches. rewrite (HF _ Hl). cbn [rbind]. destruct (dict_same m m' (p_freq_weight p) SC) as [_ ->]. done.
  Qed.
End answers.
