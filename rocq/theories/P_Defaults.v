(** Proofs about the defaults of the command line tool and of the Python
    bindings. *)
From Coq Require String Ascii.
From Coq Require Import Lia.
From Verif Require Import M_Base M_Float M_Types M_Model M_Cli M_Main M_Options.
From Verif Require Import S_Model S_Values S_Cli S_Main S_Options S_Program S_SearchRun.
From Verif Require Import M_Python S_Session S_Agree.
From Verif Require Import P_Base.
From Verif Require P_Values P_Vocab.
Import String.StringSyntax Ascii.AsciiSyntax.
From stdpp Require Import options.

Section defaults.
  Context (pf : str -> option f64) (pf32 : str -> option f32) (c : command) (ts : list typed).
  Context (Hr : reads_defaults pf pf32) (Hs : sets_nothing ts).
  #[local] Notation no_option long := (forall w, TOption (name long) w ∉ ts).

  Lemma untyped long : bool_decide (name long ∈ [name "alphabet"; name "lexicon"; name "variants"; name "errors"; name "lm"; name "confusables"; name "contextrules"]) = false -> no_option long.
  Proof using Hs. intros H w Hw. apply bool_decide_eq_false in H. apply H. by apply (proj1 Hs _ w). Qed.
  Lemma unflagged long : bool_decide (name long ∈ [name "stop-exact"; name "single-thread"; name "interactive"; name "allow-overlap"]) = true -> TFlag (name long) ∉ ts.
  Proof using Hs. intros H%bool_decide_eq_true Hw. by apply (proj2 Hs _ Hw). Qed.

  (** an option that is not typed has its default, or the fallback if it has none *)
  Definition default_for (l : str) : option str := snd <$> List.find (fun d : str * str => bool_decide (d.1 = l)) (documented c).
  Lemma only_once l : Forall (fun d : str * str => d.1 = l -> default_for l = Some d.2) (documented c).
  Proof using. unfold default_for. destruct c; cbn; repeat (apply Forall_cons; split; [cbn; intros <-; by vm_compute|]); constructor. Qed.
  Lemma falls_back {A} (R : str -> A -> Prop) long fb x : no_option long -> option_says R c ts long fb x ->
    match default_for (name long) with Some v => R v x | None => fb = Some x end.
  Proof using.
    intros Hn [(v & [v' Ht|v' _ Hd] & HR)|[Hno Hf]].
    - by destruct (Hn v').
    - pose proof (only_once (name long)) as F. rewrite Forall_forall in F. by rewrite (F _ Hd eq_refl).
    - destruct (default_for (name long)) as [v|] eqn:E; [|done]. destruct (Hno v). apply in_force_default; [done|].
      unfold default_for in E. apply fmap_Some in E as ([l v'] & E & ->). apply List.find_some in E as [E1 E2]. apply bool_decide_eq_true in E2. cbn in E2. subst l.
      by apply elem_of_list_In.
  Qed.

  Lemma default_weights w : weights_say pf c ts w -> w = weights_default.
  Proof using Hr Hs.
    intros [H1 H2 H3 H4 H5]. destruct Hr as [Rh Rq Re Rt R0 R1 R3].
    apply falls_back in H1, H2, H3, H4, H5; try (apply untyped; by vm_compute).
    assert (forall long, bool_decide (long ∈ map fst (take 10 (documented Index))) = true -> default_for long = snd <$> List.find (fun d : str * str => bool_decide (d.1 = long)) (documented Index)) as K.
    { intros long H%bool_decide_eq_true. cbn in H. do 10 (apply elem_of_cons in H as [->|H]; [clear; unfold default_for; destruct c; vm_compute; reflexivity|]). try (apply elem_of_cons in H as [->|H]; [clear; unfold default_for; destruct c; vm_compute; reflexivity|]). by apply elem_of_nil in H. }
    rewrite K in H1, H2, H3, H4, H5 by (by vm_compute). unfold is_text in *.
    destruct w as [w1 w2 w3 w4 w5]. cbn [w_ld w_lcs w_prefix w_suffix w_case] in *.
    change (pf (name "0.5") = Some w1) in H1. change (pf (name "0.125") = Some w2) in H2. change (pf (name "0.125") = Some w3) in H3. change (pf (name "0.125") = Some w4) in H4. change (pf (name "0.125") = Some w5) in H5.
    rewrite Rh in H1. rewrite Re in H2, H3, H4, H5. by injection H1 as <-; injection H2 as <-; injection H3 as <-; injection H4 as <-; injection H5 as <-.
  Qed.

  Definition two_kwargs : list (str * pyval) := [(name "max_edit_distance", PyInt 2); (name "max_matches", PyInt 10)].
  Lemma default_lookups P : parameters_say pf pf32 c ts P -> same_lookups (tp_search P) (tp_search (py_parameters pf32 two_kwargs)).
  Proof using Hr Hs.
    intros [H1 H2 H3 H4 H5 H6 _ _ _ _ _ H7 _ _ _ _]. destruct Hr as [Rh Rq Re Rt R0 R1 R3].
    apply falls_back in H1, H2, H3, H4, H5, H7; try (apply untyped; by vm_compute).
    assert (forall long, bool_decide (long ∈ name "freq-ranking" :: map fst (take 10 (documented Index))) = true -> default_for long = snd <$> List.find (fun d : str * str => bool_decide (d.1 = long)) (documented Index)) as K.
    { intros long H%bool_decide_eq_true. cbn in H. do 10 (apply elem_of_cons in H as [->|H]; [clear; unfold default_for; destruct c; vm_compute; reflexivity|]). try (apply elem_of_cons in H as [->|H]; [clear; unfold default_for; destruct c; vm_compute; reflexivity|]). by apply elem_of_nil in H. }
    rewrite K in H1, H2, H3, H4, H5, H7 by (by vm_compute). unfold is_text in *.
    change (threshold_text pf32 (name "3") (p_max_anagram_distance (tp_search P))) in H1. change (threshold_text pf32 (name "2") (p_max_edit_distance (tp_search P))) in H2.
    change (counts_to 18446744073709551615 (name "10") (p_max_matches (tp_search P))) in H3. change (pf (name "0.25") = Some (p_score_threshold (tp_search P))) in H4.
    change (pf (name "2.0") = Some (p_cutoff_threshold (tp_search P))) in H5. change (Some f0 = Some (p_freq_weight (tp_search P))) in H7.
    apply P_Values.threshold_parse in H1, H2. destruct H3 as (k & H3 & Hk). apply P_Vocab.parse_uint_spec in H3. injection H1 as H1. injection H2 as H2. injection H3 as <-.
    rewrite Rq in H4. rewrite Rt in H5. injection H4 as H4. injection H5 as H5. injection H7 as H7.
    split; [by rewrite <- H1|]. split; [by rewrite <- H2|]. split; [by rewrite Hk|]. split; [by rewrite <- H4|]. split; [by rewrite <- H5|]. split; [|by rewrite <- H7].
    destruct (p_stop_criterion (tp_search P)); [by vm_compute|]. refine (False_ind _ (unflagged _ _ H6)); by vm_compute.
  Qed.
End defaults.

Section search.
  Context (pf : str -> option f64) (pf32 : str -> option f32) (ts : list typed).
  Context (Hr : reads_defaults pf pf32) (Hs : sets_nothing ts).
  Lemma default_search P : parameters_say pf pf32 Search ts P ->
    in_bytes (tp_search P) = tp_search (py_parameters pf32 two_kwargs) /\ tp_single_thread P = false /\ tp_consolidate_matches P = true /\ tp_lm_order P = 3 /\ tp_context_weight P = f0.
  Proof using Hr Hs.
    intros H. destruct (default_lookups pf pf32 Search ts Hr Hs P H) as (L1 & L2 & L3 & L4 & L5 & L6 & L7).
    destruct H as [_ _ _ _ _ _ H1 H2 H3 H4 H5 _ H6 H7 H8 H9]. destruct Hr as [Rh Rq Re Rt R0 R1 R3].
    apply falls_back in H1, H2, H3, H4, H5, H8, H9; try (apply (untyped ts Hs); by vm_compute). unfold is_text in *.
    change (counts_to 255 (name "3") (p_max_ngram (tp_search P))) in H1. change (counts_to 18446744073709551615 (name "250") (p_max_seq (tp_search P))) in H2.
    change (pf32 (name "3.0") = Some (p_variantmodel_weight (tp_search P))) in H3. change (pf32 (name "1.0") = Some (p_lm_weight (tp_search P))) in H4.
    change (pf32 (name "1.0") = Some (p_contextrules_weight (tp_search P))) in H5. change (counts_to 255 (name "3") (tp_lm_order P)) in H8.
    change (pf32 (name "0.0") = Some (tp_context_weight P)) in H9.
    destruct H1 as (k1 & H1 & E1), H2 as (k2 & H2 & E2), H8 as (k8 & H8 & E8). apply P_Vocab.parse_uint_spec in H1, H2, H8.
    injection H1 as <-. injection H2 as <-. injection H8 as <-. rewrite R3 in H3. rewrite R1 in H4, H5. rewrite R0 in H9. injection H3 as H3. injection H4 as H4. injection H5 as H5. injection H9 as H9.
    split; [|split; [|split; [|split; [by rewrite E8|by rewrite <- H9]]]].
    - unfold in_bytes. rewrite L1, L2, L3, L4, L5, L6, L7, E1, E2, <- H3, <- H4, <- H5. reflexivity.
    - destruct (tp_single_thread P); [|done]. destruct (proj1 H6 eq_refl) as [E|E]; refine (False_ind _ (unflagged ts Hs _ _ E)); by vm_compute.
    - destruct (tp_consolidate_matches P); [done|]. refine (False_ind _ (unflagged ts Hs _ _ (proj1 H7 eq_refl))); by vm_compute.
  Qed.
End search.
