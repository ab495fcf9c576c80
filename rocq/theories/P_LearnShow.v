(** Proofs about what learning mode prints with "--json" and "--multi-output". *)
From Coq Require String Ascii.
From Coq Require Import Lia.
From Verif Require Import M_Base M_Utf8 M_Anahash M_Iter M_Distance M_Float M_Types M_Model M_Confusable M_ConfList M_Rules M_Search M_Text M_Values.
From Verif Require Import M_Matches M_Learn M_Cli M_Main M_Options M_Program.
From Verif Require Import S_Anahash S_Text S_Model S_Search S_Lookup S_Rules S_Learn S_Cli S_Options S_SearchAll S_Main S_RuleFile S_Program S_SearchRun S_LearnRun S_LearnMore S_LearnShow.
From Verif Require Import P_Base P_Model P_Options P_Start P_Query P_SearchRun P_Learn P_LearnRun P_LearnMore.
From Verif Require S_Matches P_Vocab P_Files P_Links P_CliOut P_Cli P_Json P_JsonOut.
Import String.StringSyntax Ascii.AsciiSyntax.
From stdpp Require Import options.
#[local] Arguments lit s%string_scope.

(** ** What is printed after an input *)
Definition shows (fmt : f64 -> str) (multi json : bool) (m' : model) : printed :=
  if multi then
    pthen (put (if json then lit "{" ++ newline else []))
      (pthen (pall (map (fun v => match references v with
          | [] => put []
          | _ => put (if json then lit "    """ ++ escape (vv_text v) ++ lit """: [ " ++ newline ++ lit "    ]" ++ newline else vv_text v ++ newline)
          end) (m_decoder m')))
        (put (if json then lit "}" ++ newline else [])))
  else if json then learned_json fmt m' else learned_tsv fmt m'.

Lemma shows_same fmt multi json m m' : m_decoder m' = m_decoder m -> shows fmt multi json m' = shows fmt multi json m.
Proof. intros E. unfold shows, learned_json, learned_json_entry, learned_tsv, learned_tsv_entry. by rewrite E. Qed.

Lemma pthen_stop a b : p_stop a = None -> p_stop b = None -> p_stop (pthen a b) = None.
Proof. intros H1 H2. unfold pthen. by rewrite H1. Qed.

Lemma references_inside m v : variants_inside m -> v ∈ m_decoder m -> Forall (fun r : vocab_id * f64 => is_Some (m_decoder m !! r.1)) (references v).
Proof.
  intros V Hv. apply elem_of_list_lookup in Hv as (id & D). rewrite P_CliOut.references_linked, <- stored_linked. apply Forall_forall. intros [y s] Hy.
  apply lookup_lt_is_Some. by eapply V.
Qed.
Lemma shows_ok fmt multi json m : variants_inside m -> p_stop (shows fmt multi json m) = None.
Proof.
  intros V. unfold shows. destruct multi.
  - apply pthen_stop; [done|]. apply pthen_stop; [|done]. apply P_CliOut.pall_ok. apply Forall_forall. intros x Hx. apply elem_of_list_fmap in Hx as (v & -> & _).
    by destruct (references v).
  - destruct json.
    + unfold learned_json. apply pthen_stop; [done|]. apply pthen_stop; [|done]. apply P_CliOut.pall_ok. apply Forall_forall. intros x Hx. apply elem_of_list_fmap in Hx as (v & -> & Hv).
      pose proof (references_inside m v V Hv) as R. unfold learned_json_entry. destruct (references v) as [|r rs] eqn:Er; [done|]. rewrite <- Er in *. clear Er.
      apply pthen_stop; [done|]. apply pthen_stop; [|done]. apply P_CliOut.pall_ok. apply Forall_forall. intros x Hx. apply elem_of_list_fmap in Hx as (r' & -> & Hr').
      rewrite Forall_forall in R. destruct (R r' Hr') as (w & ->). done.
    + destruct (learned_tsv_ok fmt m V) as (l & _ & ->). done.
Qed.

Section run.
  Context (pf : str -> option f64) (pf32 : str -> option f32) (fmt : f64 -> str) (ws lc alpha : N -> bool) (ln32 : f32 -> f32) (ln : f64 -> f64).
  Context (ps : str -> option (list edit_instruction)) (ses : str -> str -> list edit_instruction) (solve : fst_graph -> nat -> list (list nat * f32)).
  Context (o : list (N * node) -> list (N * node)) (o' : list (str * vocab_id) -> list (str * vocab_id)) (o'' : list (nat * list N) -> list (nat * list N)).
  Context (fs : str -> option (list (option str))) (ts : list typed).
  Context (W : well_typed Learn ts) (debug : option str) (P : tool_parameters) (stdin : list (option str)) (k : nat) (lls : list (list str)).
  Context (A : strict_asked pf pf32 fs stdin debug ts P k lls) (m : model) (C : contents_say ws pf pf32 ps fs Learn ts m) (L : within_limits m).
  Context (Cf : m_confusables m = []) (Rm : room_for m (k * length lls) (all_bytes lls)).
  Context (Ho : some_order o) (Ho' : some_order o') (Ho'' : some_order o'').
  #[local] Notation prog fuel := (program pf pf32 fmt ws lc alpha ln32 ln ps ses solve o o' o'' fs stdin fuel (Invocation debug (Some Learn) ts)).
  #[local] Notation p := (tp_search P).
  Definition typed_multi : bool := is_present Learn ts (lit "multi-output").
  Definition typed_json : bool := is_present Learn ts (lit "json").
  #[local] Notation sh := (shows fmt typed_multi typed_json).
  #[local] Notation files fuel mi input ns := (over_files fmt ws lc alpha ln32 ln ses solve o o' o'' fs fuel Learn ts (byte_offsets P) mi input ns).
  #[local] Notation fine ms := (exists mi B, state p ms mi B).

  Lemma inputs_shown input ns lls0 : inputs_say fs input ns lls0 -> forall lls', Forall2 lines_read lls0 lls' -> Forall (Forall (fun s => lookup_line s /\ count_spaces s < 255)) lls' ->
    forall ms mi B T b, state p ms mi B -> Forall (fun lines => sum_list (map byte_len lines) <= b) lls' ->
    (sum_frequency (m_decoder ms) + N.of_nat (k * length lls') * N.of_nat b <= T)%N -> (B + N.of_nat (k * length lls') * T < 4294967296)%N ->
    exists l F, learned_models lc ses p k lls' ms l /\ Forall (fun m1 => fine m1) l /\
      forall fuel, F <= fuel -> files fuel mi input ns = Printed (concat (map (fun m1 => p_out (sh m1)) l)) None.
  Proof using W A Ho Ho' Ho''.
    assert (is_present Learn ts (lit "strict") = true) as Es by (apply (flags ts W (lit "strict") eq_refl); exact (sk_strict _ _ _ _ _ _ _ _ _ A)).
    assert (parsed parse_small (value_of Learn ts (lit "iterations")) = Ok k) as Ek.
    { apply (parsed_spec Learn ts (proj2 (accepted_spec _ _) W) parse_small (counts_to 255)); [apply small_spec|by vm_compute|exact (sk_iterations _ _ _ _ _ _ _ _ _ A)]. }
    assert (forall lines lls' ns ls input, lines_read ls lines -> Forall (fun s => lookup_line s /\ count_spaces s < 255) lines ->
      (forall ms mi B T b, state p ms mi B -> Forall (fun lines => sum_list (map byte_len lines) <= b) lls' ->
        (sum_frequency (m_decoder ms) + N.of_nat (k * length lls') * N.of_nat b <= T)%N -> (B + N.of_nat (k * length lls') * T < 4294967296)%N ->
        exists l F, learned_models lc ses p k lls' ms l /\ Forall (fun m1 => fine m1) l /\
          forall fuel, F <= fuel -> files fuel mi input ns = Printed (concat (map (fun m1 => p_out (sh m1)) l)) None) ->
      forall ms mi B T b, state p ms mi B -> Forall (fun lines => sum_list (map byte_len lines) <= b) (lines :: lls') ->
        (sum_frequency (m_decoder ms) + N.of_nat (k * length (lines :: lls')) * N.of_nat b <= T)%N -> (B + N.of_nat (k * length (lines :: lls')) * T < 4294967296)%N ->
        exists l F, learned_models lc ses p k (lines :: lls') ms l /\ Forall (fun m1 => fine m1) l /\ forall fuel, F <= fuel ->
          pres (let* k := parsed parse_small (value_of Learn ts (lit "iterations")) in
                learn_iterations ws lc alpha ln32 ln ses solve o o' o'' fuel k (in_bytes p) (is_present Learn ts (lit "strict")) (readable ls) mi)
            (fun m' => pthen (sh m') (files fuel m' input ns)) = Printed (concat (map (fun m1 => p_out (sh m1)) l)) None) as Step.
    { intros lines lls' ns' ls input' Hrd Hls IH ms mi B T b St Hb HT HB. inversion Hb as [|? ? Hb1 Hb2]; subst.
      assert (N.of_nat (k * length (lines :: lls')) = N.of_nat k + N.of_nat (k * length lls'))%N as Hk by (cbn [length]; lia). rewrite Hk in HT, HB.
      rewrite N.mul_add_distr_r in HT, HB.
      destruct (many ws lc alpha ln32 ln ses solve o o' o'' Ho Ho' Ho'' p k ms mi B T b lines St Hls Hb1) as (ms1 & mi1 & F1 & It & St1 & Hs1 & HF1); [lia|lia|].
      destruct (IH ms1 mi1 (B + N.of_nat k * T)%N T b St1 Hb2) as (l & F2 & Lf & Fi & HF2); [lia|lia|].
      exists (ms1 :: l), (F1 `max` F2). split; [by econstructor|]. split; [constructor; [by eexists _, _|done]|].
      intros fuel Hf. rewrite Ek. cbn [rbind]. rewrite Es, (readable_spec _ _ Hrd), HF1 by lia. cbn [pres].
      rewrite HF2 by lia. rewrite (shows_same fmt typed_multi typed_json ms1 mi1) by exact (sc_decoder _ _ (st_same _ _ _ _ St1)).
      pose proof (shows_ok fmt typed_multi typed_json ms1 (st_inside _ _ _ _ St1)) as So. unfold pthen. rewrite So. cbn [p_stop p_out map concat]. done. }
    induction 1 as [input|input n ns ls lls0 Hn Ef Hi IH|input n ns lls0 Hn Hi IH]; intros lls' Hrd Hls ms mi B T b St Hb HT HB.
    - inversion Hrd; subst. exists [], 0. split; [constructor|]. split; [constructor|done].
    - inversion Hrd as [|? lines ? lls2 Hr1 Hr2]; subst. inversion Hls as [|? ? Hl1 Hl2]; subst.
      destruct (Step lines lls2 ns ls input Hr1 Hl1 (IH lls2 Hr2 Hl2) ms mi B T b St Hb HT HB) as (l & F & Lf & Fi & HF). exists l, F. split; [done|]. split; [done|]. intros fuel Hf.
      rewrite <- (HF fuel Hf). cbn [over_files]. assert (is_stdin n = false) as -> by (unfold is_stdin; by apply bool_decide_eq_false).
      unfold open. rewrite Ef. cbn [rexpect pres]. done.
    - inversion Hrd as [|? lines ? lls2 Hr1 Hr2]; subst. inversion Hls as [|? ? Hl1 Hl2]; subst.
      destruct (Step lines lls2 ns input [] Hr1 Hl1 (IH lls2 Hr2 Hl2) ms mi B T b St Hb HT HB) as (l & F & Lf & Fi & HF). exists l, F. split; [done|]. split; [done|]. intros fuel Hf.
      rewrite <- (HF fuel Hf). cbn [over_files]. assert (is_stdin n = true) as -> by (unfold is_stdin; by apply bool_decide_eq_true).
      cbn [pres]. done.
  Qed.

  Lemma shown_run : exists l, learned_models lc ses p k lls m l /\ Forall (fun m1 => fine m1) l /\
    exists F, forall fuel, F <= fuel -> prog fuel = Outcome
      ((if typed_json then lit "[" ++ newline else []) ++ concat (map (fun m1 => p_out (sh m1)) l) ++ (if typed_json then lit "]" ++ newline else [])) Ended.
  Proof using W A C L Cf Rm Ho Ho' Ho''.
    destruct (more_loaded pf pf32 ws ps solve o o' fs ts W debug P stdin k lls A m C L Cf Ho Ho') as (m' & E & St).
    pose proof (sk_inputs _ _ _ _ _ _ _ _ _ A) as (ns & lls0 & Hns & Hi & Hrd). unfold room_for in Rm.
    destruct (inputs_shown stdin ns lls0 Hi lls Hrd (sk_lines _ _ _ _ _ _ _ _ _ A) m m' (sum_frequency (m_decoder m))
      (sum_frequency (m_decoder m) + N.of_nat (k * length lls) * N.of_nat (all_bytes lls))%N (all_bytes lls) St (bytes_each lls)) as (l & F & Lf & Fi & HF).
    { lia. }
    { rewrite Nat2N.inj_succ, N.mul_succ_l in Rm. lia. }
    exists l. split; [done|]. split; [done|]. exists F. intros fuel Hfu. specialize (HF fuel Hfu). pose proof (sk_debug _ _ _ _ _ _ _ _ _ A) as Hd. pose proof (sk_parameters _ _ _ _ _ _ _ _ _ A) as HP.
    pose proof (sk_cutoff _ _ _ _ _ _ _ _ _ A) as Hcut.
    unfold program. cbn [iv_command iv_typed iv_debug]. rewrite (proj2 (accepted_spec _ _) W). unfold run.
    assert (exists k, parse_u8 (default (lit "0") debug) = Some k) as (kd & ->).
    { destruct debug as [s|]; [|by eexists]. destruct (Hd s eq_refl) as (kd & Hk). exists kd. by apply P_Vocab.parse_uint_spec. }
    cbn [rexpect rbind]. rewrite E. cbn [ores].
    assert (tool_params pf pf32 Learn ts = Ok (byte_offsets P)) as ->.
    { apply params_spec; [by apply accepted_spec|]. split; [|done]. clear -HP. destruct HP. by split. }
    cbn [ores]. assert (cutoff_refused (tp_search (byte_offsets P)) = false) as ->.
    { unfold cutoff_refused. change (p_cutoff_threshold (tp_search (byte_offsets P))) with (p_cutoff_threshold p).
      destruct (flt _ _); [by rewrite Hcut|done]. }
    rewrite (names_input _ _ Hns), HF. fold typed_json. unfold pthen, put, of_printed. cbn [p_stop p_out]. done.
  Qed.
End run.
