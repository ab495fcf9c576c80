(** Proofs about tab separated output, output of learned variants and the test of input. *)
From Verif Require Import M_Base P_Base M_Anahash S_Anahash P_Primes P_Anahash M_Float M_Types M_Model M_Search M_Text M_Iter S_Iter P_Iter P_Recurse
  M_Cli S_Cli P_Parse P_Vocab P_Cli P_Json P_JsonOut.
Import String.StringSyntax Ascii.AsciiSyntax.
From stdpp Require Import options.

#[local] Arguments pthen : simpl never.
#[local] Arguments put : simpl never.

(** * TSV *)
Lemma joined_concat c x l : joined c (x :: l) = x ++ concat (map (cons c) l).
Proof.
  revert x. induction l as [|y l IH]; intros x; [cbn; by rewrite app_nil_r|].
  change (joined c (x :: y :: l)) with (x ++ c :: joined c (y :: l)). by rewrite IH.
Qed.
Lemma columns_joined cs : cs <> [] -> Forall (fun c => 9%N ∉ c) cs -> columns cs (joined 9 cs).
Proof.
  intros Hne H. induction H as [|c cs Hc H IH]; [done|]. destruct cs as [|d cs]; [by constructor|]. apply columns_more; [done|by apply IH].
Qed.
Lemma pall_out l : p_stop (pall l) = None -> p_out (pall l) = concat (map p_out l) /\ Forall (fun x => p_stop x = None) l.
Proof.
  induction l as [|x l IH]; cbn [pall map concat]; intros H; [by split|]. apply pthen_ok in H as [H1 H2]. rewrite pthen_out by done.
  destruct (IH H2) as [-> F]. split; [done|by constructor].
Qed.
Lemma pall_ok l : Forall (fun x => p_stop x = None) l -> p_stop (pall l) = None.
Proof. induction 1 as [|x l Hx H IH]; [done|]. cbn [pall]. unfold pthen. by rewrite Hx. Qed.

Lemma tsv_match_line fmt m lexmatch fw input vs sel off :
  p_stop (tsv_match fmt m lexmatch fw input vs sel off) = None -> length (m_lexicons m) <= 256 ->
  exists rs os cells, selected_first sel (default [] vs) rs /\ offset_columns off os /\
    Forall2 (result_columns fmt (vr_score fw) lexmatch m) rs cells /\
    p_out (tsv_match fmt m lexmatch fw input vs sel off) = joined 9 (input :: os ++ concat cells) ++ [10%N].
Proof.
  unfold tsv_match. intros H Hl. apply pthen_ok in H as [_ H]. rewrite pthen_out by done. apply pthen_ok in H as [_ H]. rewrite pthen_out by done.
  apply pthen_ok in H as [H _]. rewrite pthen_out by done. rewrite !put_out.
  assert (Eo : exists os, offset_columns off os /\ match off with
         | Some (b, e) => tab ++ show (N.of_nat b) ++ lit ":" ++ show (N.of_nat e)
         | None => [] end = concat (map (cons 9%N) os)).
  { destruct off as [[b e]|]; [|exists []; split; [constructor|done]].
    exists [show (N.of_nat b) ++ 58%N :: show (N.of_nat e)]. split; [constructor; apply show_decimal|].
    cbn [map concat]. rewrite app_nil_r. unfold tab. change (lit ":") with [58%N]. done. }
  destruct Eo as (os & Hos & ->).
  destruct vs as [vs|].
  - destruct (tsv_results_out fmt m lexmatch fw _ H Hl) as (cells & Hc & ->).
    exists (listed sel vs), os, cells. split; [apply listed_selected_first|]. split; [done|]. split; [done|].
    rewrite joined_concat, map_app, concat_app. unfold newline. by rewrite <- !app_assoc.
  - exists [], os, []. split; [destruct sel as [s|]; [apply sf_outside; cbn; lia|apply sf_none]|]. split; [done|]. split; [constructor|].
    rewrite joined_concat, map_app, concat_app. cbn [concat map]. rewrite put_out. unfold newline. by rewrite <- !app_assoc, app_nil_l.
Qed.

(** nothing fails when the results are entries of the model *)
Lemma tsv_match_ok fmt m lexmatch fw input vs sel off :
  length (m_lexicons m) <= 32 -> Forall (fun r => is_Some (m_decoder m !! vr_id r)) (default [] vs) ->
  p_stop (tsv_match fmt m lexmatch fw input vs sel off) = None.
Proof.
  intros Hl H. unfold tsv_match. unfold pthen at 1. cbn [p_stop put]. unfold pthen at 1. cbn [p_stop put].
  assert (G : p_stop match vs with Some vs => pall (map (tsv_result fmt m lexmatch fw) (listed sel vs)) | None => put [] end = None).
  { destruct vs as [vs|]; [|done]. apply pall_ok. apply Forall_map. cbn in H.
    assert (H' : Forall (fun r => is_Some (m_decoder m !! vr_id r)) (listed sel vs)).
    { pose proof (listed_selected_first sel vs) as G. destruct G as [pre x post| |]; try done.
      apply Forall_app in H as [Ha Hb]. apply Forall_cons in Hb as [Hx Hb]. constructor; [done|]. by apply Forall_app. }
    eapply Forall_impl; [exact H'|]. intros r [v Hv]. cbn. unfold tsv_result, get_vocab. rewrite Hv. cbn [rexpect pres]. unfold pthen. cbn [p_stop put].
    destruct lexmatch; [|done]. destruct (lexicons_of_ok m v Hl) as [ls ->]. done. }
  unfold pthen. rewrite G. done.
Qed.

(** * Learned variants *)
Lemma references_linked v : references v = linked (default [] (vv_variants v)).
Proof.
  unfold references. destruct (vv_variants v) as [l|]; [|done]. cbn. induction l as [|[i s|i s] l IH]; cbn; [done| |done]. by rewrite <- IH.
Qed.
Lemma linked_has v : linked (default [] (vv_variants v)) <> [] <-> has_reference v.
Proof.
  unfold has_reference. destruct (vv_variants v) as [l|]; cbn; [|set_solver]. induction l as [|[i s|i s] l IH]; cbn; [set_solver| |].
  - split; [|done]. intros _. exists i, s. by left.
  - rewrite IH. split; intros (j & t & H); exists j, t; [by right|]. apply elem_of_cons in H as [H|H]; done.
Qed.

Section learned.
  Context (fmt : f64 -> str) (m : model).

  Lemma learned_entry_line v :
    p_stop (learned_tsv_entry fmt m v) = None ->
    (linked (default [] (vv_variants v)) = [] /\ p_out (learned_tsv_entry fmt m v) = []) \/
    (linked (default [] (vv_variants v)) <> [] /\ exists line, learned_line fmt m v line /\ p_out (learned_tsv_entry fmt m v) = line ++ [10%N]).
  Proof.
    unfold learned_tsv_entry. rewrite references_linked. unfold learned_line. destruct (linked _) as [|x l] eqn:E; [by left|]. right. split; [done|].
    apply pthen_ok in H as [_ H]. rewrite pthen_out by done. apply pthen_ok in H as [H _]. rewrite pthen_out by done. rewrite !put_out.
    set (rs := x :: l) in *. clearbody rs.
    assert (G : exists cells, p_out (pall (map (fun r : vocab_id * f64 =>
          pres (rexpect (m_decoder m !! r.1)) (fun w => put (tab ++ vv_text w ++ tab ++ fmt r.2))) rs)) = concat (map (cons 9%N) (concat cells)) /\
       Forall2 (fun (x : vocab_id * f64) cs => exists w, m_decoder m !! x.1 = Some w /\ cs = [vv_text w; fmt x.2]) rs cells).
    { clear E. induction rs as [|r rs IH]; cbn [map pall] in *; [exists []; split; [done|constructor]|].
      apply pthen_ok in H as [H1 H2]. rewrite pthen_out by done. destruct (IH H2) as (cells & -> & Hc).
      apply pres_ok in H1 as (w & Hw & _ & ->). apply rexpect_ok in Hw. exists ([vv_text w; fmt r.2] :: cells). split.
      - rewrite put_out. cbn [concat map app]. unfold tab. by rewrite <- !app_assoc.
      - constructor; [by exists w|done]. }
    destruct G as (cells & -> & Hc). exists (joined 9 (vv_text v :: concat cells)). split; [by exists cells|].
    rewrite joined_concat. unfold newline. by rewrite <- app_assoc.
  Qed.
  Lemma learned_tsv_lines :
    p_stop (learned_tsv fmt m) = None ->
    exists lines, p_out (learned_tsv fmt m) = concat (map (fun l => l ++ [10%N]) lines) /\
      Forall2 (learned_line fmt m) (List.filter (fun v => match linked (default [] (vv_variants v)) with [] => false | _ => true end) (m_decoder m)) lines.
  Proof.
    unfold learned_tsv. generalize (m_decoder m). intros d. induction d as [|v d IH]; cbn [map pall]; intros H; [exists []; split; [done|constructor]|].
    apply pthen_ok in H as [H1 H2]. rewrite pthen_out by done. destruct (IH H2) as (lines & -> & Hl). cbn [List.filter].
    destruct (learned_entry_line v H1) as [[E ->]|[E (line & Hline & ->)]].
    - rewrite E. by exists lines.
    - destruct (linked _); [done|]. exists (line :: lines). split; [done|by constructor].
  Qed.

  (** ** JSON *)
  Context (Hfmt : forall x, finite x -> number (fmt x)).
  Lemma run_number st s t : ready st -> number s -> run st (s ++ t) = run Bare t.
  Proof. intros Hst H. apply number_bare in H as (c & s' & -> & H). by rewrite run_app, run_bare. Qed.
  Lemma run_cons st c s st' : step st c = Some st' -> run st (c :: s) = run st' s.
  Proof. intros H. cbn [run]. by rewrite H. Qed.
  Lemma run_escape s t : clean s -> run InString (escape s ++ 34%N :: t) = run After t.
  Proof. intros H. erewrite run_chars; [done|]. by apply escape_chars. Qed.

  Lemma learned_entry_breaks v st t :
    ready st -> has_reference v -> clean (vv_text v) ->
    (forall i s, ReferenceFor i s ∈ default [] (vv_variants v) -> finite s /\ exists w, m_decoder m !! i = Some w /\ clean (vv_text w)) ->
    run st (p_out (learned_json_entry fmt m v) ++ t) = None.
  Proof using Hfmt.
    intros Hst Hr Hc Hok. apply linked_has in Hr. unfold learned_json_entry. rewrite references_linked.
    assert (Hok' : Forall (fun x : vocab_id * f64 => finite x.2 /\ exists w, m_decoder m !! x.1 = Some w /\ clean (vv_text w)) (linked (default [] (vv_variants v)))).
    { clear Hr. induction (default [] (vv_variants v)) as [|[i s|i s] l IH]; cbn; [constructor| |].
      - constructor; [apply (Hok i s); by left|]. apply IH. intros i' s' H'. apply Hok. by right.
      - apply IH. intros i' s' H'. apply Hok. by right. }
    destruct (linked _) as [|x l]; [done|]. rewrite pthen_out by done. rewrite put_out.
    set (f := fun r : vocab_id * f64 => pres (rexpect (m_decoder m !! r.1)) _) in *.
    assert (G : forall rs st t, ready st -> rs <> [] -> Forall (fun x : vocab_id * f64 => finite x.2 /\ exists w, m_decoder m !! x.1 = Some w /\ clean (vv_text w)) rs ->
      p_stop (pall (map f rs)) = None /\ run st (p_out (pall (map f rs)) ++ t) = run Before t).
    { clear -Hfmt. intros rs. induction rs as [|r rs IH]; intros st t Hst Hne H; [done|]. apply Forall_cons in H as [(Hf & w & Hw & Hc) H]. cbn [map pall].
      assert (Er : f r = put (lit "        { ""text"": """ ++ escape (vv_text w) ++ lit """, ""score"": " ++ fmt r.2 ++
                 lit ", ""freq"": " ++ show (vv_frequency w) ++ lit " }, " ++ newline)) by (unfold f; by rewrite Hw).
      rewrite Er. split.
      { unfold pthen. cbn [p_stop put]. destruct rs as [|r' rs]; [done|]. by apply (IH Before []); [right| |]. }
      rewrite pthen_out by done. rewrite put_out. rewrite <- !app_assoc.
      change (lit "        { ""text"": """) with (repeat 32%N 8 ++ [123; 32; 34; 116; 101; 120; 116; 34; 58; 32; 34]%N).
      rewrite <- app_assoc. rewrite run_app, run_white_ready by (done || by repeat constructor). cbn [app].
      rewrite (run_cons st 123%N _ Open) by (by destruct Hst as [-> | ->]).
      change (lit """, ""score"": ") with (34%N :: [44; 32; 34; 115; 99; 111; 114; 101; 34; 58; 32]%N).
      change (run Open (32 :: 34 :: 116 :: 101 :: 120 :: 116 :: 34 :: 58 :: 32 :: 34 :: ?x)%N) with (run InString x).
      rewrite <- app_comm_cons. rewrite run_escape by done. cbn [app].
      change (run After (44 :: 32 :: 34 :: 115 :: 99 :: 111 :: 114 :: 101 :: 34 :: 58 :: 32 :: ?x)%N) with (run Before x).
      rewrite run_number by (by right || by apply Hfmt).
      change (lit ", ""freq"": ") with [44; 32; 34; 102; 114; 101; 113; 34; 58; 32]%N. cbn [app].
      change (run Bare (44 :: 32 :: 34 :: 102 :: 114 :: 101 :: 113 :: 34 :: 58 :: 32 :: ?x)%N) with (run Before x).
      rewrite run_number by (by right || apply show_number).
      change (lit " }, ") with [32; 125; 44; 32]%N. change newline with [10%N]. cbn [app].
      change (run Bare (32 :: 125 :: 44 :: 32 :: 10 :: ?x)%N) with (run Before x).
      destruct rs as [|r' rs]; [done|]. apply IH; [by right|done|done]. }
    destruct (G (x :: l) Open [] ltac:(by left) ltac:(done) Hok') as [Gs _]. rewrite pthen_out by done. rewrite put_out. rewrite <- !app_assoc.
    change (lit "    """) with (repeat 32%N 4 ++ [34]%N). rewrite <- app_assoc. rewrite run_app, run_white_ready by (done || by repeat constructor). cbn [app].
    rewrite (run_cons st 34%N _ InString) by (by destruct Hst as [-> | ->]).
    change (lit """: [ ") with (34%N :: [58; 32; 91; 32]%N). rewrite <- app_comm_cons. rewrite run_escape by done. change newline with [10%N]. cbn [app].
    change (run After (58 :: 32 :: 91 :: 32 :: 10 :: ?x)%N) with (run Open x).
    rewrite (proj2 (G (x :: l) Open _ ltac:(by left) ltac:(done) Hok')). done.
  Qed.

  Lemma learned_json_broken :
    Exists has_reference (m_decoder m) ->
    (forall v, v ∈ m_decoder m -> clean (vv_text v)) ->
    (forall v i s, v ∈ m_decoder m -> ReferenceFor i s ∈ default [] (vv_variants v) -> finite s /\ is_Some (m_decoder m !! i)) ->
    ~ json_text (p_out (learned_json fmt m)).
  Proof using Hfmt.
    intros He Hc Hr. apply not_json. unfold learned_json. rewrite pthen_out by done. rewrite put_out.
    change (lit "{" ++ newline) with [123; 10]%N. cbn [app]. change (run Before (123 :: 10 :: ?x)%N) with (run Open x).
    assert (G : forall d, (forall v, v ∈ d -> v ∈ m_decoder m) -> Exists has_reference d -> forall e, run Open (p_out (pthen (pall (map (learned_json_entry fmt m) d)) e)) = None).
    { clear He. intros d Hd. induction d as [|v d IH]; intros He e; [by apply Exists_nil in He|]. cbn [map pall]. rewrite pthen_assoc.
      destruct (linked (default [] (vv_variants v))) as [|x l] eqn:E.
      - replace (learned_json_entry fmt m v) with (put []) by (unfold learned_json_entry; by rewrite references_linked, E).
        rewrite pthen_nil_l. apply IH; [set_solver|]. apply Exists_cons in He as [He|He]; [|done]. apply linked_has in He. done.
      - assert (Hv : has_reference v) by (apply linked_has; by rewrite E).
        assert (B : forall t, run Open (p_out (learned_json_entry fmt m v) ++ t) = None).
        { intros t. apply learned_entry_breaks; [by left|done|apply Hc, Hd; by left|]. intros i s Hi.
          destruct (Hr v i s) as [Hs [w Hw]]; [apply Hd; by left|done|]. split; [done|]. exists w. split; [done|]. apply Hc. by eapply elem_of_list_lookup_2. }
        unfold pthen at 1. destruct (p_stop (learned_json_entry fmt m v)); [|apply B]. specialize (B []). by rewrite app_nil_r in B. }
    by rewrite G.
  Qed.
  Lemma learned_json_nothing : Forall (fun v => ~ has_reference v) (m_decoder m) -> says (p_out (learned_json fmt m)) (JObj []).
  Proof.
    intros H. unfold learned_json. rewrite pthen_out by done.
    assert (G : pall (map (learned_json_entry fmt m) (m_decoder m)) = put []).
    { induction H as [|v d Hv H IH]; [done|]. cbn [map pall]. rewrite IH. unfold learned_json_entry. rewrite references_linked.
      destruct (linked _) eqn:E; [done|]. exfalso. apply Hv, linked_has. by rewrite E. }
    rewrite G, pthen_nil_l. rewrite !put_out. exists [], (123%N :: [10%N] ++ [125%N]), [10%N]. split; [done|]. split; [constructor|].
    split; [apply value_object_empty; wh|wh].
  Qed.
End learned.

(** * Files per lexicon *)
Lemma multi_json_in m x i : i ∈ multi_json m x <-> i < length (m_lexicons m) /\ N.testbit x (N.of_nat i) = true.
Proof.
  unfold multi_json. rewrite elem_of_list_In, filter_In, in_seq. split; intros [H1 H2]; (split; [lia|]).
  - apply N.eqb_eq in H2. assert (T : N.testbit (N.land x (N.shiftl 1 (N.of_nat i))) (N.of_nat i) = true).
    { rewrite H2. by rewrite N.shiftl_spec_high', N.sub_diag by lia. }
    rewrite N.land_spec in T. by apply andb_true_iff in T as [T _].
  - apply N.eqb_eq. apply N.bits_inj. intros k. rewrite N.land_spec. rewrite N.shiftl_1_l, N.pow2_bits_eqb.
    destruct (N.eqb_spec (N.of_nat i) k) as [<-|]; [by rewrite H2|by rewrite andb_false_r].
Qed.
Lemma multi_tsv_in m x i : i ∈ multi_tsv m x <->
  i < length (m_lexicons m) /\ ((i = 0 /\ N.testbit x 0 = false) \/ (i = 1 /\ N.testbit x 1 = true)).
Proof.
  unfold multi_tsv. rewrite elem_of_list_In, filter_In, in_seq.
  assert (L : forall i, N.land x (N.shiftl 1 (N.of_nat i)) = if N.testbit x (N.of_nat i) then (2 ^ N.of_nat i)%N else 0%N).
  { intros j. apply N.bits_inj. intros k. rewrite N.land_spec, N.shiftl_1_l, N.pow2_bits_eqb.
    destruct (N.eqb_spec (N.of_nat j) k) as [<-|Hk].
    - rewrite andb_true_r. destruct (N.testbit x (N.of_nat j)); [by rewrite N.pow2_bits_true|by rewrite N.bits_0].
    - rewrite andb_false_r. destruct (N.testbit x (N.of_nat j)); [by rewrite N.pow2_bits_false|by rewrite N.bits_0]. }
  rewrite L, N.shiftl_mul_pow2. destruct i as [|[|i]].
  - change (N.of_nat 0) with 0%N. destruct (N.testbit x 0); cbn; intuition (discriminate || lia).
  - change (N.of_nat 1) with 1%N. destruct (N.testbit x 1); cbn; intuition (discriminate || lia).
  - pose proof (N.pow_nonzero 2 (N.of_nat (S (S i)))) as P. 
    destruct (N.testbit x (N.of_nat (S (S i)))); (split; [intros [H1 H2]; apply N.eqb_eq in H2; nia|intros [H1 [H2|H2]]; lia]).
Qed.

(** * The test of input *)
Lemma encodable_reads A t ks : reads A t ks -> encodable A t <-> length A ∉ ks.
Proof.
  induction 1 as [|t i e t' ks -> He Hf Hr IH|c t' ks Hn Hr IH].
  - split; [set_solver|constructor].
  - apply first_entry_lt in Hf as Hi. rewrite not_elem_of_cons. rewrite <- IH. split.
    + intros H. split; [lia|]. remember (e ++ t') as u eqn:Eu. destruct H as [|i' e' t'' He' Hf' H].
      * symmetry in Eu. by apply app_eq_nil in Eu as [-> _].
      * destruct (first_entry_det _ _ _ _ _ _ Hf Hf') as [_ <-]. by apply app_inv_head in Eu as ->.
    + intros [_ H]. by eapply encodable_entry.
  - split; [|set_solver]. intros H. exfalso. remember (c :: t') as u eqn:Eu. destruct H as [|i' e' t'' He' Hf' H]; [done|].
    destruct Hf' as (j & Hj & P & _). by eapply Hn.
Qed.
Lemma test_input_encodable A t : alphabet_ok A -> exists b, test_input A t = Ok b /\ (b = true <-> encodable A t).
Proof.
  intros HA. destruct (reads_total A t HA) as [ks Hr]. unfold test_input. rewrite (anahash_reads _ _ _ HA Hr), (normalize_reads _ _ _ HA Hr). cbn [rbind].
  rewrite (alphabet_size_ok _ HA). cbn [rbind]. replace (S (length A) - 1) with (length A) by lia.
  destruct HA as [Hlen HA']. assert (HA : alphabet_ok A) by done. rewrite character_ok by lia. cbn [rbind]. eexists. split; [done|].
  rewrite (encodable_reads _ _ _ Hr). rewrite negb_true_iff. pose proof (reads_below168 _ _ _ HA Hr) as Hb.
  assert (H1 : below168 [length A]) by (constructor; [lia|constructor]).
  assert (S : ana_contains (prod ks) (prod [length A]) = true <-> [length A] ⊆+ ks).
  { rewrite ana_contains_spec by (by apply prod_pos). by apply prod_divide. }
  cbn [prod] in S. rewrite N.mul_1_r in S. rewrite singleton_submseteq_l in S. destruct (ana_contains _ _).
  - split; [done|]. intros H. by destruct (H (proj1 S eq_refl)).
  - split; [|done]. intros _ H. apply S in H. done.
Qed.
Lemma encodable_single A t : single_chars A -> encodable A t <-> Forall (fun c => exists line, line ∈ A /\ [c] ∈ line) t.
Proof.
  intros HA. split.
  - induction 1 as [|i e t' He (j & (line & L1 & L2) & P & _) H IH]; [constructor|]. apply Forall_app. split; [|done].
    apply elem_of_list_lookup_2 in L1, L2. destruct (HA line e L1 L2) as [c ->]. constructor; [|constructor]. by exists line.
  - induction 1 as [|c t (line & L1 & L2) H IH]; [constructor|]. destruct (char_cases A c) as [[i Hi]|Hu].
    + eapply (encodable_entry A i [c] t); [done| |done]. by apply line_of_first.
    + by destruct (Hu line).
Qed.

(** * Forms of the lemmas for the properties *)
From Verif Require Import M_Par P_JsonRead.

Lemma schedule_results {A L B} (step : L -> L + res B) (start : A -> L) (f : A -> res B) inputs ts o :
  (forall a, a ∈ inputs -> alone step (start a) (f a)) ->
  rtc (pool_step step) (map (fun a => Running (start a)) inputs) ts -> collected ts o ->
  match o with
  | Ok bs => Forall2 (fun a b => f a = Ok b) inputs bs
  | Panic p => exists a, a ∈ inputs /\ f a = Panic p
  end.
Proof.
  intros Hf Hr Hc. pose proof (schedule_collected step start f inputs ts o Hf Hr Hc) as H. destruct o as [bs|p]; [|done].
  clear -H. revert bs H. induction inputs as [|a l IH]; intros bs H; cbn in H.
  - injection H as <-. constructor.
  - destruct (f a) as [b|p] eqn:E; [|done]. cbn in H. destruct (rmapM f l) as [bs'|p]; [|done]. cbn in H. injection H as <-.
    constructor; [done|by apply IH].
Qed.
Lemma par_whole fmt m lexmatch fw lookup json n lines :
  0 < n -> None ∉ lines -> p_stop (process fmt m lexmatch fw lookup json lines) = None ->
  process_par fmt m lexmatch fw lookup json n lines = process fmt m lexmatch fw lookup json lines.
Proof. intros H1 H2 H3. apply par_same; [done|lia|done|done]. Qed.
Lemma texts_all sp per_line n lines :
  0 < n ->
  exists groups, M_Cli.texts sp per_line n lines = Some (map (joined (if sp then 32%N else 10%N)) groups) /\
    Forall (fun g => length g <= n) groups /\
    (lines = map Some (concat groups) \/ exists rest, lines = map Some (concat groups) ++ None :: rest).
Proof. intros H. apply texts_groups; [done|lia]. Qed.
Lemma columns_unique cs cs' :
  cs <> [] -> Forall (fun c => 9%N ∉ c) cs -> columns cs (joined 9 cs) /\ (columns cs' (joined 9 cs) -> cs' = cs).
Proof. intros H1 H2. pose proof (columns_joined cs H1 H2) as H. split; [done|]. intros H'. by eapply columns_det. Qed.
Lemma json_match_says fmt m lexmatch fw input vs sel off seqnr tag tagseq :
  (forall x, finite x -> number (fmt x)) -> printable m -> clean input -> Forall (showable (vr_score fw) m) (default [] vs) ->
  p_stop (json_match fmt m lexmatch fw input vs sel off seqnr tag tagseq) = None ->
  exists v j, value v j /\ match_says fmt (vr_score fw) lexmatch m input vs sel off tag tagseq j /\
    p_out (json_match fmt m lexmatch fw input vs sel off seqnr tag tagseq) =
    (if 1 <? seqnr then lit "    ," else lit "    ") ++ v ++ [10%N].
Proof. intros H1 [H2 H3 H4] H5 H6 H7. by apply json_match_value. Qed.
Lemma query_says fmt m lexmatch fw lookup lines :
  (forall x, finite x -> number (fmt x)) -> printable m ->
  (forall l vs, Some l ∈ lines -> lookup l = Ok vs -> clean l /\ Forall (showable (vr_score fw) m) vs) ->
  p_stop (process fmt m lexmatch fw lookup true lines) = None ->
  exists js, says (p_out (whole_output true [process fmt m lexmatch fw lookup true lines])) (JArr js) /\
    Forall2 (fun l j => exists vs, lookup l = Ok vs /\ match_says fmt (vr_score fw) lexmatch m l (Some vs) (Some 0) None [] [] j)
      (omap id lines) js.
Proof. intros H1 [H2 H3 H4] H5 H6. by apply whole_query. Qed.
Lemma search_says fmt m lexmatch fw search sp per_line n lines ts :
  (forall x, finite x -> number (fmt x)) -> printable m ->
  M_Cli.texts sp per_line n lines = Some ts ->
  (forall t ms, t ∈ ts -> search t = Ok ms -> Forall (found_showable (vr_score fw) m) ms) ->
  p_stop (process_search fmt m lexmatch fw search true sp per_line n lines) = None ->
  exists jss, says (p_out (whole_output true [process_search fmt m lexmatch fw search true sp per_line n lines])) (JArr (concat jss)) /\
    Forall2 (fun t js => exists ms, search t = Ok ms /\ Forall2 (found_says fmt (vr_score fw) lexmatch m) ms js) ts jss.
Proof. intros H1 [H2 H3 H4] H5 H6 H7. by apply (whole_search fmt m lexmatch fw H1 H2 H3 H4 (fun _ => Ok [])). Qed.
Lemma show_reads n : decimal n (show n) /\ ((n < 4294967296)%N -> parse_uint 4294967295 (show n) = Some n).
Proof.
  split; [apply show_decimal|]. intros Hn. destruct (show_spec n) as (c & s & E & Hc & Hs & _ & _ & Hp). unfold parse_uint.
  rewrite E in *. unfold digit in Hc. assert (G : match c :: s with 43%N :: s' => s' | _ => c :: s end = c :: s).
  { destruct c as [|p]; [done|]. do 7 (try (destruct p as [p|p|]); try reflexivity; try lia). }
  rewrite G, Hp. destruct (N.leb_spec n 4294967295); [done|lia].
Qed.
Lemma tag_breaks fmt m lexmatch fw :
  m_tags m = [lit "a""b"] ->
  ~ json_text (p_out (json_match fmt m lexmatch fw (lit "a") None None None 1 [0%N] [0])).
Proof. intros H. apply not_json. unfold json_match. cbn [zip zip_with json_tags]. rewrite H. done. Qed.
