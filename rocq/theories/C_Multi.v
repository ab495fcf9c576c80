(** Property C99: the files that learning mode writes per lexicon. *)
From Coq Require String Ascii.
From Coq Require Import Lia.
From Verif Require Import M_Base M_Anahash M_Float M_Types M_Model M_Search M_Learn M_Cli M_Main M_Options M_Multi.
From Verif Require Import S_Model S_Cli S_Main S_Options S_Program S_Learn S_Multi P_Base P_Multi P_LearnRun.
From Verif Require P_Learn P_JsonRead C_Find C_Learn.
Import String.StringSyntax Ascii.AsciiSyntax.
From stdpp Require Import options.
#[local] Arguments lit s%string_scope.

(** ** C99 *)
(** JSON: a file for every lexicon that has variants, with all of them; but what
    is called the score is the frequency, and the other way round. *)
Theorem C99_json fmt m : links_resolve m -> (forall x, finite x -> number (fmt x)) -> (forall v, v ∈ m_decoder m -> clean (vv_text v)) ->
  (forall v y s, v ∈ m_decoder m -> (y, s) ∈ stored_variants v -> finite s) ->
  exists files, multi_files_json fmt m = Ok files /\ files_have m in_the_lexicon (member_says the_frequency (the_score fmt)) files.
Proof. exact (json_files fmt m). Qed.
Print Assumptions C99_json.

(** TSV: the first file has the variants that are not in the first lexicon, the
    second those in the second, and there are no others. *)
Theorem C99_tsv fmt m : links_resolve m ->
  exists files, multi_files_tsv fmt m = Ok files /\ files_have m not_first_or_second (line_says fmt) files.
Proof. exact (tsv_files fmt m). Qed.
Print Assumptions C99_tsv.

(** After loading and learning the links lead to entries. *)
Theorem C99_resolve ws pf pf32 ps fs ts m prev l m1 : contents_say ws pf pf32 ps fs Learn ts m -> learned prev l m m1 -> links_resolve m1.
Proof.
  intros C L v y s Hv Hy. apply elem_of_list_lookup in Hv as (id & D). apply lookup_lt_is_Some.
  refine (learned_inside prev l m m1 (contents_inside _ _ _ _ _ _ _ _ C) L _ id v y s D Hy).
  destruct (Nat.le_gt_cases (length (m_decoder m)) (length (m_decoder m1))) as [H|H]; [done|].
  assert (is_Some (m_decoder m !! length (m_decoder m1))) as (w & D0) by (by apply lookup_lt_is_Some).
  destruct (le_old _ _ _ _ L _ _ D0) as (w' & D1 & _). apply lookup_lt_Some in D1. lia.
Qed.
Print Assumptions C99_resolve.

(** Learned spellings count as words of the first lexicon. *)
Theorem C99_new prev l m m1 : learned prev l m m1 ->
  forall id v, m_decoder m1 !! id = Some v -> m_decoder m !! id = None -> forall i, in_the_lexicon i (v, f0) <-> i = 0.
Proof.
  intros L id v D Dn i. destruct (le_new _ _ _ _ L id v D Dn) as (_ & _ & v0 & Nw & K). unfold in_the_lexicon. cbn [fst].
  rewrite (el_lexindex _ _ _ _ _ K). unfold new_item in Nw. destruct (normalize_to_alphabet _ _) as [n|]; [|done]. cbn [rbind] in Nw.
  destruct (u8_succ _) as [k|]; [|done]. injection Nw as <-. cbn [vv_lexindex].
  destruct i as [|i]; [done|]. split; [|done]. intros H. rewrite N.bits_above_log2 in H by (cbn; lia). done.
Qed.
Print Assumptions C99_new.

(** So TSV files never have a learned spelling: if nothing else is a variant,
    no file is written at all. *)
Theorem C99_tsv_refuted fmt prev l m m1 : lookups_inverse m -> learned prev l m m1 ->
  (forall v, v ∈ m_decoder m -> stored_variants v = []) -> (forall x, x ∈ l -> m_encoder m !! x.1 = None /\ vr_id x.2 < length (m_decoder m)) ->
  l <> [] -> m_lexicons m <> [] ->
  multi_files_tsv fmt m1 = Ok ∅ /\ ~ files_have m1 in_the_lexicon (line_says fmt) ∅.
Proof.
  intros W L H0 Hl Hne Hlex.
  assert (forall x, x ∈ l -> exists id w, m_encoder m1 !! x.1 = Some id /\ m_decoder m1 !! id = Some w /\ m_decoder m !! id = None) as New.
  { intros x Hx. destruct (le_inputs _ _ _ _ L x.1) as (id & E); [apply elem_of_list_fmap; by exists x|].
    pose proof E as E'. apply (le_inverse _ _ _ _ L) in E' as (w & Dw & Tw). exists id, w. split; [done|]. split; [done|].
    destruct (m_decoder m !! id) as [v|] eqn:Dv; [|done]. destruct (le_old _ _ _ _ L _ _ Dv) as (w' & D' & K). rewrite Dw in D'. injection D' as <-.
    destruct (Hl x Hx) as [En _]. assert (m_encoder m !! x.1 = Some id) as E2 by (apply W; exists v; split; [done|]; rewrite <- Tw; symmetry; apply K). congruence. }
  assert (forall id v y s, m_decoder m1 !! id = Some v -> (y, s) ∈ stored_variants v -> exists w, m_decoder m1 !! y = Some w /\ m_decoder m !! y = None) as Old.
  { intros id v y s D Hy.
    assert (exists v0 k, stored_variants v0 = [] /\ entry_learned (links_for m1 l) k id v0 v) as (v0 & k & E0 & K).
    { destruct (m_decoder m !! id) as [v0|] eqn:D0.
      - destruct (le_old _ _ _ _ L _ _ D0) as (v' & D' & K). rewrite D in D'. injection D' as <-. eexists v0, _. split; [|exact K]. apply H0. by eapply elem_of_list_lookup_2.
      - destruct (le_new _ _ _ _ L _ _ D D0) as (_ & _ & v0 & Nw & K). eexists v0, _. split; [|exact K]. unfold stored_variants. apply P_Learn.new_item_empty in Nw. by rewrite Nw. }
    rewrite (el_variants _ _ _ _ _ K), E0 in Hy. cbn [app map] in Hy. apply mentions_elem in Hy.
    unfold declared_variants in Hy. apply elem_of_list_fmap in Hy as (x & [= -> ->] & Hx). apply elem_of_list_filter in Hx as [_ Hx].
    unfold links_for in Hx. apply elem_of_list_fmap in Hx as (z & -> & Hz). cbn [fst snd]. destruct (New z Hz) as (i & w & E & Dw & Dn).
    rewrite E. cbn [default from_option]. unfold Datatypes.id. by exists w. }
  assert (links_resolve m1) as R.
  { intros v y s Hv Hy. apply elem_of_list_lookup in Hv as (id & D). destruct (Old id v y s D Hy) as (w & Dw & _). by exists w. }
  assert (forall ls x, variants_listed m1 ls -> x ∈ ls -> forall i, in_the_lexicon i x <-> i = 0) as First.
  { intros ls x (a & F & ->) Hx. apply elem_of_list_In, in_concat in Hx as (b & Hb & Hx). apply elem_of_list_In in Hb, Hx.
    apply elem_of_list_lookup in Hb as (k & Hb). destruct (Forall2_lookup_r _ _ _ _ _ F Hb) as (v & Hv & Fv).
    apply elem_of_list_lookup in Hx as (k' & Hx). destruct (Forall2_lookup_r _ _ _ _ _ Fv Hx) as ([y s] & Hy & L1 & _). cbn [fst] in L1.
    destruct (Old k v y s Hv ltac:(by eapply elem_of_list_lookup_2)) as (w & Dw & Dn). rewrite L1 in Dw. injection Dw as <-.
    exact (C99_new prev l m m1 L y x.1 L1 Dn). }
  split.
  - destruct (C99_tsv fmt m1 R) as (files & -> & ls & Hls & In & Out). f_equal. apply map_eq. intros i. rewrite lookup_empty.
    destruct (Nat.le_gt_cases (length (m_lexicons m1)) i) as [Hi|Hi]; [by apply Out|]. destruct (In i Hi) as (l' & Sl & [[_ E]|[Hn _]]); [done|].
    destruct Hn. assert (forall x, x ∈ ls -> ~ not_first_or_second i x) as No.
    { intros x Hx [[_ Hf]|[_ Hs]].
      - assert (in_the_lexicon 0 x) as G by (by apply (First ls x Hls Hx)). unfold in_the_lexicon in G. change (N.of_nat 0) with 0%N in G. rewrite G in Hf. discriminate Hf.
      - assert (in_the_lexicon 1 x) as G by exact Hs. by apply (First ls x Hls Hx) in G. }
    clear - Sl No. induction Sl as [|x l l' Hp _ _|x l l' _ _ IH]; [done| |].
    + destruct (No x ltac:(left)). done.
    + apply IH. intros y Hy. apply No. by right.
  - intros (ls & Hls & In & _). destruct l as [|x l0]; [done|]. destruct (Hl x ltac:(left)) as [_ Hid]. apply lookup_lt_is_Some in Hid as (r & Dr).
    destruct (le_old _ _ _ _ L _ _ Dr) as (r' & Dr' & K). pose proof (el_variants _ _ _ _ _ K) as E. rewrite (H0 r) in E by (by eapply elem_of_list_lookup_2).
    cbn [app map] in E. destruct (New x ltac:(left)) as (id & w & Ex & Dw & Dn).
    assert (exists y s t, stored_variants r' = (y, s) :: t) as (y & s & t & E').
    { rewrite E. unfold links_for. cbn [map]. rewrite Ex. cbn [default from_option]. unfold Datatypes.id, declared_variants. rewrite filter_cons_True.
      - cbn [map first_mentions fst snd]. destruct (decide _) as [Hd|_]; [by apply elem_of_nil in Hd|]. by eexists _, _, _.
      - cbn [fst snd]. split; [done|]. intros ->. congruence. }
    destruct Hls as (a & F & ->). destruct (Forall2_lookup_l _ _ _ _ _ F Dr') as (b & Hb & Fb). rewrite E' in Fb. inversion Fb as [|? z ? b' Hz Fb' E1 E2]. subst.
    assert (z ∈ concat a) as Hz'. { apply elem_of_list_In, in_concat. exists (z :: b'). split; [apply elem_of_list_In; by eapply elem_of_list_lookup_2|by left]. }
    destruct (In 0) as (l' & Sl & Hf).
    { rewrite (le_rest _ _ _ _ L). cbn [m_lexicons with_vocab]. destruct (m_lexicons m); [done|cbn; lia]. }
    assert (in_the_lexicon 0 z) as G by (apply (First (concat a) z); [by exists a|done|done]).
    assert (l' <> []) as Hn.
    { clear - Sl G Hz'. intros ->. remember [] as e eqn:He. induction Sl as [|u l l' Hp _ _|u l l' Hp _ IH]; [by apply elem_of_nil in Hz'|done|].
      apply elem_of_cons in Hz' as [->|Hz']; [done|]. by apply IH. }
    destruct Hf as [[Hf _]|[_ (lines & _ & Hf)]]; [done|]. by rewrite lookup_empty in Hf.
Qed.
Print Assumptions C99_tsv_refuted.

(** In JSON the score is not where it should be. *)
Definition half (x : f64) : str := lit "0.5".
Lemma resolve_check m : forallb (fun v => forallb (fun y => y.1 <? length (m_decoder m)) (stored_variants v)) (m_decoder m) = true -> links_resolve m.
Proof.
  intros H v y s Hv Hy. rewrite forallb_forall in H. apply elem_of_list_In, H in Hv. rewrite forallb_forall in Hv. apply elem_of_list_In, Hv in Hy.
  apply lookup_lt_is_Some. by apply Nat.ltb_lt in Hy.
Qed.
Lemma number_half : number (lit "0.5").
Proof.
  assert (fraction [46; 53]%N) as F.
  { right. exists [53%N]. split; [done|]. split; [done|]. constructor; [unfold digit; lia|constructor]. }
  exact (number_of [] [48%N] [46; 53]%N [] (or_introl eq_refl) integer_zero F (or_introl eq_refl)).
Qed.
Definition exfile : str := lit "        { ""text"": ""baac"",  ""score"": 1, ""freq"": 0.5 }, ".
Theorem C99_json_refuted : links_resolve C_Find.exF /\ multi_files_json half C_Find.exF = Ok {[ 0 := exfile ]} /\
  files_have C_Find.exF in_the_lexicon (member_says the_frequency (the_score half)) {[ 0 := exfile ]} /\
  ~ files_have C_Find.exF in_the_lexicon (member_says (the_score half) the_frequency) {[ 0 := exfile ]}.
Proof.
  assert (links_resolve C_Find.exF) as R by (apply resolve_check; by vm_compute).
  assert (multi_files_json half C_Find.exF = Ok {[ 0 := exfile ]}) as E by (by vm_compute).
  destruct (C99_json half C_Find.exF R) as (files & E' & H).
  - intros x _. exact number_half.
  - intros v Hv. assert (forallb (fun v => forallb (fun c => (32 <=? c)%N && negb (c =? 92)%N) (vv_text v)) (m_decoder C_Find.exF) = true) as B by (by vm_compute).
    rewrite forallb_forall in B. apply elem_of_list_In, B in Hv. rewrite forallb_forall in Hv. apply Forall_forall. intros c Hc. apply elem_of_list_In, Hv, andb_prop in Hc as [H1 H2].
    apply N.leb_le in H1. apply negb_true_iff, N.eqb_neq in H2. done.
  - intros v y s Hv Hy. assert (forallb (fun v => forallb (fun y => match y.2 with S754_finite _ _ _ => true | _ => false end) (stored_variants v)) (m_decoder C_Find.exF) = true) as B by (by vm_compute).
    rewrite forallb_forall in B. apply elem_of_list_In, B in Hv. rewrite forallb_forall in Hv. apply elem_of_list_In, Hv in Hy. cbn [snd] in Hy. by destruct s.
  - rewrite E in E'. injection E' as <-. split; [done|]. split; [done|]. split; [done|].
    destruct H as (l & Hl & In & _). intros (k & Hk & In' & _).
    destruct (In 0 ltac:(vm_compute; lia)) as (l' & Sl & [[_ F]|[_ (ss & F & Es)]]); [done|].
    destruct (In' 0 ltac:(vm_compute; lia)) as (k' & Sk & [[_ G]|[_ (ts & G & Et)]]); [done|].
    rewrite lookup_singleton in Es, Et.
    assert (forall l l', variants_listed C_Find.exF l -> selects (in_the_lexicon 0) l l' -> exists x, l' = [x] /\ vv_frequency x.1 = 1%N) as One.
    { clear. intros l l' (ls & F & ->) S.
      assert (exists v, m_decoder C_Find.exF !! 4 = Some v /\ vv_frequency v = 1%N /\ vv_lexindex v = 1%N) as (v4 & D4 & F4 & L4) by (eexists; by vm_compute).
      assert (concat ls = [(v4, C_Find.fhalf)]) as Ec.
      { assert (exists vs, m_decoder C_Find.exF = vs /\ map stored_variants vs = [[]; []; []; [(4, C_Find.fhalf)]; []; []]) as (vs & Ev & Em) by (eexists; by vm_compute).
        rewrite Ev in F at 1. assert (Forall2 (fun y l => Forall2 (linked_to C_Find.exF) y l) (map stored_variants vs) ls) as F' by (apply Forall2_fmap_l; exact F).
        clear F. rename F' into F. rewrite Em in F.
        repeat match goal with F : Forall2 _ (_ :: _) ?l |- _ => apply Forall2_cons_inv_l in F as (? & ? & ? & ? & ->) | F : Forall2 _ [] ?l |- _ => apply Forall2_nil_inv_l in F as -> end.
        match goal with H : linked_to _ _ ?x |- _ => destruct H as [H1 H2]; destruct x as [w s] end. cbn [fst snd] in *. rewrite D4 in H1. injection H1 as ->. rewrite H2. done. }
      rewrite Ec in S. inversion S as [|? ? l2 Hp S2 E1 E2|? ? l2 Hp S2 E1 E2]; inversion S2; [exists (v4, C_Find.fhalf); split; [done|exact F4]|].
      destruct Hp. unfold in_the_lexicon. cbn [fst]. by rewrite L4. }
    destruct (One l l' Hl Sl) as (x & -> & _). destruct (One k k' Hk Sk) as (z & -> & Fz).
    apply Forall2_cons_inv_l in F as (s & ss' & (a & b & c & Hb & Hc & -> & Sa) & F & ->). apply Forall2_nil_inv_l in F as ->.
    apply Forall2_cons_inv_l in G as (t & ts' & (a' & b' & c' & Hb' & Hc' & -> & Sa') & G & ->). apply Forall2_nil_inv_l in G as ->.
    rewrite Es in Et. injection Et as Et. cbn [concat] in Et. rewrite !app_nil_r in Et. apply app_inv_tail in Et as <-.
    pose proof (P_JsonRead.says_det _ _ _ Sa Sa') as J. injection J as _ Eb Ec. rewrite <- Eb in Hb'. unfold the_score, half in Hb'. rewrite Hb' in Hb.
    destruct Hb as [Hi _]. change (integer [48; 46; 53]%N) in Hi. inversion Hi as [|? ? Hc0 _]. lia.
Qed.
Print Assumptions C99_json_refuted.

(** a model with one lexicon that learned one spelling: no file in TSV *)
Example C99_ex : multi_files_tsv half C_Learn.exLearned = Ok ∅ /\
  multi_files_json half C_Learn.exLearned = Ok {[ 0 := lit "        { ""text"": ""bbab"",  ""score"": 1, ""freq"": 0.5 }, " ]} /\
  length (m_lexicons C_Learn.exLearned) = 1 /\ (forall v, v ∈ m_decoder (C_Find.idx C_Find.exG) -> stored_variants v = []).
Proof.
  split; [by vm_compute|]. split; [by vm_compute|]. split; [by vm_compute|]. intros v Hv.
  assert (forallb (fun v => match stored_variants v with [] => true | _ => false end) (m_decoder (C_Find.idx C_Find.exG)) = true) as B by (by vm_compute).
  rewrite forallb_forall in B. apply elem_of_list_In, B in Hv. by destruct (stored_variants v).
Qed.
(** two lexicons, with a variant in the second *)
Definition exTwo : model := with_lexicons (with_vocab C_Find.exF (map (fun v => VocabValue (vv_text v) (vv_norm v) (vv_frequency v) (vv_tokencount v) 2 (vv_variants v) (vv_type v)) (m_decoder C_Find.exF)) (m_encoder C_Find.exF)) [lit "a"; lit "b"] true.
Example C99_two_ex : rmap (fun f : gmap nat str => (f !! 0, f !! 1)) (multi_files_tsv half exTwo) = Ok (Some (lit "	baac	0.5	1
"), Some (lit "	baac	0.5	1
")) /\ links_resolve exTwo.
Proof. split; [by vm_compute|]. apply resolve_check. by vm_compute. Qed.
(** what is learned there meets the hypotheses *)
Example C99_learned_ex : lookups_inverse (C_Find.idx C_Find.exG) /\ exists l m1, learned None l (C_Find.idx C_Find.exG) m1 /\ l <> [] /\
  (forall x, x ∈ l -> m_encoder (C_Find.idx C_Find.exG) !! x.1 = None /\ vr_id x.2 < length (m_decoder (C_Find.idx C_Find.exG))) /\ m_lexicons (C_Find.idx C_Find.exG) <> [].
Proof.
  destruct C_Learn.C38_ex as (W & Ns & _ & En & _). split; [exact W|].
  set (l := [(C_Learn.exUnknown, VariantResult 5 C_Find.fhalf f1 None)]).
  assert (rmap (fun _ => tt) (rfoldl learn_one (C_Find.idx C_Find.exG, 0, None) l) = Ok tt) as H by (by vm_compute).
  destruct (rfoldl learn_one (C_Find.idx C_Find.exG, 0, None) l) as [[[m1 c1] p1]|] eqn:E; [|discriminate H].
  assert (vr_id (VariantResult 5 C_Find.fhalf f1 None) < length (m_decoder (C_Find.idx C_Find.exG))) as Hid by (vm_compute; lia).
  exists l, m1. split; [|split; [discriminate|split]].
  - refine (proj1 (P_Learn.learn_run l _ 0 None m1 c1 p1 W Ns _ _ E)); [constructor; [exact Hid|constructor]|]. intros p Hp. discriminate Hp.
  - intros x Hx. apply elem_of_list_singleton in Hx as ->. split; [exact En|exact Hid].
  - assert (length (m_lexicons (C_Find.idx C_Find.exG)) = 1) as Hl by (by vm_compute). intros Hn. rewrite Hn in Hl. discriminate Hl.
Qed.

(** Lexicons of different names have different files, and the files of the two forms
    are never the same. *)
Theorem C99_names l l' :
  (forall x, multi_name x l = multi_name x l' -> l = l') /\ multi_name (lit "tsv") l <> multi_name (lit "json") l'.
Proof.
  unfold multi_name. split; [intros x H; by apply app_inv_tail in H|]. intros H. apply (f_equal reverse) in H. rewrite !reverse_app in H.
  change (reverse (lit "tsv")) with [118; 115; 116]%N in H. change (reverse (lit "json")) with [110; 111; 115; 106]%N in H. by injection H.
Qed.
Print Assumptions C99_names.
Example C99_names_ex : multi_name (lit "tsv") (lit "a.lex") = lit "a.lex.variants.tsv".
Proof. by vm_compute. Qed.
