(** Property C92: learned variants as intermediate words. *)
From Coq Require String Ascii.
From Verif Require Import M_Base M_Utf8 M_Anahash M_Iter M_Distance M_Float M_Types M_Model M_Confusable M_ConfList M_Rules M_Search M_Text M_Values.
From Verif Require Import M_Matches M_Learn M_Cli M_Main M_Options M_Program.
From Verif Require Import S_Anahash S_Distance S_Text S_Model S_Search S_Lookup S_Values S_Rules S_Matches S_Learn S_Cli S_Main S_Options S_Program.
From Verif Require Import P_Base P_Options.
From Verif Require P_Parse P_Extra C_Anahash P_Model P_Results P_Learn C_Learn C_Find C_Options C_Program C_Matches C_LearnRun P_Solver.
Import String.StringSyntax Ascii.AsciiSyntax.
From stdpp Require Import options.

(** ** C92 *)
(** Rounds of learning, from the model [m] and what [m0] was built from it: the
    results that are learned from were found by lookups in the model so far, and
    the model is built again. *)
Section rounds.
  Context (lc : N -> bool) (ses : str -> str -> list edit_instruction) (m m0 : model).
  Definition looked_up_in (m1 m1' : model) (r : variant_result) : Prop :=
    exists q ks p rs, query m1 q ks /\ length ks <= 255 /\ finds lc ses m1' q p rs /\ r ∈ rs.
  Inductive rounds : nat -> model -> model -> Prop :=
  | rounds_none : rounds 0 m m0
  | rounds_more k m1 m1' l m2 o o' m2' : rounds k m1 m1' -> Forall (fun x => looked_up_in m1 m1' x.2) l -> learned None l m1' m2 ->
      some_order o -> some_order o' -> build o o' m2 = Ok m2' -> rounds (S k) m2 m2'.
End rounds.
(** What was known before learning. *)
Definition known (m : model) (id : vocab_id) : Prop := id < length (m_decoder m).

Lemma learned_searchable prev l m m1 id v : learned prev l m m1 -> indexed m1 id v ->
  exists v0, indexed m id v0 /\ entry_learned (links_for m1 l) (starts (vv_text v0) prev (map fst l)) id v0 v.
Proof.
  intros L [D S]. destruct (m_decoder m !! id) as [v0|] eqn:D0.
  - exists v0. destruct (le_old _ _ _ _ L id v0 D0) as (v1 & D1 & E). rewrite D in D1. injection D1 as <-. split; [|done]. split; [done|]. by rewrite <- (el_type _ _ _ _ _ E).
  - exfalso. destruct (le_new _ _ _ _ L id v D D0) as (_ & _ & v0 & Nw & E). rewrite (el_type _ _ _ _ _ E) in S.
    unfold new_item in Nw. apply rbind_ok in Nw as (a & _ & Nw). apply rbind_ok in Nw as (b' & _ & Nw). apply rbind_ok in Nw as (c & _ & Nw).
    injection Nw as <-. by vm_compute in S.
Qed.
Lemma built_frame m m' : built m m' -> m_decoder m' = m_decoder m /\ m_encoder m' = m_encoder m /\ m_alphabet m' = m_alphabet m /\ m_weights m' = m_weights m.
Proof.
  intros [_ _ (o & o' & _ & Ho' & B) _ _ _]. destruct (P_Model.build_split _ _ _ _ Ho' B) as (m1 & ng & fs & E & _ & ->).
  unfold build_index in E. apply rbind_ok in E as (hs & _ & E). apply rbind_ok in E as (ix & _ & E). by injection E as <-.
Qed.
Lemma learned_built prev l m m0 m1 o o' m' : built m m0 -> learned prev l m0 m1 -> some_order o -> some_order o' -> build o o' m1 = Ok m' -> built m1 m'.
Proof.
  intros B L Ho Ho' E. destruct (built_frame _ _ B) as (D0 & _ & A0 & W0). pose proof B as [BA BS _ BL BN BW].
  assert (m_alphabet m1 = m_alphabet m) as A1 by (rewrite (le_rest _ _ _ _ L); exact A0).
  assert (m_weights m1 = m_weights m) as W1 by (rewrite (le_rest _ _ _ _ L); exact W0).
  assert (forall id v, indexed m1 id v -> exists v0, indexed m id v0 /\ vv_text v = vv_text v0 /\ vv_norm v = vv_norm v0) as H.
  { intros id v I. destruct (learned_searchable _ _ _ _ _ _ L I) as (v0 & [D S] & K). exists v0. rewrite D0 in D. split; [by split|]. split; apply K. }
  split; [by rewrite A1|by rewrite A1|by exists o, o'| | |by rewrite W1].
  - intros id v ks [I R]. destruct (H _ _ I) as (v0 & I0 & T & _). rewrite A1, T in R. by eapply (BL id v0 ks).
  - intros id v I. destruct (H _ _ I) as (v0 & I0 & T & Nn). rewrite A1, T, Nn. by eapply BN.
Qed.

(** However many rounds: no lookup goes through, or ends at, a word that was
    added by learning.  All results are entries from before, found directly or
    through entries from before. *)
Theorem C92_never_through : forall lc ses m m0 k m1 m1' q ks p rs,
  built m m0 -> links_inside m -> rounds lc ses m m0 k m1 m1' -> query m q ks -> length ks <= 255 -> finds lc ses m1' q p rs ->
  Forall (fun r => known m (vr_id r) /\ forall i, vr_via r = Some i -> known m i) rs.
Proof.
  intros lc ses m m0 k m1 m1' q ks p rs B I R Q K F.
  assert (built m1 m1' /\ m_alphabet m1 = m_alphabet m /\ (forall id v, indexed m1 id v -> known m id /\ forall r s, (r, s) ∈ stored_references v -> known m r)) as (B1 & A1 & Inv).
  2: { assert (query m1 q ks) as Q1 by (destruct Q; split; [by rewrite A1|done..]).
    eapply Forall_impl; [exact (P_Results.sound lc ses m1 m1' q ks B1 Q1 p rs K F)|]. cbn. intros r (id & v & d & (k2 & [In _] & _) & H).
    destruct (Inv id v In) as [Kn Kr]. destruct H as [[-> ->]|[-> (s & Hs)]]; [done|]. split; [by eapply Kr|]. by intros i [= <-]. }
  clear Q K F q ks p rs. induction R as [|k m1 m1' l m2 o o' m2' R IH Hl L Ho Ho' Bd].
  { split; [done|]. split; [done|]. intros id v [D _]. split; [by eapply lookup_lt_Some|]. intros r s H. by eapply I. }
  destruct IH as (B1 & A1 & Inv). split; [by eapply learned_built|]. destruct (built_frame _ _ B1) as (D1 & _ & A1' & _).
  split; [rewrite (le_rest _ _ _ _ L); cbn; congruence|].
  assert (Forall (fun x => known m (vr_id x.2)) l) as Kl.
  { eapply Forall_impl; [exact Hl|]. cbn. intros x (q & ks & p & rs & Q & K & F & Hr).
    pose proof (P_Results.sound lc ses m1 m1' q ks B1 Q p rs K F) as S. rewrite Forall_forall in S. destruct (S _ Hr) as (id & v & d & (k2 & [In _] & _) & H).
    destruct (Inv id v In) as [Kn Kr]. destruct H as [[-> _]|[_ (s & Hs)]]; [done|by eapply Kr]. }
  intros id v In. destruct (learned_searchable _ _ _ _ _ _ L In) as (v0 & [Dv0 S0] & E). rewrite D1 in Dv0. destruct (Inv id v0 (conj Dv0 S0)) as [Kn Kr].
  split; [done|]. intros r s Hs. rewrite (el_references _ _ _ _ _ E) in Hs. apply elem_of_app in Hs as [Hs|Hs]; [by eapply Kr|].
  unfold declared_references in Hs. apply elem_of_list_fmap in Hs as (x & [= -> _] & Hx). apply elem_of_list_filter in Hx as [_ Hx].
  unfold links_for in Hx. apply elem_of_list_fmap in Hx as (z & -> & Hz). rewrite Forall_forall in Kl. by apply Kl.
Qed.
Print Assumptions C92_never_through.

(** The example of the documentation: "separate" in the lexicon, "seperate" and
    "seperete" in the input, distances limited to one substitution. *)
#[local] Notation row := C_Program.row.
#[local] Arguments C_Program.row s%string_scope.
Definition vnum (s : str) : option f64 := if bool_decide (s = lit "1.0") then Some f1 else C_Options.exnum s.
Definition vfs (n : str) : option (list (option str)) :=
  if bool_decide (n = lit "a.tsv") then Some [row "a"; row "e"; row "p"; row "r"; row "s"; row "t"]
  else if bool_decide (n = lit "l.tsv") then Some [row "separate"]
  else if bool_decide (n = lit "v.tsv") then Some [row "separate	seperate	1.0"]
  else if bool_decide (n = lit "in.txt") then Some [row "seperate"; row "seperete"]
  else None.
Definition vts (variants : bool) (rounds : str) : list typed := [C_Options.opt "alphabet" "a.tsv"; C_Options.opt "lexicon" "l.tsv";
  C_Options.opt "max-edit-distance" "1"; C_Options.opt "max-anagram-distance" "2"; C_Options.flg "strict"; TOption (lit "iterations") rounds; TFile (lit "in.txt")] ++
  if variants then [C_Options.opt "variants" "v.tsv"] else [].
Definition vrun (variants : bool) (rounds : str) : outcome := program vnum C_Options.exnum32 (fun _ => lit "1.0") C_Matches.space C_Find.lower C_Find.lower C_Matches.step_ln32 C_Matches.step_ln
  (fun _ => None) C_Find.script (P_Solver.some_solver Datatypes.id) Datatypes.id Datatypes.id Datatypes.id vfs [] 1000 (Invocation None (Some Learn) (vts variants rounds)).
(** The words come after "separate" only if "seperate" was known beforehand:
    learning it does not help, whatever the number of rounds. *)
Theorem C92_refuted :
  vrun false (lit "1") = Outcome (lit "separate	seperate	1.0
") Ended /\ vrun false (lit "255") = vrun false (lit "1") /\
  vrun true (lit "1") = Outcome (lit "separate	seperate	1.0	seperete	1.0
seperate	seperete	1.0
") Ended.
Proof. split; [by vm_compute|]. split; by vm_compute. Qed.
Print Assumptions C92_refuted.

(** One round from the words of [C38_ex]: "bbab" is looked up and learned. *)
Lemma rd_run_more f : forall it r, rd_run f it = Ok r -> forall f', f <= f' -> rd_run f' it = Ok r.
Proof.
  induction f as [|f IH]; intros it r H f' Hf; [discriminate H|]. destruct f' as [|f']; [lia|]. cbn [rd_run] in H |- *.
  apply rbind_ok in H as (s & -> & H). cbn [rbind]. destruct s; [done|apply (IH _ _ H); lia|].
  apply rbind_ok in H as (x & Hx & H). rewrite (IH _ _ Hx f') by lia. exact H.
Qed.
Lemma find_variants_more lc ses f f' order m q p l : find_variants lc ses f order m q p = Ok l -> f <= f' -> find_variants lc ses f' order m q p = Ok l.
Proof.
  intros H Hf. unfold find_variants in *. destruct (bool_decide (m_index m = ∅)); [exact H|].
  apply rbind_ok in H as (ns & -> & H). apply rbind_ok in H as (fo & -> & H). cbn [rbind] in *. apply rbind_ok in H as (ne & Hn & H).
  enough (find_nearest f' order m fo (effective_limit (p_max_anagram_distance p) (length ns)) (p_stop_criterion p) = Ok ne) as -> by exact H.
  clear H. unfold find_nearest in *. destruct (match m_index m !! fo with Some _ => _ | None => _ end) as [n0 b]. destruct b; [exact Hn|].
  apply rbind_ok in Hn as (a & -> & Hn). cbn [rbind]. apply rbind_ok in Hn as ([u c] & -> & Hn). cbn [rbind]. apply rbind_ok in Hn as (s & -> & Hn). cbn [rbind].
  apply rbind_ok in Hn as (lk & -> & Hn). cbn [rbind]. apply rbind_ok in Hn as (s1 & -> & Hn). cbn [rbind]. apply rbind_ok in Hn as (it & Hi & Hn).
  unfold rd_collect in *. destruct (rd_run f _) as [r|] eqn:E; [|discriminate Hi]. rewrite (rd_run_more _ _ _ E f' Hf). injection Hi as <-. exact Hn.
Qed.
Lemma finds_here lc ses m m' q ks p l : built m m' -> query m q ks -> tame m p -> find_variants lc ses 1000 Datatypes.id m' q p = Ok l -> finds lc ses m' q p l.
Proof.
  intros B Q T E. destruct (P_Results.total lc ses m m' q ks B Q p T) as [l' (F & HF)]. assert (l' = l) as <-; [|by exists F].
  pose proof (find_variants_more _ _ _ (1000 + F) _ _ _ _ _ E (Nat.le_add_r _ _)) as E'. rewrite (HF (1000 + F)) in E' by (lia || by intros x). by injection E'.
Qed.
Lemma exUnknown_query : query C_Find.exG C_Learn.exUnknown [1; 1; 0; 1].
Proof.
  split; [|done|by vm_compute]. rewrite C_Find.exG_alphabet. apply P_Extra.reads_check; [exact C_Anahash.exA_ok|by vm_compute|]. repeat constructor; cbn; lia.
Qed.
Example C92_ex :
  built C_Find.exG (C_Find.idx C_Find.exG) /\ links_inside C_Find.exG /\ query C_Find.exG C_Learn.exUnknown [1; 1; 0; 1] /\
  (exists m1, rounds C_Find.lower C_Find.script C_Find.exG (C_Find.idx C_Find.exG) 1 m1 C_Learn.exLearned) /\
  (exists id, m_encoder C_Learn.exLearned !! C_Learn.exUnknown = Some id /\ ~ known C_Find.exG id) /\
  rmap length (find_variants C_Find.lower C_Find.script 1000 Datatypes.id C_Learn.exLearned C_Learn.exUnknown C_Matches.exParams) = Ok 1.
Proof.
  assert (tame C_Find.exG C_Matches.exParams) as T by (apply C_Find.exG_tame; by vm_compute).
  destruct C_Learn.C38_ex as (W & Ns & Hr & _). assert (C_Learn.learn_from (C_Find.idx C_Find.exG) = Ok (C_Learn.exLearned, 1)) as E by (apply C_Learn.learned_from_spec; by vm_compute).
  unfold C_Learn.learn_from, learn_variants in E. apply rbind_ok in E as (all & Ha & E). apply P_Parse.rmapM_inv in Ha.
  inversion Ha as [|? l ? all0 Hl Ha0]; subst. inversion Ha0; subst. clear Ha Ha0. apply C_Learn.C38_pairs_strict in Hl as (rs & Hrs & ->). cbn [concat] in E. rewrite app_nil_r in E.
  change (C_Matches.exLookup C_Learn.exUnknown = Ok rs) in Hrs.
  assert (finds C_Find.lower C_Find.script (C_Find.idx C_Find.exG) C_Learn.exUnknown C_Matches.exParams rs) as F.
  { eapply finds_here; [exact C_Find.exG_built|exact exUnknown_query|exact T|exact Hrs]. }
  rewrite Hrs in Hr. cbn [rmap] in Hr. injection Hr as Hr. apply rbind_ok in E as ([[m1 c] pv] & H1 & E). apply rbind_ok in E as (m2 & Bd & E). assert (m2 = C_Learn.exLearned) as -> by (change m2 with (match Ok (m2, c) with Ok x => x.1 | Panic _ => m2 end); rewrite E; reflexivity).
  apply P_Learn.learn_run in H1 as [L _]; [|exact W|exact Ns| |intros p Hp; discriminate Hp].
  2: { apply Forall_forall. intros x Hx. apply elem_of_list_fmap in Hx as (r & -> & Hx). rewrite forallb_forall in Hr. apply Nat.ltb_lt, Hr, elem_of_list_In, Hx. }
  assert (rounds C_Find.lower C_Find.script C_Find.exG (C_Find.idx C_Find.exG) 1 m1 C_Learn.exLearned) as R.
  { eapply rounds_more; [constructor| |exact L|..|exact Bd]; [|exact P_Results.some_order_id..]. apply Forall_forall. intros x Hx. apply elem_of_list_fmap in Hx as (r & -> & Hx).
    exists C_Learn.exUnknown, [1; 1; 0; 1], C_Matches.exParams, rs. split; [exact exUnknown_query|]. split; [cbn; lia|]. split; [exact F|exact Hx]. }
  split; [exact C_Find.exG_built|]. split; [apply T|]. split; [exact exUnknown_query|]. split; [exists m1; exact R|].
  clear. split. { exists 6. split; [by vm_compute|]. unfold known. vm_compute. lia. }
  by vm_compute.
Qed.
