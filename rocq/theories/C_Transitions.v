(** Property C88: the language model and the transitions between words, from the
    files given to the tool. *)
From Coq Require String Ascii.
From Verif Require Import M_Base M_Float M_Types M_Model M_Main M_Matches M_Cli M_Options M_Program.
From Verif Require Import S_Model S_Text S_Matches S_Cli S_Main S_Options S_Program S_Transitions.
From Verif Require Import P_Base P_Options P_Start P_SearchRun P_Share P_Transitions.
From Verif Require C_Find C_Options C_Program C_Matches C_SearchRun.
Import String.StringSyntax Ascii.AsciiSyntax.
From stdpp Require Import options.
#[local] Arguments lit s%string_scope.

(** ** C88 *)
Section tool.
  Context (ws : N -> bool) (pf : str -> option f64) (pf32 : str -> option f32) (ps : str -> option (list edit_instruction)).
  Context (fs : str -> option (list (option str))) (c : command) (ts : list typed) (m : model) (gs : list source) (lms : list file).
  Context (C : contents_say ws pf pf32 ps fs c ts m) (K : counts_say m) (S : sources_typed fs ts (gs ++ map Lm lms)) (G : given_sources gs).
  #[local] Set Default Proof Using "All".

  (** The count of a series of known words is the greatest in the language
      models, unless another file lists the series: then there is none. *)
  Theorem C88_counts t words ids g : Forall2 (known_word m) words ids -> fields_of 32 t words -> ng_to_vec g = ids ->
    (forall n, ~ listed pf gs t -> greatest_count lms t n -> m_ngrams m !! g = Some n) /\
    (~ listed pf gs t -> no_count lms t -> m_ngrams m !! g = None) /\
    (~ special_text t -> listed pf gs t -> m_ngrams m !! g = None).
  Proof.
    intros F Ht Hg. split; [|split].
    - intros n. exact (counts_greatest ws pf pf32 ps fs c ts m gs lms C K S G t words ids g n F Ht Hg).
    - exact (counts_none ws pf pf32 ps fs c ts m gs lms C K S G t words ids g F Ht Hg).
    - exact (counts_listed ws pf pf32 ps fs c ts m gs lms C K S G t words ids g F Ht Hg).
  Qed.
  (** Between words that no other file lists: the logarithm of the share of the
      pair in the count of the first word. *)
  Theorem C88_transition ln u v a b n k : known_word m u a -> known_word m v b -> 32%N ∉ u -> 32%N ∉ v ->
    ~ listed pf gs u -> ~ listed pf gs (u ++ 32%N :: v) -> greatest_count lms u k -> greatest_count lms (u ++ 32%N :: v) n -> (n <= k)%N ->
    transition_value ln (m_ngrams m) (Some a, Some b) = ln (f32div (f32_of_N n) (f32_of_N k)).
  Proof. exact (transition_share ws pf pf32 ps fs c ts m gs lms C K S G ln u v a b n k). Qed.
  (** Pairs that no file has get the constant. *)
  Theorem C88_unseen ln u v a b : known_word m u a -> known_word m v b -> 32%N ∉ u -> 32%N ∉ v ->
    ~ listed pf gs (u ++ 32%N :: v) -> no_count lms (u ++ 32%N :: v) ->
    transition_value ln (m_ngrams m) (Some a, Some b) = smoothing.
  Proof. exact (transition_unseen ws pf pf32 ps fs c ts m gs lms C K S G ln u v a b). Qed.
  (** From words that other files list the count of the word is not used,
      whatever the language models say: the more often the pair, the higher the
      value, and never below zero. *)
  Theorem C88_listed ln u v a b n : known_word m u a -> known_word m v b -> 32%N ∉ u -> 32%N ∉ v -> ~ special_text u ->
    listed pf gs u -> ~ listed pf gs (u ++ 32%N :: v) -> greatest_count lms (u ++ 32%N :: v) n -> (1 < n < 4294967296)%N ->
    transition_value ln (m_ngrams m) (Some a, Some b) = ln (f32_of_N n) /\ (log32_like ln -> flt f0 (transition_value ln (m_ngrams m) (Some a, Some b)) = true).
  Proof. exact (transition_listed ws pf pf32 ps fs c ts m gs lms C K S G ln u v a b n). Qed.
End tool.
Print Assumptions C88_counts.
Print Assumptions C88_transition.
Print Assumptions C88_unseen.
Print Assumptions C88_listed.

(** files: an alphabet, a lexicon with one word, a language model of that word and another *)
#[local] Notation row := C_Program.row.
#[local] Arguments C_Program.row s%string_scope.
Definition exfs (n : str) : option (list (option str)) :=
  if bool_decide (n = lit "a.tsv") then Some [row "a"; row "b"; row "c"]
  else if bool_decide (n = lit "l.tsv") then Some [row "baab	9"]
  else if bool_decide (n = lit "lm.tsv") then Some [row "baab	10"; row "baab baac	3"; row "baac	8"; row "baac baab	2"; row "baac	5"]
  else None.
Definition exs : list typed := [C_Options.opt "alphabet" "a.tsv"; C_Options.opt "lexicon" "l.tsv"; C_Options.opt "lm" "lm.tsv"].
Definition exload := loaded_model C_Options.exnum C_Options.exnum32 C_Matches.space (fun _ => None) Datatypes.id Datatypes.id exfs Search exs.
Definition exm : model := C_Find.the exload.
Lemma exload_ok : exload = Ok exm.
Proof.
  assert (match exload with Ok _ => true | _ => false end = true) as H by (by vm_compute).
  unfold exm. by destruct exload.
Qed.
Definition exgs : list source := [Given (RLexicon (File (lit "l.tsv") [lit "baab	9"]))].
Definition exlms : list file := [File (lit "lm.tsv") [lit "baab	10"; lit "baab baac	3"; lit "baac	8"; lit "baac baab	2"; lit "baac	5"]].
Lemma exsources : sources_typed exfs exs (exgs ++ map Lm exlms).
Proof.
  exists [C_Options.opt "lexicon" "l.tsv"], exgs, exlms. split; [|split; [|split; [|reflexivity]]].
  - cbv [exs C_Options.opt]; repeat first [apply selects_nil
      |apply selects_keep; [by (eexists; first [by left|by right; left|by right; right])|]
      |apply selects_skip; [by intros (n & [[=]|[[=]|[=]]])|]].
  - constructor; [|constructor]; eapply given_lexicon; first [done|eexists; by split].
  - exists [C_Options.opt "lm" "lm.tsv"]. split; [|constructor; [|constructor]; eexists; split; [done|by eexists; split]].
    cbv [exs C_Options.opt]; repeat first [apply selects_nil|apply selects_keep; [by eexists|]|apply selects_skip; [by intros (n & [=])|]].
Qed.
Lemma exfew ss : sources_typed exfs exs ss -> length ss <= 256.
Proof. intros H. rewrite (sources_typed_det _ _ _ _ H exsources). cbn. lia. Qed.
Lemma extyped : well_typed Search exs.
Proof. apply accepted_spec. by vm_compute. Qed.
Lemma excontents : contents_say C_Matches.space C_Options.exnum C_Options.exnum32 (fun _ => None) exfs Search exs exm.
Proof.
  refine (C_Program.C77_start C_Options.exnum C_Options.exnum32 C_Matches.space (fun _ => None) Datatypes.id Datatypes.id exfs Search exs exm extyped _ exfew exload_ok). by intros l.
Qed.
Lemma excounts : counts_say exm.
Proof.
  refine (C_SearchRun.C80_counts C_Options.exnum C_Options.exnum32 C_Matches.space (fun _ => None) Datatypes.id Datatypes.id exfs Search exs exm extyped _ exfew exload_ok _); [by intros l|].
  assert (forallb (fun v => count_spaces (vv_text v) <? 255) (m_decoder exm) = true) as H by (by vm_compute).
  apply Forall_forall. intros v Hv. rewrite forallb_forall in H. apply elem_of_list_In, H in Hv. by apply Nat.ltb_lt.
Qed.
Lemma exgiven : given_sources exgs.
Proof. constructor; [by eexists|constructor]. Qed.
Lemma exlisted t : listed C_Options.exnum exgs t <-> t = lit "baab".
Proof.
  split.
  - intros (s & Hs & Hm). apply elem_of_list_singleton in Hs as ->. destruct Hm as (l & fs & Hl & _ & Hf). apply elem_of_list_singleton in Hl as ->.
    apply P_RuleFile.fields_split in Hf. vm_compute in Hf. by injection Hf as -> _.
  - intros ->. eexists. split; [left|]. exists (lit "baab	9"), [lit "9"]. split; [left|]. split; [done|]. by apply P_RuleFile.fields_split.
Qed.
Lemma exwords : known_word exm (lit "baab") 3 /\ known_word exm (lit "baac") 5 /\ 32%N ∉ lit "baab" /\ 32%N ∉ lit "baac".
Proof. split; [|split; [|split]]; [split; [by vm_compute|done]|split; [by vm_compute|done]| |]; eapply bool_decide_eq_true_1; by vm_compute. Qed.
Lemma excount t n : (t, n) ∈ [(lit "baab", 10%N); (lit "baab baac", 3%N); (lit "baac", 8%N); (lit "baac baab", 2%N)] -> greatest_count exlms t n.
Proof.
  intros H. repeat (apply elem_of_cons in H as [[= -> ->]|H]; [apply greatest_rows; [eapply bool_decide_eq_true_1; by vm_compute|by vm_compute]|]). by apply elem_of_nil in H.
Qed.
Lemma exnone : no_count exlms (lit "baac baac").
Proof.
  intros f n Hf Hn. apply elem_of_list_singleton in Hf as ->. apply rows_iff in Hn. vm_compute in Hn. repeat (apply elem_of_cons in Hn as [[=]|Hn]). by apply elem_of_nil in Hn.
Qed.
(** The other word: the greatest of its two counts is used; its pair with itself does not occur. *)
Example C88_ex :
  contents_say C_Matches.space C_Options.exnum C_Options.exnum32 (fun _ => None) exfs Search exs exm /\ counts_say exm /\
  sources_typed exfs exs (exgs ++ map Lm exlms) /\ given_sources exgs /\
  known_word exm (lit "baab") 3 /\ known_word exm (lit "baac") 5 /\ ~ listed C_Options.exnum exgs (lit "baac") /\ ~ listed C_Options.exnum exgs (lit "baac baab") /\
  greatest_count exlms (lit "baac") 8 /\ greatest_count exlms (lit "baac baab") 2 /\ no_count exlms (lit "baac baac") /\
  forall ln, transition_value ln (m_ngrams exm) (Some 5, Some 3) = ln (f32div (f32_of_N 2) (f32_of_N 8)) /\
    transition_value ln (m_ngrams exm) (Some 5, Some 5) = smoothing.
Proof.
  destruct exwords as (H1 & H2 & H3 & H4).
  assert (~ listed C_Options.exnum exgs (lit "baac")) as N1 by (by rewrite exlisted).
  assert (~ listed C_Options.exnum exgs (lit "baac baab")) as N2 by (by rewrite exlisted).
  assert (~ listed C_Options.exnum exgs (lit "baac baac")) as N3 by (by rewrite exlisted).
  assert (greatest_count exlms (lit "baac") 8) as G1 by (apply excount; right; right; left).
  assert (greatest_count exlms (lit "baac baab") 2) as G2 by (apply excount; right; right; right; left).
  split; [exact excontents|]. split; [exact excounts|]. split; [exact exsources|]. split; [exact exgiven|].
  split; [done|]. split; [done|]. split; [done|]. split; [done|]. split; [done|]. split; [done|]. split; [exact exnone|]. intros ln. split.
  - refine (C88_transition _ _ _ _ _ _ _ exm exgs exlms excontents excounts exsources exgiven ln (lit "baac") (lit "baab") 5 3 2 8 H2 H1 H4 H3 N1 N2 G1 G2 _). lia.
  - exact (C88_unseen _ _ _ _ _ _ _ exm exgs exlms excontents excounts exsources exgiven ln (lit "baac") (lit "baac") 5 5 H2 H2 H4 H4 N3 exnone).
Qed.
(** As stated it does not hold: counts in the files of which every pair is rarer
    than its first word, and a transition scored above certainty. *)
Theorem C88_refuted : exists ws pf pf32 ps fs ts m gs lms u v a b n k,
  well_typed Search ts /\ contents_say ws pf pf32 ps fs Search ts m /\ counts_say m /\ sources_typed fs ts (gs ++ map Lm lms) /\ given_sources gs /\
  known_word m u a /\ known_word m v b /\ 32%N ∉ u /\ 32%N ∉ v /\ ~ special_text u /\
  greatest_count lms u k /\ greatest_count lms (u ++ 32%N :: v) n /\ (n < k)%N /\
  forall ln, log32_like ln -> flt f0 (transition_value ln (m_ngrams m) (Some a, Some b)) = true /\
    fle (ln (f32div (f32_of_N n) (f32_of_N k))) f0 = true.
Proof.
  exists C_Matches.space, C_Options.exnum, C_Options.exnum32, (fun _ => None), exfs, exs, exm, exgs, exlms, (lit "baab"), (lit "baac"), 3, 5, 3%N, 10%N.
  destruct exwords as (H1 & H2 & H3 & H4).
  assert (greatest_count exlms (lit "baab") 10) as G1 by (apply excount; left).
  assert (greatest_count exlms (lit "baab" ++ 32%N :: lit "baac") 3) as G2 by (apply excount; right; left).
  assert (~ special_text (lit "baab")) as Sp by (by intros [E|[E|E]]).
  split; [exact extyped|]. split; [exact excontents|]. split; [exact excounts|]. split; [exact exsources|]. split; [exact exgiven|].
  split; [done|]. split; [done|]. split; [done|]. split; [done|]. split; [done|]. split; [done|]. split; [done|]. split; [lia|]. intros ln L. split.
  - refine (proj2 (C88_listed _ _ _ _ _ _ _ exm exgs exlms excontents excounts exsources exgiven ln (lit "baab") (lit "baac") 3 5 3 H1 H2 H3 H4 Sp _ _ G2 _) L).
    + by rewrite exlisted.
    + by rewrite exlisted.
    + lia.
  - destruct (share_unit 3 10) as (_ & S1 & S2); [lia|lia|]. by apply (l32_low _ L).
Qed.
Print Assumptions C88_refuted.
