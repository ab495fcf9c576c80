(** Properties C94 and C95: the command line tool in its two smaller modes, from
    the command line to the output. *)
From Coq Require String Ascii.
From Verif Require Import M_Base M_Utf8 M_Anahash M_Iter M_Distance M_Float M_Types M_Model M_Confusable M_ConfList M_Rules M_Search M_Text M_Values.
From Verif Require Import M_Matches M_Learn M_Cli M_Main M_Options M_Program.
From Verif Require Import S_Anahash S_Distance S_Text S_Model S_Search S_Lookup S_Values S_Rules S_Matches S_Learn S_Cli S_Main S_Options S_SearchAll S_Program S_Modes.
From Verif Require Import P_Base P_Primes P_Anahash P_Iter P_Recurse P_Options P_Start P_Query.
From Verif Require P_Cli P_CliOut P_Json P_Main P_Convert P_Vocab C_Find C_Options C_Program C_Matches P_Solver.
Import String.StringSyntax Ascii.AsciiSyntax.
From stdpp Require Import options.
#[local] Arguments lit s%string_scope.

(** ** Lines *)
Lemma listed_join ks : listed_numbers ks (join (lit ", ") (map (fun k => show (N.of_nat k)) ks)).
Proof.
  induction ks as [|k ks IH]; [constructor|]. destruct ks as [|k' ks]; [constructor|]. apply ln_more. exact IH.
Qed.
Lemma test_line_says A t : alphabet_ok A ->
  (encodable A t /\ exists line, ok_line A t line /\ test_line A t = put (line ++ newline)) \/ (~ encodable A t /\ test_line A t = put []).
Proof.
  intros HA. destruct (reads_total A t HA) as [ks Hr]. unfold test_line. rewrite (anahash_reads _ _ _ HA Hr), (normalize_reads _ _ _ HA Hr). cbn [rbind].
  rewrite (alphabet_size_ok _ HA). cbn [rbind]. replace (S (length A) - 1) with (length A) by lia.
  rewrite character_ok by (destruct HA; lia). cbn [rbind].
  pose proof (reads_below168 _ _ _ HA Hr) as Hb.
  assert (H1 : below168 [length A]) by (constructor; [destruct HA; lia|constructor]).
  assert (S : ana_contains (prod ks) (prod [length A]) = true <-> [length A] ⊆+ ks).
  { rewrite ana_contains_spec by (by apply prod_pos). by apply prod_divide. }
  cbn [prod] in S. rewrite N.mul_1_r in S. rewrite singleton_submseteq_l in S. rewrite (P_CliOut.encodable_reads _ _ _ Hr). destruct (ana_contains _ _).
  - right. split; [|done]. intros H. by apply H, S.
  - left. assert (length A ∉ ks) as Hn. { intros H. apply S in H. done. } split; [done|].
    exists (lit "OK: " ++ t ++ [9%N] ++ show (prod ks) ++ [9%N] ++ lit "[" ++ join (lit ", ") (map (fun k => show (N.of_nat k)) ks) ++ lit "]"). split.
    + exists ks, (prod ks), (join (lit ", ") (map (fun k => show (N.of_nat k)) ks)). split; [done|]. split; [by apply bag_hash_ok|]. split; [apply listed_join|done].
    + assert (map (norm_code A) ks = ks) as ->.
      { clear - Hn. rewrite <- (map_id ks) at 2. apply map_ext_in. intros k Hk. apply elem_of_list_In in Hk. unfold norm_code. destruct (Nat.eqb_spec k (length A)); [by subst|done]. }
      cbn [pres]. f_equal. unfold tab. rewrite <- !app_assoc. done.
Qed.
Lemma put_all (l : list str) : pall (map put l) = put (concat l).
Proof. induction l as [|x l IH]; [done|]. cbn [map pall concat]. by rewrite IH. Qed.
Lemma test_lines A ls : alphabet_ok A -> exists out, tested A ls out /\ pall (map (test_line A) (omap id ls)) = put (concat (map (fun l => l ++ [10%N]) out)).
Proof.
  intros HA. induction ls as [|[t|] ls (out & T & E)].
  - exists []. split; [constructor|done].
  - cbn. change (omap id ls) with (omap id ls : list str) in E. destruct (test_line_says A t HA) as [(He & line & Hl & El)|(He & El)].
    + exists (line :: out). split; [by constructor|]. rewrite El. cbn [map concat]. etransitivity; [|exact (f_equal (fun x => pthen (put (line ++ newline)) x) E)]. done.
    + exists out. split; [by apply tested_unknown|]. rewrite El. etransitivity; [|exact E]. unfold put, pthen. cbn. by destruct (pall _).
  - exists out. split; [by constructor|exact E].
Qed.

Lemma ok_line_det A t a b : ok_line A t a -> ok_line A t b -> alphabet_ok A -> b = a.
Proof.
  intros (ks & h & s & R & H & L & ->) (ks' & h' & s' & R' & H' & L' & ->) HA.
  destruct (reads_total_unique A t HA) as (k0 & _ & U). rewrite (U _ R) in *. rewrite (U _ R') in *. rewrite H in H'. injection H' as <-.
  assert (forall ks s s', listed_numbers ks s -> listed_numbers ks s' -> s = s') as D; [|by rewrite (D _ _ _ L L')].
  clear. intros ks s s' H. revert s'. induction H as [|k|k k' ks s H IH]; intros s' H'; inversion H'; subst; [done|done|]. do 2 f_equal. by apply IH.
Qed.
Lemma tested_det A ls a : alphabet_ok A -> tested A ls a -> forall b, tested A ls b -> b = a.
Proof.
  intros HA. induction 1 as [|ls out H IH|t line ls out He Hl H IH|t ls out He H IH]; intros b Hb; inversion Hb; subst; try done; [by apply IH| |by apply IH].
  f_equal; [by eapply ok_line_det|by apply IH].
Qed.

Section modes.
  Context (pf : str -> option f64) (pf32 : str -> option f32) (fmt : f64 -> str) (ws lc alpha : N -> bool) (ln32 : f32 -> f32) (ln : f64 -> f64).
  Context (ps : str -> option (list edit_instruction)) (ses : str -> str -> list edit_instruction) (solve : fst_graph -> nat -> list (list nat * f32)).
  Context (o : list (N * node) -> list (N * node)) (o' : list (str * vocab_id) -> list (str * vocab_id)) (o'' : list (nat * list N) -> list (nat * list N)).
  Context (fs : str -> option (list (option str))) (stdin : list (option str)) (fuel : nat) (debug : option str) (ts : list typed).
  #[local] Notation runs c := (program pf pf32 fmt ws lc alpha ln32 ln ps ses solve o o' o'' fs stdin fuel (Invocation debug (Some c) ts)).

  Lemma debug_read : (forall s, debug = Some s -> exists k, S_Model.decimal 255 s k) -> exists k, parse_u8 (default (lit "0") debug) = Some k.
  Proof. intros Hd. destruct debug as [s|]; [|by eexists]. destruct (Hd s eq_refl) as (k & Hk). exists k. by apply P_Vocab.parse_uint_spec. Qed.

  (** ** C94 *)
  (** The index of the searchable entries that the files define. *)
  Theorem C94_index m :
    well_typed Index ts -> index_asked pf pf32 debug ts -> contents_say ws pf pf32 ps fs Index ts m -> within_limits m -> some_order o -> some_order o' ->
    exists gs, index_listing m gs /\ runs Index = Outcome (concat (map index_text gs)) Ended.
  Proof.
    intros W [Hd (P & HP & Hcut)] C L Ho Ho'.
    destruct (loaded_built pf pf32 ws ps o o' fs Index ts W m Ho Ho' C L) as (m' & m0 & E & SC & _ & _ & Bt & S0 & _).
    destruct (bt_build _ _ Bt) as (x & x' & Hx & Hx' & B).
    destruct (P_Convert.index_lists x x' o m0 m' (bt_alphabet _ _ Bt) Hx Hx' Ho B) as (gs & G & Eo). exists gs. split.
    - destruct G as [G1 G2 G3 G4]. rewrite <- (sc_decoder _ _ S0) in G1, G2. rewrite <- (sc_alphabet _ _ S0) in G3, G4. by split.
    - unfold program. cbn [iv_command iv_typed iv_debug]. rewrite (proj2 (accepted_spec _ _) W). unfold run.
      destruct (debug_read Hd) as (k & ->). cbn [rexpect rbind]. rewrite E. cbn [ores].
      assert (tool_params pf pf32 Index ts = Ok (byte_offsets P)) as ->.
      { apply params_spec; [by apply accepted_spec|]. split; [|done]. clear -HP. destruct HP. by split. }
      cbn [ores]. assert (cutoff_refused (tp_search (byte_offsets P)) = false) as ->.
      { unfold cutoff_refused. change (p_cutoff_threshold (tp_search (byte_offsets P))) with (p_cutoff_threshold (tp_search P)).
        destruct (flt _ _); [by rewrite Hcut|done]. }
      cbn [ores]. change (of_printed (index_output o m') = Outcome (concat (map index_text gs)) Ended).
      rewrite Eo. done.
  Qed.

  (** ** C95 *)
  (** The test of the input: the lines of known characters. *)
  Theorem C95_test A :
    well_typed TestInput ts -> test_asked ws pf fs debug ts A -> length A <= 167 ->
    exists out, tested A stdin out /\ (forall out', tested A stdin out' -> out' = out) /\ runs TestInput = Outcome (concat (map (fun l => l ++ [10%N]) out)) (Exited 0).
  Proof.
    intros W [Hd (w & Hw) (n & ls & Hn & Hf & Ha)] HA. apply P_Main.alphabet_spec in Ha. subst A. apply read_forms in HA.
    destruct (test_lines _ stdin HA) as (out & T & E). exists out. split; [done|]. split; [by apply tested_det|].
    unfold program. cbn [iv_command iv_typed iv_debug]. rewrite (proj2 (accepted_spec _ _) W). unfold run.
    rewrite (proj2 (weights_spec pf TestInput ts w (proj2 (accepted_spec _ _) W)) Hw). cbn [rbind].
    rewrite (proj2 (alphabet_value TestInput ts n W) Hn). cbn [rexpect rbind]. destruct (debug_read Hd) as (k & ->). cbn [rexpect rbind].
    unfold open. rewrite Hf. cbn [rexpect rbind ores]. rewrite E. done.
  Qed.
End modes.
Print Assumptions C94_index.
Print Assumptions C95_test.

(** an alphabet, a lexicon with two anagrams and an unreadable line, a variant list *)
Definition exfs (n : str) : option (list (option str)) :=
  if bool_decide (n = lit "a.tsv") then Some [C_Program.row "a"; C_Program.row "b"; C_Program.row "c"]
  else if bool_decide (n = lit "l.tsv") then Some [C_Program.row "baab	9"; None; C_Program.row "ac"; C_Program.row "abba"]
  else if bool_decide (n = lit "v.tsv") then Some [C_Program.row "ac	ca	0.5"]
  else None.
Definition exts : list typed := [C_Options.opt "alphabet" "a.tsv"; C_Options.opt "lexicon" "l.tsv"; C_Options.opt "variants" "v.tsv"].
Definition exload := loaded_model C_Options.exnum C_Options.exnum32 (fun c => (c =? 32)%N) (fun _ => None) Datatypes.id Datatypes.id exfs Index exts.
Definition exm : model := C_Find.the exload.
Definition exin : list (option str) := [C_Program.row "bac"; None; C_Program.row "d"; C_Program.row ""; C_Program.row "ab d"].
Definition exrun (c : command) : outcome := program C_Options.exnum C_Options.exnum32 (fun _ => lit "0.5") (fun c => (c =? 32)%N) C_Find.lower C_Find.lower Datatypes.id Datatypes.id
  (fun _ => None) C_Find.script (fun _ _ => []) Datatypes.id Datatypes.id Datatypes.id exfs exin 1000 (Invocation None (Some c) exts).
Lemma exload_ok : exload = Ok exm.
Proof. assert (match exload with Ok _ => true | _ => false end = true) as H by (by vm_compute). unfold exm. by destruct exload. Qed.
Definition exss : list source :=
  [Given (RLexicon (File (lit "l.tsv") [lit "baab	9"; lit "ac"; lit "abba"])); Given (RVariants (File (lit "v.tsv") [lit "ac	ca	0.5"]))].
Lemma exsources ss : sources_typed exfs exts ss -> length ss <= 256.
Proof.
  intros H. enough (ss = exss) as -> by (cbn; lia).
  eapply sources_typed_det; [exact H|]. exists [C_Options.opt "lexicon" "l.tsv"; C_Options.opt "variants" "v.tsv"], exss, []. split; [|split; [|split; [|reflexivity]]].
  - cbv [exts C_Options.opt C_Options.flg]; repeat first [apply selects_nil
      |apply selects_keep; [by (eexists; first [by left|by right; left|by right; right])|]
      |apply selects_skip; [by intros (n & [[=]|[[=]|[=]]])|]].
  - constructor; [|constructor; [|constructor]]; [eapply given_lexicon|eapply given_variants]; first [done|eexists; by split].
  - exists []. split; [|constructor]. cbv [exts C_Options.opt C_Options.flg]; repeat first [apply selects_nil|apply selects_skip; [by intros (n & [=])|]].
Qed.
Lemma exlimits : within_limits exm.
Proof.
  split.
  - vm_compute; lia.
  - assert (m_weights exm = C_Program.the_weights) as -> by (by vm_compute). split; [|by vm_compute]. by repeat (constructor; [by vm_compute|]).
  - vm_compute; lia.
  - assert (forallb (fun v => (count_spaces (vv_text v) <? 255) && (N.of_nat (length (vv_text v)) <? 65536)%N) (m_decoder exm) = true) as H by (by vm_compute).
    apply Forall_forall. intros v Hv. rewrite forallb_forall in H. apply elem_of_list_In, H in Hv. apply andb_prop in Hv as [H1 H2]. apply Nat.ltb_lt in H1. apply N.ltb_lt in H2. done.
  - by vm_compute.
  - apply C_Find.links_check. by vm_compute.
  - vm_compute; lia.
  - assert (m_confusables exm = []) as -> by (by vm_compute). constructor.
Qed.
Lemma extyped c : c = Index \/ c = TestInput -> well_typed c exts.
Proof. intros [-> | ->]; apply accepted_spec; by vm_compute. Qed.
Lemma excontents : contents_say (fun c => (c =? 32)%N) C_Options.exnum C_Options.exnum32 (fun _ => None) exfs Index exts exm.
Proof.
  refine (C_Program.C77_start C_Options.exnum C_Options.exnum32 (fun c => (c =? 32)%N) (fun _ => None) Datatypes.id Datatypes.id exfs Index exts exm (extyped Index (or_introl eq_refl)) _ exsources exload_ok).
  by intros l.
Qed.
Example C94_ex :
  well_typed Index exts /\ index_asked C_Options.exnum C_Options.exnum32 None exts /\
  contents_say (fun c => (c =? 32)%N) C_Options.exnum C_Options.exnum32 (fun _ => None) exfs Index exts exm /\ within_limits exm /\
  exrun Index = Outcome (lit "36	baab	abba
10	ac	ca
") Ended.
Proof.
  split; [apply extyped; by left|]. split; [|split; [|split; [exact exlimits|by vm_compute]]].
  - split; [done|]. pose (x := tool_params C_Options.exnum C_Options.exnum32 Index exts).
    assert (match x with Ok P => negb (flt (p_cutoff_threshold (tp_search P)) f1) || feq (p_cutoff_threshold (tp_search P)) f0 | _ => false end = true) as H by (by vm_compute).
    destruct x as [P|] eqn:E; [|done]. subst x. exists P. split.
    + apply params_spec in E; [apply E|]. by vm_compute.
    + intros Hc. rewrite Hc in H. exact H.
  - exact excontents.
Qed.
Example C95_ex :
  well_typed TestInput exts /\ test_asked (fun c => (c =? 32)%N) C_Options.exnum exfs None exts [[lit "a"]; [lit "b"]; [lit "c"]] /\
  exrun TestInput = Outcome (lit "OK: bac	30	[1, 0, 2]
OK: 	1	[]
") (Exited 0).
Proof.
  split; [apply extyped; by right|]. split; [|by vm_compute]. split; [done| |].
  - destruct (tool_weights C_Options.exnum TestInput exts) as [w|] eqn:E; [|by vm_compute in E]. exists w. apply weights_spec; [by vm_compute|done].
  - exists (lit "a.tsv"), [C_Program.row "a"; C_Program.row "b"; C_Program.row "c"]. split; [by left|]. split; [done|]. apply P_Main.alphabet_spec. by vm_compute.
Qed.
