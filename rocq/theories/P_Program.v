(** Proofs about the command line tool as a whole: options without effect. *)
From Coq Require Import Lia.
From Coq Require String Ascii.
From Verif Require Import M_Base M_Anahash M_Iter M_Float M_Types M_Model M_Confusable M_ConfList M_Rules M_Search M_Text M_Values.
From Verif Require Import M_Matches M_Learn M_Cli M_Main M_Options M_Program.
From Verif Require Import S_Model S_Values S_Cli S_Options P_Base P_Options.
Import String.StringSyntax Ascii.AsciiSyntax.
From stdpp Require Import options.
#[local] Arguments lit : simpl never.
#[local] Arguments name : simpl never.
#[local] Arguments pthen : simpl never.
#[local] Arguments put : simpl never.

(** ** Positions may be changed as long as their order stays *)
Section positions.
  Context (g : nat -> nat) (mono : forall i j, g i <= g j <-> i <= j).
  Lemma insert_key_map {A} (x : nat * A) l :
    insert_key (prod_map g id x) (map (prod_map g id) l) = map (prod_map g id) (insert_key x l).
  Proof using mono.
    induction l as [|y l IH]; [done|]. cbn. destruct (Nat.leb_spec (fst x) (fst y)) as [H|H].
    - rewrite (proj2 (Nat.leb_le _ _)) by (by apply (proj2 (mono (fst x) (fst y)))). done.
    - rewrite (proj2 (Nat.leb_gt _ _)).
      + cbn. f_equal. apply IH.
      + apply Nat.nle_gt. intros H'. apply (proj1 (mono (fst x) (fst y))) in H'. lia.
  Qed.
  Lemma sort_by_key_map {A} (l : list (nat * A)) : sort_by_key (map (prod_map g id) l) = map (prod_map g id) (sort_by_key l).
  Proof using mono. induction l as [|x l IH]; [done|]. cbn. rewrite <- insert_key_map. f_equal. apply IH. Qed.
  Lemma gather_map a b c : gather (map (prod_map g id) a) (map (prod_map g id) b) (map (prod_map g id) c) =
    map (prod_map g id) (gather a b c).
  Proof using Type. unfold gather. rewrite !map_app, !map_map. done. Qed.
  Lemma snd_map {A} (l : list (nat * A)) : map snd (map (prod_map g id) l) = map snd l.
  Proof using Type. rewrite map_map. apply map_ext. by intros []. Qed.
  Lemma load_resources_map pf m a b c :
    load_resources pf m (map (prod_map g id) a) (map (prod_map g id) b) (map (prod_map g id) c) = load_resources pf m a b c.
  Proof using mono. unfold load_resources. by rewrite gather_map, sort_by_key_map, snd_map. Qed.
End positions.

Definition shift (n i : nat) : nat := if i <? n then i else S i.
Lemma shift_mono n i j : shift n i <= shift n j <-> i <= j.
Proof. unfold shift. destruct (Nat.ltb_spec i n), (Nat.ltb_spec j n); lia. Qed.

Lemma one_more_occurrences l f pre post : l <> f ->
  occurrences l (pre ++ TFlag f :: post) = map (prod_map (shift (length pre)) id) (occurrences l (pre ++ post)).
Proof.
  intros H. rewrite !occurrences_app, occurrences_cons. cbn [occurrence]. rewrite bool_decide_false by congruence.
  cbn [app]. rewrite map_app. f_equal.
  - rewrite <- (map_id (occurrences l pre)) at 1. apply map_ext_in. intros [i v] Hi%elem_of_list_In. cbn. unfold shift.
    apply occurrences_elem in Hi. assert (i < length pre) as Hl.
    { destruct Hi as [[Hi _]|Hi]; by eapply lookup_lt_Some. }
    by rewrite (proj2 (Nat.ltb_lt _ _) Hl).
  - rewrite !map_map. apply map_ext. intros [i v]. cbn. unfold shift. rewrite (proj2 (Nat.ltb_ge _ _)) by lia. f_equal. lia.
Qed.
Lemma one_more_files f pre post : omap file_name (pre ++ TFlag f :: post) = omap file_name (pre ++ post).
Proof. by rewrite !omap_app. Qed.

Lemma accepted_fewer c f pre post : f <> lit "alphabet" -> f <> lit "lexicon" -> f <> lit "variants" ->
  accepted c (pre ++ TFlag f :: post) = true -> accepted c (pre ++ post) = true.
Proof.
  intros H1 H2 H3. unfold accepted. rewrite !andb_true_iff, !orb_true_iff, !negb_true_iff, !bool_decide_eq_false.
  rewrite !one_more_occurrences by done. intros (((K & R) & A) & L). split; [split; [split|]|].
  - rewrite forallb_app in *. cbn in K. rewrite !andb_true_iff in *. tauto.
  - rewrite forallb_forall in *. intros a Ha. apply R in Ha. destruct (a_multiple a); [done|]. cbn in *. apply Nat.leb_le in Ha.
    apply Nat.leb_le. destruct (decide (a_long a = f)) as [Hf|Hf].
    + rewrite occurrences_app, occurrences_cons in Ha. rewrite occurrences_app. repeat (rewrite ?app_length, ?map_length in * ). lia.
    + by rewrite one_more_occurrences, map_length in Ha.
  - intros E. apply A. by rewrite E.
  - destruct L as [L|L]; [left|right]; intros E; apply L; by rewrite E.
Qed.

Section ignored.
  Context (c : command) (f : str) (pre post : list typed).
  Local Notation ts := (pre ++ post).
  Local Notation ts' := (pre ++ TFlag f :: post).

  (** the name [n] does not lead to the flag *)
  Definition elsewhere (n : str) : bool :=
    match definition_of c n with Some a => negb (bool_decide (a_long a = f)) | None => true end.
  Lemma value_same n : elsewhere n = true -> value_of c ts' n = value_of c ts n.
  Proof using Type.
    unfold elsewhere, value_of. destruct (definition_of c n) as [a|]; [|done]. intros H%negb_true_iff%bool_decide_eq_false.
    rewrite one_more_occurrences by done. by destruct (occurrences (a_long a) ts) as [|[]].
  Qed.
  Lemma present_same n : elsewhere n = true -> is_present c ts' n = is_present c ts n.
  Proof using Type. intros H. by rewrite !present_value, value_same. Qed.
  Lemma values_same n : elsewhere n = true -> values_of c ts' n = map (prod_map (shift (length pre)) id) (values_of c ts n).
  Proof using Type.
    unfold elsewhere, values_of. destruct (definition_of c n) as [a|]; [|done]. intros H%negb_true_iff%bool_decide_eq_false.
    by rewrite one_more_occurrences.
  Qed.

  Lemma rmapM_map {A B C D} (h : A -> B) (F : B -> res C) (F' : A -> res D) (k : D -> C) l :
    (forall a, F (h a) = rmap k (F' a)) -> rmapM F (map h l) = rmap (map k) (rmapM F' l).
  Proof using Type.
    intros H. induction l as [|a l IH]; [done|]. cbn. rewrite H. destruct (F' a) as [d|]; [|done]. cbn. rewrite IH.
    by destruct (rmapM F' l).
  Qed.
  Lemma files_same fs vs : files_of fs (map (prod_map (shift (length pre)) id) vs) =
    rmap (map (prod_map (shift (length pre)) id)) (files_of fs vs).
  Proof using Type.
    unfold files_of. apply rmapM_map. intros [i v]. cbn. by destruct (resource_file fs v).
  Qed.

  (** a flag that is asked for under no name but [allow-overlap] *)
  Context (Hf : f = lit "unicode-offsets" \/ f = lit "allow-overlap").
  #[local] Set Default Proof Using "Type*".
  Local Ltac elsewhere := unfold elsewhere; destruct Hf as [-> | ->]; destruct c; by vm_compute.

  Lemma params_same pf pf32 : exists h, tool_params pf pf32 c ts' = rmap h (tool_params pf pf32 c ts) /\
    forall P, tp_search (h P) = tp_search P /\ tp_single_thread (h P) = tp_single_thread P.
  Proof.
    exists (fun P => ToolParameters (tp_search P) (tp_single_thread P) (negb (is_present c ts' (lit "allow-overlap"))) (tp_lm_order P) (tp_context_weight P)).
    split; [|done]. unfold tool_params.
    repeat (rewrite value_same by elsewhere). 
    rewrite (present_same (lit "stop-exact")) by elsewhere. rewrite (present_same (lit "single-thread")) by elsewhere.
    rewrite (present_same (lit "debug")) by elsewhere. rewrite (present_same (lit "interactive")) by elsewhere.
    rewrite (present_same (lit "freq-ranking")) by elsewhere. rewrite (present_same (lit "weight-lm")) by elsewhere.
    rewrite (present_same (lit "weight-variant-model")) by elsewhere. rewrite (present_same (lit "weight-context")) by elsewhere.
    rewrite (present_same (lit "weight-contextrules")) by elsewhere. rewrite (present_same (lit "max-seq")) by elsewhere.
    rewrite (present_same (lit "unicode-offsets")) by elsewhere.
    generalize (is_present c ts' (lit "allow-overlap")). intros b.
    repeat match goal with |- rbind ?x _ = _ => destruct x; cbn [rbind rmap]; [|done] end. done.
  Qed.
  Lemma weights_same pf : tool_weights pf c ts' = tool_weights pf c ts.
  Proof. unfold tool_weights. by repeat (rewrite value_same by elsewhere). Qed.
  Lemma loaded_same pf pf32 ws psc o o' fs :
    loaded_model pf pf32 ws psc o o' fs c ts' = loaded_model pf pf32 ws psc o o' fs c ts.
  Proof.
    unfold loaded_model. rewrite weights_same. rewrite value_same by elsewhere. repeat (rewrite values_same by elsewhere).
    rewrite present_same by elsewhere. rewrite !files_same.
    destruct (tool_weights pf c ts); [|done]. cbn [rbind]. destruct (rexpect (value_of c ts (lit "alphabet"))); [|done]. cbn [rbind].
    destruct (open fs _); [|done]. cbn [rbind].
    repeat match goal with |- context [files_of fs ?v] => destruct (files_of fs v); cbn [rbind rmap]; [|done] end.
    unfold startup. rewrite load_resources_map by apply shift_mono. by rewrite !snd_map.
  Qed.
  Lemma over_same fmt ws low al ln32 ln scr sol o o' o'' fs fuel P P' m input names :
    tp_search P' = tp_search P -> tp_single_thread P' = tp_single_thread P ->
    over_files fmt ws low al ln32 ln scr sol o o' o'' fs fuel c ts' P' m input names =
    over_files fmt ws low al ln32 ln scr sol o o' o'' fs fuel c ts P m input names.
  Proof.
    intros E1 E2. revert m input. induction names as [|n names IH]; intros m input; [done|].
    cbn [over_files]. rewrite E1, E2. rewrite value_same by elsewhere.
    rewrite (present_same (lit "output-lexmatch")) by elsewhere. rewrite (present_same (lit "json")) by elsewhere.
    rewrite (present_same (lit "strict")) by elsewhere. rewrite (present_same (lit "multi-output")) by elsewhere.
    rewrite (present_same (lit "retain-linebreaks")) by elsewhere. rewrite (present_same (lit "per-line")) by elsewhere.
    destruct (if is_stdin n then Ok input else open fs n); [|done]. cbn [pres].
    destruct c; try (by rewrite IH).
    destruct (let* k := _ in _) as [m'|]; [|done]. cbn [pres]. by rewrite IH.
  Qed.
  Lemma run_same pf pf32 fmt ws low al ln32 ln psc scr sol o o' o'' fs stdin fuel debug :
    run pf pf32 fmt ws low al ln32 ln psc scr sol o o' o'' fs stdin fuel c ts' debug =
    run pf pf32 fmt ws low al ln32 ln psc scr sol o o' o'' fs stdin fuel c ts debug.
  Proof.
    unfold run. rewrite weights_same, loaded_same. rewrite value_same by elsewhere. rewrite (present_same (lit "json")) by elsewhere.
    unfold input_files. rewrite one_more_files.
    destruct (params_same pf pf32) as (h & -> & Hh).
    assert (forall m P, over_files fmt ws low al ln32 ln scr sol o o' o'' fs fuel c ts' (h P) m stdin (match omap file_name ts with [] => [lit "-"] | l => l end) =
      over_files fmt ws low al ln32 ln scr sol o o' o'' fs fuel c ts P m stdin (match omap file_name ts with [] => [lit "-"] | l => l end)) as Ho.
    { intros m P. destruct (Hh P). by apply over_same. }
    destruct c; [| |reflexivity|..]; (destruct (let* _ := rexpect _ in _) as [m|]; cbn [ores]; [|reflexivity]);
      (destruct (tool_params pf pf32 _ ts) as [P|]; cbn [ores rmap rbind]; [|reflexivity]); rewrite ?(proj1 (Hh P)); rewrite ?Ho; reflexivity.
  Qed.
End ignored.

Lemma program_ignores pf pf32 fmt ws low al ln32 ln psc scr sol o o' o'' fs stdin fuel debug c f ts ts' :
  f = name "unicode-offsets" \/ f = name "allow-overlap" -> 
  (exists pre post, ts = pre ++ post /\ ts' = pre ++ TFlag f :: post) -> well_typed c ts' ->
  program pf pf32 fmt ws low al ln32 ln psc scr sol o o' o'' fs stdin fuel (Invocation debug (Some c) ts') =
  program pf pf32 fmt ws low al ln32 ln psc scr sol o o' o'' fs stdin fuel (Invocation debug (Some c) ts).
Proof.
  intros Hf (pre & post & -> & ->) W%accepted_spec. unfold program. cbn [iv_command iv_typed iv_debug]. rewrite W.
  rewrite (accepted_fewer c f pre post); [by apply run_same|..|done];
    destruct Hf as [-> | ->]; by vm_compute.
Qed.

Lemma over_no_exit x code : oc_end (of_printed x) <> Exited code.
Proof. unfold of_printed. cbn. by destruct (p_stop x). Qed.
Lemma cutoff_exits pf pf32 fmt ws low al ln32 ln psc scr sol o o' o'' fs stdin fuel debug c ts m P :
  well_typed c ts -> c <> TestInput -> is_Some (parse_u8 (default (lit "0") debug)) ->
  loaded_model pf pf32 ws psc o o' fs c ts = Ok m -> tool_params pf pf32 c ts = Ok P ->
  let x := p_cutoff_threshold (tp_search P) in
  let run := program pf pf32 fmt ws low al ln32 ln psc scr sol o o' o'' fs stdin fuel (Invocation debug (Some c) ts) in
  (flt x f1 = true /\ feq x f0 = false -> run = Outcome [] (Exited 2)) /\
  ((exists code, oc_end run = Exited code) -> flt x f1 = true /\ feq x f0 = false).
Proof.
  intros W%accepted_spec Hc [d Hd] Hm HP x r.
  assert (exists y, r = if cutoff_refused (tp_search P) then exit 2 else of_printed y) as [y Er].
  { unfold r, program. cbn [iv_command iv_typed iv_debug]. rewrite W. unfold run. rewrite Hd, Hm, HP. cbn [rexpect rbind ores].
    destruct c; [| |done|..]; eexists; reflexivity. }
  rewrite Er. unfold cutoff_refused. fold x. split.
  - intros [-> ->]. done.
  - intros [code H]. destruct (flt x f1) eqn:E1; [|by apply over_no_exit in H].
    destruct (feq x f0) eqn:E2; [by apply over_no_exit in H|done].
Qed.
