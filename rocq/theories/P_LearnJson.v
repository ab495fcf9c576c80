(** Proofs about when what learning mode prints with "--json" is JSON. *)
From Coq Require String Ascii.
From Coq Require Import Lia.
From Verif Require Import M_Base M_Utf8 M_Anahash M_Iter M_Distance M_Float M_Types M_Model M_Search M_Learn M_Cli M_Main M_Options.
From Verif Require Import S_Anahash S_Text S_Model S_Search S_Lookup S_Learn S_Cli S_Options S_Main S_Program S_SearchRun S_LearnRun S_LearnMore S_LearnShow.
From Verif Require Import P_Base P_Model P_Learn P_LearnRun P_LearnMore P_Cli P_Json P_JsonOut P_CliOut P_LearnShow.
From Verif Require P_Vocab P_Files P_Links.
Import String.StringSyntax Ascii.AsciiSyntax.
From stdpp Require Import options.
#[local] Arguments lit s%string_scope.

(** ** What stays through learning *)
(** every link is stored on both sides *)
Definition mirrored (m : model) : Prop := forall id v y s, m_decoder m !! id = Some v -> (y, s) ∈ stored_variants v ->
  exists w, m_decoder m !! y = Some w /\ (id, s) ∈ stored_references w.
Lemma contents_mirrored ws pf pf32 ps fs c ts m : contents_say ws pf pf32 ps fs c ts m -> mirrored m.
Proof.
  intros C. pose proof (contents_inside _ _ _ _ _ _ _ _ C) as I. destruct (cs_entries _ _ _ _ _ _ _ _ C) as (ss & a & l & r & L & _ & _ & Hr & Hl & He & Hd & _).
  pose proof (P_Vocab.history_run _ _ _ _ Hr) as Hh. pose proof (P_Vocab.hi_inv _ _ Hh) as W.
  assert (forall id v, m_decoder r !! id = Some v -> vv_variants v = None) as H0.
  { intros id v D. apply (P_Vocab.es_variants _ _ _ _ (P_Vocab.hi_entry _ _ Hh (vv_text v) v ltac:(exists id; split; [by apply (inverse_text r id v W)|done]))). }
  pose proof (P_Links.links_run r L H0) as LR.
  intros id v' y s D' Hy. pose proof (I id v' y s D' Hy) as Hlt. rewrite Hd in *. rewrite P_Files.run_links_len in Hlt.
  assert (id < length (m_decoder r)) as Hi by (rewrite <- (P_Files.run_links_len r L); by eapply lookup_lt_Some).
  apply lookup_lt_is_Some in Hi as (v & D). destruct (LR id v D) as (v2 & D2 & SV & _ & _). rewrite D' in D2. injection D2 as <-. rewrite SV in Hy. apply mentions_elem in Hy.
  apply lookup_lt_is_Some in Hlt as (u & Du). destruct (LR y u Du) as (u2 & Du2 & _ & SR & _). exists u2. split; [done|]. rewrite SR.
  unfold declared_variants in Hy. apply elem_of_list_fmap in Hy as (x & [= -> ->] & Hx). apply elem_of_list_filter in Hx as [[E1 E2] Hx].
  unfold declared_references. apply elem_of_list_fmap. exists x. rewrite E1. split; [done|]. apply elem_of_list_filter. split; [|done]. split; [done|]. rewrite E1. by intros ->.
Qed.
Lemma learned_mirrored prev l m m1 : mirrored m -> learned prev l m m1 -> mirrored m1.
Proof.
  intros M L.
  assert (forall y w, m_decoder m1 !! y = Some w -> forall x, x ∈ declared_references y (links_for m1 l) -> x ∈ stored_references w) as G.
  { intros y w Dw x Hx. destruct (m_decoder m !! y) as [u|] eqn:Du.
    - destruct (le_old _ _ _ _ L _ _ Du) as (w' & D' & K). rewrite Dw in D'. injection D' as <-. rewrite (el_references _ _ _ _ _ K). apply elem_of_app. by right.
    - destruct (le_new _ _ _ _ L _ _ Dw Du) as (_ & _ & u & _ & K). rewrite (el_references _ _ _ _ _ K). apply elem_of_app. by right. }
  assert (forall id y s, (y, s) ∈ declared_variants id (links_for m1 l) -> exists w, m_decoder m1 !! y = Some w /\ (id, s) ∈ stored_references w) as H.
  { intros id y s Hy. unfold declared_variants in Hy. apply elem_of_list_fmap in Hy as (x & [= -> ->] & Hx). apply elem_of_list_filter in Hx as [[E1 E2] Hx].
    pose proof Hx as Hx'. unfold links_for in Hx'. apply elem_of_list_fmap in Hx' as (z & Ez & Hz). destruct (le_inputs _ _ _ _ L z.1) as (i & Ei); [apply elem_of_list_fmap; by exists z|].
    pose proof Ei as Ei'. apply (le_inverse _ _ _ _ L) in Ei' as (w & Dw & _). assert (x.1.2 = i) as Exi by (rewrite Ez; cbn; by rewrite Ei).
    exists w. rewrite Exi in *. split; [done|]. apply (G i w Dw). unfold declared_references. apply elem_of_list_fmap. exists x. rewrite E1. split; [done|].
    apply elem_of_list_filter. split; [|done]. split; [done|]. rewrite E1. intros ->. by apply E2. }
  intros id v y s D Hy.
  destruct (m_decoder m !! id) as [v0|] eqn:D0.
  - destruct (le_old _ _ _ _ L _ _ D0) as (v' & D' & K). rewrite D in D'. injection D' as <-. rewrite (el_variants _ _ _ _ _ K) in Hy.
    apply elem_of_app in Hy as [Hy|Hy%mentions_elem]; [|by eapply H]. destruct (M id v0 y s D0 Hy) as (w & Dw & Hw).
    destruct (le_old _ _ _ _ L _ _ Dw) as (w' & Dw' & Kw). exists w'. split; [done|]. rewrite (el_references _ _ _ _ _ Kw). apply elem_of_app. by left.
  - destruct (le_new _ _ _ _ L _ _ D D0) as (_ & _ & v0 & Nw & K). rewrite (el_variants _ _ _ _ _ K) in Hy. apply new_item_empty in Nw.
    unfold stored_variants in Hy at 1. rewrite Nw in Hy. apply elem_of_app in Hy as [Hy|Hy%mentions_elem]; [by apply elem_of_nil in Hy|by eapply H].
Qed.
Lemma learned_clean prev l m m1 : all_clean m -> Forall (fun x => clean x.1) l -> learned prev l m m1 -> all_clean m1.
Proof.
  intros Hc Hl L v Hv. apply elem_of_list_lookup in Hv as (id & D). destruct (m_decoder m !! id) as [v0|] eqn:D0.
  - destruct (le_old _ _ _ _ L _ _ D0) as (v' & D' & K). rewrite D in D'. injection D' as <-. rewrite (el_text _ _ _ _ _ K). apply Hc. by eapply elem_of_list_lookup_2.
  - destruct (le_new _ _ _ _ L _ _ D D0) as (Hin & _). apply elem_of_list_fmap in Hin as (x & -> & Hx). rewrite Forall_forall in Hl. by apply Hl.
Qed.
Section stays.
  Context (lc : N -> bool) (ses : str -> str -> list edit_instruction) (p : search_parameters).
  Lemma iteration_stays lines m l m1 : iteration lc ses p lines m l m1 -> Forall clean lines -> mirrored m /\ all_clean m -> mirrored m1 /\ all_clean m1.
  Proof.
    intros (all & F & -> & L & _) Hl [M Hc]. split; [by eapply learned_mirrored|]. eapply learned_clean; [done| |exact L].
    apply Forall_concat. clear - F Hl. induction F as [|s x lines all (ks & rs & _ & _ & ->) F IH]; [constructor|]. inversion Hl as [|? ? H1 H2]; subst.
    constructor; [|by apply IH]. apply Forall_forall. intros y (r & -> & _)%elem_of_list_fmap. done.
  Qed.
  Lemma iterations_stay lines k m m1 : iterations lc ses p lines k m m1 -> Forall clean lines -> mirrored m /\ all_clean m -> mirrored m1 /\ all_clean m1.
  Proof. induction 1 as [m|k m l m1 It _|k m l m1 m2 It _ _ IH]; intros Hl H; [done|by eapply iteration_stays|]. apply IH; [done|]. by eapply iteration_stays. Qed.
  Lemma models_stay lls k m ms : learned_models lc ses p k lls m ms -> Forall (Forall clean) lls -> mirrored m /\ all_clean m -> Forall (fun m1 => mirrored m1 /\ all_clean m1) ms.
  Proof.
    induction 1 as [m|lines lls m m1 ms It _ IH]; intros Hl H; [constructor|]. inversion Hl as [|? ? H1 H2]; subst.
    pose proof (iterations_stay _ _ _ _ It H1 H) as Hm. constructor; [done|]. by apply IH.
  Qed.
End stays.
Lemma unit_finite x : unit_score x -> finite x.
Proof. intros (_ & H1 & H2). destruct x as [b|b| |b e f]; try done. by destruct b. Qed.
Lemma state_finite p m mi B : P_LearnMore.state p m mi B -> mirrored m -> forall v i s, v ∈ m_decoder m -> ReferenceFor i s ∈ default [] (vv_variants v) -> finite s /\ is_Some (m_decoder m !! i).
Proof.
  intros St M v i s Hv Hi. apply elem_of_list_lookup in Hv as (id & D).
  assert ((i, s) ∈ stored_variants v) as Hs by (unfold stored_variants; apply elem_of_list_omap; by exists (ReferenceFor i s)).
  destruct (M id v i s D Hs) as (w & Dw & Hw). split; [|by exists w]. apply unit_finite.
  destruct (st_pred _ _ _ _ St) as (m0 & _ & S0 & _ & T). refine (tm_links _ _ T i w id s _ Hw). by rewrite <- (sc_decoder _ _ S0).
Qed.

(** ** The JSON output of one input *)
Section json.
  Context (fmt : f64 -> str) (Hfmt : forall x, finite x -> number (fmt x)).
  Record good (m : model) : Prop := {
    gd_clean : all_clean m;
    gd_links : forall v i s, v ∈ m_decoder m -> ReferenceFor i s ∈ default [] (vv_variants v) -> finite s /\ is_Some (m_decoder m !! i);
  }.
  Lemma json_breaks m t : good m -> Exists has_reference (m_decoder m) -> run Open (p_out (learned_json fmt m) ++ t) = None.
  Proof using Hfmt.
    intros [Hc Hr] He. unfold learned_json. rewrite pthen_out by done. rewrite put_out.
    change (lit "{" ++ newline) with [123; 10]%N. cbn [app]. change (run Open (123 :: 10 :: ?x)%N) with (run Open x).
    assert (G : forall d, (forall v, v ∈ d -> v ∈ m_decoder m) -> Exists has_reference d -> forall e, run Open (p_out (pthen (pall (map (learned_json_entry fmt m) d)) e) ++ t) = None).
    { clear He. intros d Hd. induction d as [|v d IH]; intros He e; [by apply Exists_nil in He|]. cbn [map pall]. rewrite pthen_assoc.
      destruct (linked (default [] (vv_variants v))) as [|x l] eqn:E.
      - replace (learned_json_entry fmt m v) with (put []) by (unfold learned_json_entry; by rewrite references_linked, E).
        rewrite pthen_nil_l. apply IH; [set_solver|]. apply Exists_cons in He as [He|He]; [|done]. apply linked_has in He. done.
      - assert (Hv : has_reference v) by (apply linked_has; by rewrite E).
        assert (B : forall t, run Open (p_out (learned_json_entry fmt m v) ++ t) = None).
        { intros t'. apply learned_entry_breaks; [done|by left|done|apply Hc, Hd; by left|]. intros i s Hi.
          destruct (Hr v i s) as [Hs [w Hw]]; [apply Hd; by left|done|]. split; [done|]. exists w. split; [done|]. apply Hc. by eapply elem_of_list_lookup_2. }
        unfold pthen at 1. destruct (p_stop (learned_json_entry fmt m v)); [apply B|]. cbn [p_out]. rewrite <- app_assoc. apply B. }
    by rewrite G.
  Qed.
  Lemma json_nothing m : no_variants m -> p_out (learned_json fmt m) = [123; 10; 125; 10]%N.
  Proof.
    intros H. unfold learned_json. rewrite pthen_out by done.
    assert (G : pall (map (learned_json_entry fmt m) (m_decoder m)) = put []).
    { unfold no_variants in H. induction H as [|v d Hv H IH]; [done|]. cbn [map pall]. rewrite IH. unfold learned_json_entry. rewrite references_linked.
      destruct (linked _) eqn:E; [done|]. exfalso. apply Hv, linked_has. by rewrite E. }
    by rewrite G, pthen_nil_l, !put_out.
  Qed.
  Lemma variants_or_none m : no_variants m \/ Exists has_reference (m_decoder m).
  Proof.
    unfold no_variants. induction (m_decoder m) as [|v d [IH|IH]]; [left; constructor| |right; by right].
    destruct (linked (default [] (vv_variants v))) eqn:E; [left; constructor; [|done]|right; left].
    - intros H. by apply linked_has in H.
    - apply linked_has. by rewrite E.
  Qed.
  Lemma json_whole ms : Forall good ms ->
    json_text (lit "[" ++ newline ++ concat (map (fun m => p_out (learned_json fmt m)) ms) ++ lit "]" ++ newline) <-> length ms <= 1 /\ Forall no_variants ms.
  Proof using Hfmt.
    intros G. split.
    - intros J. apply json_text_run in J as (st & Hst & R). change (lit "[" ++ newline ++ ?x) with (91 :: 10 :: x)%N in R.
      change (run Before (91 :: 10 :: ?x)%N) with (run Open x) in R.
      destruct G as [|m ms Gm G]; [by split; [cbn; lia|constructor]|]. cbn [map concat] in R. rewrite <- app_assoc in R.
      destruct (variants_or_none m) as [Hn|He]; [|rewrite json_breaks in R by done; done]. rewrite json_nothing in R by done. cbn [app] in R.
      change (run Open (123 :: 10 :: 125 :: 10 :: ?x)%N) with (run After x) in R.
      destruct G as [|m2 ms Gm2 G]; [split; [cbn; lia|by repeat constructor]|]. exfalso. cbn [map concat] in R. rewrite <- app_assoc in R.
      assert (exists x, p_out (learned_json fmt m2) = 123%N :: x) as (x & Ex). { unfold learned_json. rewrite pthen_out by done. rewrite put_out. eexists. reflexivity. }
      rewrite Ex in R. done.
    - intros [Hl Hn]. destruct Hn as [|m ms Hm Hn]; [|destruct Hn; [|cbn in Hl; lia]].
      + exists (JArr []), [], [91; 10; 93]%N, [10%N]. split; [done|]. split; [wh|]. split; [apply (value_array_empty [10%N]); wh|wh].
      + cbn [map concat]. rewrite json_nothing by done. exists (JArr [JObj []]), [], [91; 10; 123; 10; 125; 10; 93]%N, [10%N]. split; [done|]. split; [wh|]. split; [|wh].
        apply (value_array [10; 123; 10; 125; 10]%N). apply (elements_one [10%N] [123; 10; 125]%N (JObj []) [10%N]); [wh| |wh]. apply (value_object_empty [10%N]); wh.
  Qed.
End json.

(** ** What is shown *)
Lemma split_list m : exists vs, selects has_reference (m_decoder m) vs.
Proof.
  induction (m_decoder m) as [|v d (vs & IH)]; [exists []; constructor|]. destruct (linked (default [] (vv_variants v))) eqn:E.
  - exists vs. apply selects_skip; [|done]. intros H. by apply linked_has in H.
  - exists (v :: vs). apply selects_keep; [|done]. apply linked_has. by rewrite E.
Qed.
Lemma selects_in {A} (P : A -> Prop) l l' x : selects P l l' -> x ∈ l' -> x ∈ l /\ P x.
Proof. induction 1 as [|y l l' Hy _ IH|y l l' Hy _ IH]; intros Hx; [by apply elem_of_nil in Hx| |split; [right|]; by apply IH].
  apply elem_of_cons in Hx as [-> |Hx]; [by split; [left|]|]. split; [right|]; by apply IH. Qed.
Lemma selected_out (f : vocab_value -> printed) d vs : selects has_reference d vs -> (forall v, ~ has_reference v -> f v = put []) ->
  concat (map p_out (map f d)) = concat (map (fun v => p_out (f v)) vs).
Proof. induction 1 as [|v d vs Hv _ IH|v d vs Hv _ IH]; intros Hf; [done| |]; cbn [map concat]; rewrite IH by done; [done|]. by rewrite Hf. Qed.
Lemma no_reference v : ~ has_reference v -> references v = [].
Proof. intros H. rewrite references_linked. destruct (linked _) eqn:E; [done|]. exfalso. apply H, linked_has. by rewrite E. Qed.
Lemma some_reference v : has_reference v -> references v <> [].
Proof. intros H. rewrite references_linked. by apply linked_has. Qed.

Lemma words_out fmt m : variants_inside m -> words_shown m (p_out (shows fmt true false m)).
Proof.
  intros V. pose proof (shows_ok fmt true false m V) as Ok. destruct (split_list m) as (vs & S). exists vs. split; [done|]. unfold shows in *.
  rewrite pthen_nil_l, pthen_nil_r in *. destruct (P_CliOut.pall_out _ Ok) as [-> _]. rewrite (selected_out _ _ vs S).
  - f_equal. apply map_ext_in. intros v Hv%elem_of_list_In. destruct (selects_in _ _ _ _ S Hv) as [_ Hr]. apply some_reference in Hr. by destruct (references v).
  - intros v Hr. by rewrite no_reference.
Qed.
Lemma only_out fmt m : variants_inside m -> all_clean m -> object_shown word_shown_only m (p_out (shows fmt true true m)).
Proof.
  intros V Hc. pose proof (shows_ok fmt true true m V) as Ok. destruct (split_list m) as (vs & S). unfold shows in *.
  pose proof (P_Cli.pthen_ok _ _ Ok) as [_ Ok2]. pose proof (P_Cli.pthen_ok _ _ Ok2) as [Ok3 _].
  rewrite !pthen_out by done. destruct (P_CliOut.pall_out _ Ok3) as [-> _]. rewrite (selected_out _ _ vs S) by (intros v Hr; by rewrite no_reference). rewrite !put_out.
  eexists vs, _. split; [done|]. split; [|cbv beta iota; rewrite <- !app_assoc; reflexivity].
  apply Forall2_fmap_r, Forall_Forall2_diag, Forall_forall. intros v Hv. destruct (selects_in _ _ _ _ S Hv) as [Hd Hr]. apply some_reference in Hr.
  exists (34%N :: escape (vv_text v) ++ [34%N]). split; [by apply escape_string, Hc|]. destruct (references v); [done|]. rewrite put_out.
  change (name "    ") with [32; 32; 32; 32]%N. change (lit "    """) with [32; 32; 32; 32; 34]%N. change (lit """: [ ") with (34%N :: name ": [ "). cbn [app]. rewrite <- app_assoc. done.
Qed.
Lemma entry_out fmt m v : has_reference v -> learned_json_entry fmt m v =
  pthen (put (lit "    """ ++ escape (vv_text v) ++ lit """: [ " ++ newline)) (pthen (pall (map (fun r : vocab_id * f64 =>
    pres (rexpect (m_decoder m !! r.1)) (fun w => put (lit "        { ""text"": """ ++ escape (vv_text w) ++ lit """, ""score"": " ++ fmt r.2 ++
      lit ", ""freq"": " ++ show (vv_frequency w) ++ lit " }, " ++ newline))) (stored_variants v))) (put (lit "    ]" ++ newline))).
Proof.
  intros Hr%some_reference. assert (references v = stored_variants v) as <- by (by rewrite references_linked, <- stored_linked).
  unfold learned_json_entry. destruct (references v) as [|r rs]; [by destruct Hr|reflexivity].
Qed.
Lemma object_out fmt m : variants_inside m -> all_clean m -> object_shown (word_shown fmt m) m (p_out (shows fmt false true m)).
Proof.
  intros V Hc. pose proof (shows_ok fmt false true m V) as Ok. destruct (split_list m) as (vs & S). unfold shows, learned_json in *.
  pose proof (P_Cli.pthen_ok _ _ Ok) as [_ Ok2]. pose proof (P_Cli.pthen_ok _ _ Ok2) as [Ok3 _].
  rewrite !pthen_out by done. destruct (P_CliOut.pall_out _ Ok3) as [-> Fo]. rewrite (selected_out _ _ vs S) by (intros v Hr; unfold learned_json_entry; by rewrite no_reference). rewrite !put_out.
  eexists vs, _. split; [done|]. split; [|rewrite <- !app_assoc; reflexivity].
  apply Forall2_fmap_r, Forall_Forall2_diag, Forall_forall. intros v Hv. destruct (selects_in _ _ _ _ S Hv) as [Hd Hr].
  rewrite Forall_forall in Fo. specialize (Fo (learned_json_entry fmt m v) ltac:(by apply elem_of_list_fmap_1)). pose proof (references_inside m v V Hd) as RI.
  clear Ok Ok2 Ok3 Hv. unfold compose. rewrite entry_out in * by done. assert (references v = stored_variants v) as Es by (by rewrite references_linked, <- stored_linked). rewrite Es in RI. clear Es.
  pose proof (P_Cli.pthen_ok _ _ Fo) as [_ Fo2]. pose proof (P_Cli.pthen_ok _ _ Fo2) as [Fo3 _]. rewrite !pthen_out by done. destruct (P_CliOut.pall_out _ Fo3) as [-> _]. rewrite !put_out.
  eexists (34%N :: escape (vv_text v) ++ [34%N]), _. split; [by apply escape_string, Hc|]. split.
  2: { change (name "    ") with [32; 32; 32; 32]%N at 1. change (lit "    """) with [32; 32; 32; 32; 34]%N. change (lit """: [ ") with (34%N :: name ": [ "). cbn [app]. rewrite <- !app_assoc. reflexivity. }
  rewrite map_map. apply Forall2_fmap_r, Forall_Forall2_diag, Forall_forall. intros y Hy. rewrite Forall_forall in RI. destruct (RI y Hy) as (w & Hw). unfold compose. rewrite Hw. cbn [rexpect pres]. rewrite put_out.
  exists w, (34%N :: escape (vv_text w) ++ [34%N]), (show (vv_frequency w)). split; [done|]. split; [apply escape_string, Hc; by eapply elem_of_list_lookup_2|].
  split; [apply show_reads|]. change (lit "        { ""text"": """) with (name "        { ""text"": " ++ [34%N]). change (lit """, ""score"": ") with (34%N :: name ", ""score"": ").
  rewrite <- !app_assoc. cbn [app]. rewrite <- !app_assoc. done.
Qed.

(** ** The words alone *)
Lemma one_list m vs : selects has_reference (m_decoder m) vs -> one_variant_list m <-> length vs <= 1.
Proof.
  intros S. split; [|intros; by exists vs]. intros (vs' & S' & Hl).
  assert (vs = vs') as ->; [|done]. clear Hl. revert vs' S'. induction S as [|v d vs Hv _ IH|v d vs Hv _ IH]; intros vs' S'; inversion S'; subst; try done; [f_equal|]; by apply IH.
Qed.
Lemma run_only v s t : word_shown_only v s -> run Open (s ++ t) = run After t /\ run After (s ++ t) = None.
Proof.
  intros (q & Hq & ->). change (name "    ") with [32; 32; 32; 32]%N. change (name "    ]") with [32; 32; 32; 32; 93]%N. change (name ": [ ") with [58; 32; 91; 32]%N.
  rewrite <- !app_assoc. cbn [app]. split.
  - change (run Open (32 :: 32 :: 32 :: 32 :: ?x)%N) with (run Open x). rewrite run_app, (run_string Open q _ (or_introl eq_refl) Hq). done.
  - change (run After (32 :: 32 :: 32 :: 32 :: ?x)%N) with (run After x). inversion Hq; subst. done.
Qed.
Lemma run_objects m s t : object_shown word_shown_only m s -> (one_variant_list m -> run Open (s ++ t) = run After t) /\ (~ one_variant_list m -> run Open (s ++ t) = None).
Proof.
  intros (vs & items & S & F & ->). rewrite (one_list m vs S). change (name "{" ++ [10%N] ++ ?x) with (123 :: 10 :: x)%N. cbn [app].
  change (run Open (123 :: 10 :: ?x)%N) with (run Open x). rewrite <- !app_assoc. destruct F as [|v s1 vs items H1 F].
  - cbn [concat app length]. change (name "}") with [125%N]. cbn [app]. split; [done|intros H; cbn in H; lia].
  - cbn [concat]. rewrite <- app_assoc, (proj1 (run_only v s1 _ H1)). destruct F as [|v2 s2 vs items H2 F].
    + cbn [concat app length]. change (name "}") with [125%N]. cbn [app]. split; [done|intros H; lia].
    + cbn [concat length]. rewrite <- app_assoc, (proj2 (run_only v2 s2 _ H2)). split; [intros H; lia|done].
Qed.
Lemma one_or_more m : one_variant_list m \/ ~ one_variant_list m.
Proof. destruct (split_list m) as (vs & S). rewrite (one_list m vs S). lia. Qed.
Lemma object_json m s : object_shown word_shown_only m s -> one_variant_list m -> exists b j, s = b ++ [10%N] /\ value b j.
Proof.
  intros (vs & items & S & F & ->) Hl. apply (one_list m vs S) in Hl. destruct F as [|v s1 vs items (q & Hq & ->) F].
  - exists [123; 10; 125]%N, (JObj []). split; [done|]. apply (value_object_empty [10%N]); wh.
  - destruct F; [|cbn in Hl; lia]. exists (123%N :: ((10%N :: [32; 32; 32; 32]%N) ++ q ++ [] ++ [58%N] ++ [32%N] ++ (91%N :: [32; 10; 32; 32; 32; 32]%N ++ [93%N]) ++ [10%N]) ++ [125%N]), (JObj [(vv_text v, JArr [])]).
    split.
    + cbn [concat app]. change (name "    ") with [32; 32; 32; 32]%N at 1. change (name "    ]") with [32; 32; 32; 32; 93]%N. change (name ": [ ") with [58; 32; 91; 32]%N. change (name "{") with [123%N]. change (name "}") with [125%N].
      cbn [app]. rewrite app_nil_r, <- !app_assoc. cbn [app]. rewrite <- ?app_assoc. cbn [app]. done.
    + apply (value_object (([10; 32; 32; 32; 32]%N) ++ q ++ [] ++ 58%N :: [32%N] ++ (91%N :: [32; 10; 32; 32; 32; 32]%N ++ [93%N]) ++ [10%N])).
      apply (members_one [10; 32; 32; 32; 32]%N q (vv_text v) [] [32%N] (91%N :: [32; 10; 32; 32; 32; 32]%N ++ [93%N]) (JArr []) [10%N]); [wh|done|wh|wh| |wh].
      apply value_array_empty. wh.
Qed.
Lemma only_whole ms items : Forall2 (object_shown word_shown_only) ms items ->
  json_text (lit "[" ++ newline ++ concat items ++ lit "]" ++ newline) <-> length ms <= 1 /\ Forall one_variant_list ms.
Proof.
  intros G. split.
  - intros J. apply json_text_run in J as (st & Hst & R). change (lit "[" ++ newline ++ ?x) with (91 :: 10 :: x)%N in R.
    change (run Before (91 :: 10 :: ?x)%N) with (run Open x) in R.
    destruct G as [|m s ms items Gm G]; [by split; [cbn; lia|constructor]|]. cbn [concat] in R. rewrite <- app_assoc in R.
    destruct (one_or_more m) as [Hn|He]; [rewrite (proj1 (run_objects m s _ Gm) Hn) in R|rewrite (proj2 (run_objects m s _ Gm) He) in R; done].
    destruct G as [|m2 s2 ms items Gm2 G]; [split; [cbn; lia|by repeat constructor]|]. exfalso. cbn [concat] in R. rewrite <- app_assoc in R.
    destruct Gm2 as (? & ? & _ & _ & ->). done.
  - intros [Hl Hn]. destruct G as [|m s ms items Gm G].
    + exists (JArr []), [], [91; 10; 93]%N, [10%N]. split; [done|]. split; [wh|]. split; [apply (value_array_empty [10%N]); wh|wh].
    + destruct G; [|cbn in Hl; lia]. inversion Hn as [|? ? H1 _]; subst. destruct (object_json m s Gm H1) as (b & j & -> & Hb).
      exists (JArr [j]), [], (91%N :: ([10%N] ++ b ++ [10%N]) ++ [93%N]), [10%N]. split; [|split; [wh|split; [|wh]]].
      * cbn [concat app]. change (lit "[" ++ newline ++ ?x) with (91 :: 10 :: x)%N. rewrite app_nil_r, <- !app_assoc. done.
      * apply value_array. apply elements_one; [wh|done|wh].
Qed.
