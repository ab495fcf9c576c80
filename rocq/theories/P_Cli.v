(** Proofs about the command line tool: schedules, batches, order of output. *)
From Verif Require Import M_Base P_Base M_Anahash M_Float M_Types M_Model M_Search M_Text M_Cli M_Par S_Cli P_Parse.
From stdpp Require Import options.

#[local] Arguments pthen : simpl never.
#[local] Arguments put : simpl never.

(** * Schedules *)
Section pool.
  Context {L B : Type} (step : L -> L + res B).

  (** a task that has come to [t] from [l] *)
  Inductive reached : L -> task L B -> Prop :=
  | reached_start l : reached l (Running l)
  | reached_more l l' t : step l = inl l' -> reached l' t -> reached l t
  | reached_last l r : step l = inr r -> reached l (Finished r).

  Lemma reached_advance l l' : reached l (Running l') -> reached l (advance step l').
  Proof.
    remember (Running l') as t eqn:E. induction 1 as [l|l l1 t H1 H2 IH|l r H]; simplify_eq.
    - unfold advance. destruct (step l') eqn:E; [by eapply reached_more; [|constructor]|by apply reached_last].
    - eapply reached_more; [done|by apply IH].
  Qed.
  Lemma reached_alone l r : reached l (Finished r) -> alone step l r.
  Proof.
    remember (Finished r) as t eqn:E. induction 1 as [l|l l1 t H1 H2 IH|l r' H]; simplify_eq.
    - eapply alone_more; [done|by apply IH].
    - by apply alone_last.
  Qed.
  Lemma pool_reached ls ts : rtc (pool_step step) (map Running ls) ts -> Forall2 reached ls ts.
  Proof.
    intros H. assert (G : Forall2 reached ls (map Running ls)).
    { induction ls; cbn; constructor; [constructor|]. clear -ls. induction ls; cbn; constructor; [constructor|done]. }
    revert G. generalize dependent ts. intros ts H.
    remember (map Running ls) as t0 eqn:E. clear E. induction H as [t|t1 t2 t3 H1 H2 IH]; [done|].
    intros G. apply IH. inversion H1 as [t i l Hl]; subst.
    apply Forall2_same_length_lookup. apply Forall2_same_length_lookup in G as [G1 G2].
    rewrite insert_length. split; [done|]. intros j x y Hx Hy.
    apply lookup_lt_Some in Hl as Hi. destruct (decide (i = j)) as [->|Hn].
    - rewrite list_lookup_insert in Hy by done. injection Hy as <-. apply reached_advance. by eapply G2.
    - rewrite list_lookup_insert_ne in Hy by done. by eapply G2.
  Qed.
  Lemma alone_det l r r' : alone step l r -> alone step l r' -> r = r'.
  Proof.
    intros H. revert r'. induction H as [l r E|l l' r E H IH]; intros r' H'; inversion H' as [? ? E'|? l2 ? E' H2]; subst; rewrite E in E'; simplify_eq; auto.
  Qed.

  Lemma schedule_collected {A} (start : A -> L) (f : A -> res B) inputs ts o :
    (forall a, a ∈ inputs -> alone step (start a) (f a)) ->
    rtc (pool_step step) (map (fun a => Running (start a)) inputs) ts -> collected ts o ->
    match o with
    | Ok bs => rmapM f inputs = Ok bs
    | Panic p => exists a, a ∈ inputs /\ f a = Panic p
    end.
  Proof.
    intros Hf Hr Hc. replace (map (fun a => Running (start a)) inputs) with (map (@Running L B) (map start inputs)) in Hr
      by (by rewrite map_map).
    apply pool_reached in Hr. destruct Hc as [bs|ts p Hp].
    - revert bs Hr. induction inputs as [|a inputs IH]; intros bs Hr; cbn in *.
      { inversion Hr as [E|]; destruct bs; [done|discriminate]. }
      destruct bs as [|b bs]; cbn in Hr; [inversion Hr|]. apply Forall2_cons in Hr as [H1 H2].
      apply reached_alone in H1. rewrite (alone_det _ _ _ (Hf a (elem_of_list_here _ _)) H1). cbn [rbind].
      rewrite (IH ltac:(intros; apply Hf; by right) bs H2). done.
    - apply elem_of_list_lookup in Hp as [i Hi]. destruct (Forall2_lookup_r _ _ _ _ _ Hr Hi) as (l & Hl & Hre).
      rewrite list_lookup_fmap in Hl || (unfold fmap in *; idtac).
      assert (exists a, inputs !! i = Some a /\ start a = l) as (a & Ha & <-).
      { revert Hl. change (map start inputs) with (start <$> inputs). rewrite ?list_lookup_fmap.
        destruct (inputs !! i); cbn; intros; simplify_eq; eauto. }
      apply elem_of_list_lookup_2 in Ha. exists a. split; [done|].
      apply reached_alone in Hre. exact (alone_det _ _ _ (Hf a Ha) Hre).
  Qed.

  (** Whatever has happened so far, the tasks can be brought to an end, and when
      no step is left the caller has a result. *)
  Lemma schedule_ends ts : (forall ts', ~ pool_step step ts ts') -> exists o, collected ts o.
  Proof.
    intros H. assert (G : forall i t, ts !! i = Some t -> exists r, t = Finished r).
    { intros i [l|r] Hi; [|eauto]. exfalso. eapply H. by constructor. }
    clear H. enough (G2 : (exists bs, ts = map (fun b => Finished (Ok b)) bs) \/ exists p, Finished (Panic p) ∈ ts).
    { destruct G2 as [[bs ->]|[p Hp]]; [exists (Ok bs)|exists (Panic p)]; by constructor. }
    induction ts as [|t ts IH]; [left; by exists []|].
    destruct (G 0 t eq_refl) as [[b|p] ->]; [|right; exists p; by left].
    destruct IH as [[bs ->]|[p Hp]]; [intros i; exact (G (S i))|left; by exists (b :: bs)|right; exists p; by right].
  Qed.
End pool.

(** * Order of the output *)
Lemma listed_selected_first sel vs : selected_first sel vs (listed sel vs).
Proof.
  assert (G : forall k (l : list variant_result), omap (fun ir : nat * variant_result => Some ir.2) (imap (fun i r => (k + i, r)) l) = l).
  { intros k l. revert k. induction l as [|x l IH]; intros k; cbn; [done|]. f_equal.
    rewrite <- (IH (S k)) at 2. f_equal. apply imap_ext. intros i y _. cbn. f_equal. lia. }
  destruct sel as [s|]; cbn; [|rewrite (G 0); constructor].
  assert (G2 : forall k l, s < k -> omap (fun ir : nat * variant_result => if negb (s =? ir.1) then Some ir.2 else None) (imap (fun i r => (k + i, r)) l) = l).
  { intros k l Hk. rewrite <- (G k l) at 2. assert (E : Forall (fun ir : nat * variant_result => ir.1 <> s) (imap (fun i r => (k + i, r)) l)).
    { apply Forall_lookup. intros i [j r] Hi. rewrite list_lookup_imap in Hi. destruct (l !! i); cbn in *; simplify_eq. cbn. lia. }
    induction E as [|[j r] q Hj Hq IH]; cbn; [done|]. cbn in Hj. destruct (Nat.eqb_spec s j); [congruence|]. cbn. by f_equal. }
  assert (G3 : forall k l, k + length l <= s -> omap (fun ir : nat * variant_result => if negb (s =? ir.1) then Some ir.2 else None) (imap (fun i r => (k + i, r)) l) = l).
  { intros k l Hk. rewrite <- (G k l) at 2. assert (E : Forall (fun ir : nat * variant_result => ir.1 <> s) (imap (fun i r => (k + i, r)) l)).
    { apply Forall_lookup. intros i [j r] Hi. rewrite list_lookup_imap in Hi.
      destruct (l !! i) eqn:El; cbn in *; simplify_eq. apply lookup_lt_Some in El. cbn. lia. }
    induction E as [|[j r] q Hj Hq IH]; cbn; [done|]. cbn in Hj. destruct (Nat.eqb_spec s j); [congruence|]. cbn. by f_equal. }
  destruct (decide (s < length vs)) as [Hs|Hs].
  - destruct (lookup_lt_is_Some_2 _ _ Hs) as [x Hx]. rewrite Hx.
    assert (exists pre post, vs = pre ++ x :: post /\ length pre = s) as (pre & post & -> & <-).
    { exists (take s vs), (drop (S s) vs). split; [by rewrite take_drop_middle|]. rewrite take_length. lia. }
    rewrite imap_app, omap_app. pose proof (G3 0 pre ltac:(lia)) as G4. cbn [Nat.add] in G4. change (fun (i : nat) (r : variant_result) => (i, r)) with (@pair nat variant_result) in G4. rewrite G4. cbn. rewrite Nat.add_0_r, Nat.eqb_refl. cbn.
    erewrite (imap_ext _ (fun i r => (S (length pre) + i, r))); [|intros i y _; cbn; f_equal; lia].
    rewrite G2 by lia. apply sf_selected.
  - rewrite (lookup_ge_None_2 vs s) by lia. cbn. pose proof (G3 0 vs ltac:(lia)) as G4. cbn [Nat.add] in G4. change (fun (i : nat) (r : variant_result) => (i, r)) with (@pair nat variant_result) in G4. rewrite G4. apply sf_outside. lia.
Qed.

(** * Printing *)
Lemma pthen_ok a b : p_stop (pthen a b) = None -> p_stop a = None /\ p_stop b = None.
Proof. unfold pthen. destruct (p_stop a) eqn:E; [congruence|]. cbn. done. Qed.
Lemma pthen_out a b : p_stop a = None -> p_out (pthen a b) = p_out a ++ p_out b.
Proof. intros H. unfold pthen. by rewrite H. Qed.
Lemma pthen_prefix a b : p_out a `prefix_of` p_out (pthen a b).
Proof. unfold pthen. destruct (p_stop a); [done|]. cbn. by apply prefix_app_r. Qed.
Lemma pthen_nil_l a : pthen (put []) a = a.
Proof. by destruct a. Qed.
Lemma pthen_nil_r a : pthen a (put []) = a.
Proof. destruct a as [o [p|]]; cbn; unfold pthen; cbn; [done|by rewrite app_nil_r]. Qed.
Lemma pthen_assoc a b c : pthen (pthen a b) c = pthen a (pthen b c).
Proof. unfold pthen. destruct a as [o [p|]], b as [o' [p'|]], c as [o'' p'']; cbn; try done. by rewrite <- app_assoc. Qed.
Lemma pthen_mono a b b' : p_out b `prefix_of` p_out b' -> p_out (pthen a b) `prefix_of` p_out (pthen a b').
Proof. intros H. unfold pthen. destruct (p_stop a); [done|]. cbn. by apply prefix_app. Qed.

(** * Query mode *)
Section query.
  Context (line : nat -> str -> list variant_result -> printed) (lookup : str -> res (list variant_result)).
  (** the output for the lines from number [seqnr], in one go *)
  Fixpoint in_order (seqnr : nat) (ls : list str) : printed :=
    match ls with
    | [] => put []
    | l :: ls' => pthen (pres (lookup l) (line (S seqnr) l)) (in_order (S seqnr) ls')
    end.
  Lemma in_order_app s a b : in_order s (a ++ b) = pthen (in_order s a) (in_order (s + length a) b).
  Proof.
    revert s. induction a as [|x a IH]; intros s; cbn; [by rewrite Nat.add_0_r, pthen_nil_l|].
    rewrite IH, pthen_assoc. by replace (S s + length a) with (s + S (length a)) by lia.
  Qed.
End query.

Section process.
  Context (fmt : f64 -> str) (m : model) (lexmatch : bool) (fw : f32) (lookup : str -> res (list variant_result)) (json : bool).
  #[local] Notation line := (query_line fmt m lexmatch fw json).
  #[local] Notation process_from := (process_from fmt m lexmatch fw lookup json).
  #[local] Notation process_par_from := (process_par_from fmt m lexmatch fw lookup json).

  Lemma process_in_order s lines : process_from s lines = in_order line lookup s (omap id lines).
  Proof. revert s. induction lines as [|[l|] lines IH]; intros s; cbn; [done| |done]. by rewrite IH. Qed.

  Lemma batch_in_order s batch :
    match rmapM (fun l => let* vs := lookup l in Ok (l, vs)) batch with
    | Ok rs => output_batch fmt m lexmatch fw json s rs = in_order line lookup s batch
    | Panic _ => p_stop (in_order line lookup s batch) <> None
    end.
  Proof.
    revert s. induction batch as [|l batch IH]; intros s; cbn; [done|].
    destruct (lookup l) as [vs|p] eqn:El; cbn; [|done].
    specialize (IH (S s)). destruct (rmapM _ batch) as [rs|p]; cbn.
    - by rewrite IH.
    - intros H. apply pthen_ok in H as [_ H]. done.
  Qed.

  Lemma read_batch_some n lines batch rest eof :
    read_batch n lines = Some (batch, rest, eof) ->
    lines = map Some batch ++ rest /\ (eof = true -> rest = []) /\ (eof = false -> length batch = n).
  Proof.
    revert lines batch rest eof. induction n as [|n IH]; intros lines batch rest eof; cbn; [intros; by simplify_eq|].
    destruct lines as [|[l|] lines]; cbn; [intros; by simplify_eq| |done].
    destruct (read_batch n lines) as [[[b r] e]|] eqn:E; [|done]. intros ?; simplify_eq.
    destruct (IH _ _ _ _ E) as (-> & H1 & H2). split; [done|]. split; [done|]. intros H. cbn. by rewrite (H2 H).
  Qed.
  Lemma read_batch_none n lines : read_batch n lines = None -> None ∈ lines.
  Proof.
    revert lines. induction n as [|n IH]; intros lines; cbn; [done|].
    destruct lines as [|[l|] lines]; cbn; [done| |intros _; by left].
    destruct (read_batch n lines) as [[[b r] e]|] eqn:E; [done|]. intros _. right. by apply IH.
  Qed.

  Lemma omap_some (l : list str) : omap id (map Some l) = l.
  Proof. induction l; cbn; congruence. Qed.

  (** what parallel mode prints is a beginning of what the other mode prints *)
  Lemma par_prefix fuel n s lines : p_out (process_par_from fuel n s lines) `prefix_of` p_out (process_from s lines).
  Proof.
    revert s lines. induction fuel as [|fuel IH]; intros s lines; [apply prefix_nil|]. cbn [M_Cli.process_par_from].
    destruct (read_batch n lines) as [[[batch rest] eof]|] eqn:E; [|apply prefix_nil].
    apply read_batch_some in E as (-> & He & _). rewrite process_in_order, omap_app, omap_some, in_order_app.
    pose proof (batch_in_order s batch) as Hb. destruct (rmapM _ batch) as [rs|p]; [|apply prefix_nil]. cbn [pres]. rewrite Hb.
    apply pthen_mono. destruct eof; [apply prefix_nil|]. rewrite <- process_in_order. apply IH.
  Qed.

  Lemma par_same fuel n s lines :
    0 < n -> length lines < fuel -> None ∉ lines -> p_stop (process_from s lines) = None ->
    process_par_from fuel n s lines = process_from s lines.
  Proof.
    intros Hn. revert s lines. induction fuel as [|fuel IH]; intros s lines Hf Hl Hs; [lia|]. cbn [M_Cli.process_par_from].
    destruct (read_batch n lines) as [[[batch rest] eof]|] eqn:E; [|by apply read_batch_none in E].
    apply read_batch_some in E as (-> & He1 & He2). rewrite process_in_order, omap_app, omap_some, in_order_app in *.
    apply pthen_ok in Hs as [Hs1 Hs2].
    pose proof (batch_in_order s batch) as Hb. destruct (rmapM _ batch) as [rs|p]; [|done]. cbn [pres]. rewrite Hb. f_equal.
    destruct eof.
    - by rewrite He1.
    - rewrite <- process_in_order in *. apply IH; [|set_solver|done].
      rewrite app_length, map_length, (He2 eq_refl) in Hf. lia.
  Qed.
End process.

(** * The texts of search mode *)
Section texts.
  Context (sp per_line : bool).
  #[local] Notation sep := (if sp then 32%N else 10%N).
  #[local] Notation read_text := (read_text sp per_line).
  #[local] Notation texts_from := (texts_from sp per_line).

  Lemma joined_app_one g l : g <> [] -> joined sep (g ++ [l]) = joined sep g ++ sep :: l.
  Proof.
    induction g as [|x g IH]; intros H; [done|]. cbn. destruct g as [|y g]; [done|].
    change ((y :: g) ++ [l]) with (y :: (g ++ [l])) in *. destruct (g ++ [l]) eqn:E; [by destruct g|]. rewrite <- E in *.
    rewrite IH by done. by rewrite <- app_assoc.
  Qed.

  (** the lines read into a text that already has the lines [g] *)
  Lemma read_text_groups n g lines batch rest eof :
    (0 < length g -> joined sep g <> []) ->
    read_text n (length g) (joined sep g) lines = (batch, rest, eof) ->
    exists g', batch = joined sep (g ++ g') /\ length g' <= n /\
      match eof with
      | false => lines = map Some g' ++ rest /\ (0 < n -> 0 < length g')
      | true => (lines = map Some g' /\ rest = []) \/ lines = map Some g' ++ None :: rest
      end.
  Proof.
    revert g lines. induction n as [|n IH]; intros g lines Hg; cbn [M_Cli.read_text].
    - intros ?; simplify_eq. exists []. rewrite app_nil_r. split; [done|]. split; [done|]. split; [done|lia].
    - destruct lines as [|[l|] lines].
      + intros ?; simplify_eq. exists []. rewrite app_nil_r. split; [done|]. split; [cbn; lia|]. by left.
      + assert (E : joined sep g ++ (if 0 <? length g then [sep] else []) ++ l = joined sep (g ++ [l])).
        { destruct g as [|x g]; [done|]. cbn [length Nat.ltb Nat.leb]. rewrite joined_app_one by done. done. }
        cbv zeta. rewrite E. destruct (bool_decide (l = []) || per_line) eqn:Ee.
        { intros ?; simplify_eq. exists [l]. split; [done|]. split; [cbn; lia|]. split; [done|cbn; lia]. }
        clear Ee. case_bool_decide as Eb.
        { intros ?; simplify_eq. exists [l]. split; [done|]. split; [cbn; lia|]. split; [done|cbn; lia]. }
        intros H. destruct (IH (g ++ [l]) lines) as (g' & -> & Hlen & Hc); [done| |].
        { rewrite app_length. cbn. replace (length g + 1) with (S (length g)) by lia. exact H. }
        exists (l :: g'). rewrite <- app_assoc. split; [done|]. split; [cbn; lia|].
        destruct eof; [destruct Hc as [[-> ->]| ->]; [by left|by right]|]. destruct Hc as [-> _]. split; [done|cbn; lia].
      + intros ?; simplify_eq. exists []. rewrite app_nil_r. split; [done|]. split; [cbn; lia|]. by right.
  Qed.

  Lemma texts_groups fuel n lines :
    0 < n -> length lines < fuel ->
    exists groups, texts_from fuel n lines = Some (map (joined sep) groups) /\ Forall (fun g => length g <= n) groups /\
      (lines = map Some (concat groups) \/ exists rest, lines = map Some (concat groups) ++ None :: rest).
  Proof.
    intros Hn. revert lines. induction fuel as [|fuel IH]; intros lines Hf; [lia|]. cbn [M_Cli.texts_from].
    destruct (read_text n 0 [] lines) as [[batch rest] eof] eqn:E.
    destruct (read_text_groups n [] lines batch rest eof) as (g & -> & Hlen & Hc); [cbn; lia|done|]. cbn [app] in Hc, Hlen.
    destruct eof.
    - exists [g]. split; [done|]. split; [by constructor|]. cbn. rewrite app_nil_r.
      destruct Hc as [[-> ->]| ->]; [by left|right; eauto].
    - destruct Hc as [-> Hg]. specialize (Hg Hn). rewrite app_length, map_length in Hf.
      destruct (IH rest) as (groups & Eg & HF & Hr); [lia|]. rewrite Eg. exists (g :: groups). split; [done|]. split; [by constructor|].
      cbn. rewrite map_app. destruct Hr as [->|[r ->]]; [left; done|right; exists r; by rewrite <- app_assoc].
  Qed.
End texts.
