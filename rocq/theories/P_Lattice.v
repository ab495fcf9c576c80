(** Proofs: the lattice holds exactly the readings of the matches. *)
From Verif Require Import M_Base M_Utf8 M_Float M_Types M_Anahash M_Model M_Values M_Search M_Text M_Rules M_Matches.
From Verif Require Import S_Anahash S_Text S_Model S_Search S_Rules S_Matches P_Base.
From stdpp Require Import options.

Lemma adjacent_where m l : forall i prev next p n, adjacent m i l prev next = (p, n) ->
  (p = prev /\ (forall k b, l !! k = Some b -> tm_end b <> tm_begin m) \/ exists k b, l !! k = Some b /\ p = Some (i + k) /\ tm_end b = tm_begin m) /\
  (n = next \/ exists k b, l !! k = Some b /\ n = Some (i + k) /\ tm_begin b = tm_end m).
Proof.
  induction l as [|b l IH]; intros i prev next p n; cbn [adjacent].
  { intros [= <- <-]. split; [left; split; [done|by intros k b]|by left]. }
  destruct (tm_begin m =? tm_end b) eqn:E1; [|destruct (tm_end m =? tm_begin b) eqn:E2].
  - apply Nat.eqb_eq in E1. intros H. apply IH in H as [H1 H2]. split.
    + right. destruct H1 as [[-> _]|(k & b' & K1 & K2 & K3)].
      * exists 0, b. rewrite Nat.add_0_r. done.
      * exists (S k), b'. rewrite Nat.add_succ_r. done.
    + destruct H2 as [->|(k & b' & K1 & K2 & K3)]; [by left|]. right. exists (S k), b'. rewrite Nat.add_succ_r. done.
  - apply Nat.eqb_eq in E2. apply Nat.eqb_neq in E1. intros H. apply IH in H as [H1 H2]. split.
    + destruct H1 as [[-> H1]|(k & b' & K1 & K2 & K3)].
      * left. split; [done|]. intros [|k] b'; cbn; [intros [= <-]; congruence|apply H1].
      * right. exists (S k), b'. rewrite Nat.add_succ_r. done.
    + right. destruct H2 as [->|(k & b' & K1 & K2 & K3)]; [exists 0, b; by rewrite Nat.add_0_r|]. exists (S k), b'. rewrite Nat.add_succ_r. done.
  - apply Nat.eqb_neq in E1. intros H. apply IH in H as [H1 H2]. split.
    + destruct H1 as [[-> H1]|(k & b' & K1 & K2 & K3)].
      * left. split; [done|]. intros [|k] b'; cbn; [intros [= <-]; congruence|apply H1].
      * right. exists (S k), b'. rewrite Nat.add_succ_r. done.
    + destruct H2 as [->|(k & b' & K1 & K2 & K3)]; [by left|]. right. exists (S k), b'. rewrite Nat.add_succ_r. done.
Qed.
Lemma endpoints_spans m bs n from next : endpoints m bs = Ok (n, from, next) -> spans bs m from next /\ n = S next - from.
Proof.
  unfold endpoints. destruct (adjacent m 0 bs None None) as [p q] eqn:E. apply adjacent_where in E as [H1 H2].
  destruct H2 as [->|(k & b & Kb & -> & Kn)]; [done|]. cbn [rexpect rbind]. destruct p as [p|].
  - destruct H1 as [[? _]|(k' & b' & Kb' & [= ->] & Kp)]; [done|]. cbn [Nat.add]. destruct (k <? k') eqn:El; [done|].
    apply Nat.ltb_ge in El. intros [= <- <- <-]. split; [|lia]. split; [lia|]. split; [by exists b|by exists b'].
  - destruct H1 as [[_ H1]|(? & ? & ? & ? & ?)]; [|done]. intros [= <- <- <-]. cbn [Nat.add]. split; [|lia]. split; [lia|]. split; [by exists b|exact H1].
Qed.

(** the arcs and symbols of a match, [k] symbols before it *)
Definition arcs_of (fw : f32) (bs : list tmatch) (k i : nat) (m : tmatch) (ss : list output_symbol) (arcs : list arc) : Prop :=
  (forall a, a ∈ arcs -> exists from next o c j, spans bs m from next /\ reading fw i m from next o c /\ ss !! j = Some o /\ a = Arc from (S i) (k + j) c (S next)) /\
  exists from next, spans bs m from next /\
    forall o c, reading fw i m from next o c -> exists j, ss !! j = Some o /\ Arc from (S i) (k + j) c (S next) ∈ arcs.
Lemma match_arcs_of fw bs k i m ss arcs : match_arcs fw bs k i m = Ok (ss, arcs) -> arcs_of fw bs k i m ss arcs.
Proof.
  unfold match_arcs. destruct (endpoints m bs) as [[[n from] next]|] eqn:E; [|done]. cbn [rbind].
  apply endpoints_spans in E as [Hs ->].
  assert (forall vs, tm_variants m = Some vs -> vs <> [] ->
    arcs_of fw bs k i m (imap (fun j v => OutputSymbol (vr_id v) i (Some j) next) vs)
      (imap (fun j v => Arc from (i + 1) (k + j) (variant_cost fw (S next - from) v) (S next)) vs)) as G.
  { intros vs Ev Hne. split.
    - intros a Ha. apply elem_of_list_lookup in Ha as [j Ha]. rewrite list_lookup_imap in Ha.
      destruct (vs !! j) as [v|] eqn:Ej; [|done]. cbn in Ha. injection Ha as <-.
      exists from, next, (OutputSymbol (vr_id v) i (Some j) next), (variant_cost fw (S next - from) v), j.
      split; [done|]. split; [by eapply reading_variant|]. split; [by rewrite list_lookup_imap, Ej|]. by rewrite Nat.add_1_r.
    - exists from, next. split; [done|]. intros o c Hr. inversion Hr as [vs' j v Ev' Ej|Hn]; subst.
      + rewrite Ev in Ev'. injection Ev' as <-. exists j. rewrite list_lookup_imap, Ej. split; [done|].
        apply elem_of_list_lookup. exists j. rewrite list_lookup_imap, Ej. cbn. by rewrite Nat.add_1_r.
      + rewrite Ev in Hn. destruct Hn as [?|[= ->]]; done. }
  assert (tm_variants m = None \/ tm_variants m = Some [] ->
    (if S next - from =? 1 then Ok ([OutputSymbol 0 i None next], [Arc from (i + 1) k (f32add (f32_of_nat (S next - from)) f32_1) (S next)]) else Ok ([], [])) = Ok (ss, arcs) ->
    arcs_of fw bs k i m ss arcs) as G2.
  { intros Hn H. destruct (S next - from =? 1) eqn:En.
    - apply Nat.eqb_eq in En. rewrite En in H. injection H as <- <-. split.
      + intros a ->%elem_of_list_singleton. exists from, next, (OutputSymbol 0 i None next), (f32add f32_1 f32_1), 0.
        split; [done|]. split; [by apply reading_unknown|]. split; [done|]. by rewrite Nat.add_0_r, Nat.add_1_r.
      + exists from, next. split; [done|]. intros o c Hr. inversion Hr as [vs j v Ev Ej|]; subst.
        * rewrite Ev in Hn. destruct Hn as [?|[= ->]]; done.
        * exists 0. split; [done|]. rewrite Nat.add_0_r, Nat.add_1_r. by left.
    - apply Nat.eqb_neq in En. injection H as <- <-. split; [intros a Ha; by apply elem_of_nil in Ha|].
      exists from, next. split; [done|]. intros o c Hr. inversion Hr as [vs j v Ev Ej|]; subst; [|done].
      rewrite Ev in Hn. destruct Hn as [?|[= ->]]; done. }
  destruct (tm_variants m) as [[|v vs]|] eqn:Ev.
  - apply G2. by right.
  - intros [= <- <-]. exact (G (v :: vs) eq_refl ltac:(done)).
  - apply G2. by left.
Qed.
Lemma all_arcs_of fw bs ms : forall k i ss arcs, all_arcs fw bs k i ms = Ok (ss, arcs) ->
  (forall a, a ∈ arcs -> exists d m from next o c j, ms !! d = Some m /\ spans bs m from next /\ reading fw (i + d) m from next o c /\
     ss !! j = Some o /\ a = Arc from (S (i + d)) (k + j) c (S next)) /\
  (forall d m, ms !! d = Some m -> exists from next, spans bs m from next /\
     forall o c, reading fw (i + d) m from next o c -> exists j, ss !! j = Some o /\ Arc from (S (i + d)) (k + j) c (S next) ∈ arcs).
Proof.
  induction ms as [|x ms IH]; intros k i ss arcs; cbn [all_arcs].
  { intros [= <- <-]. split; [intros a Ha; by apply elem_of_nil in Ha|by intros d m]. }
  destruct (match_arcs fw bs k i x) as [[s1 a1]|] eqn:E1; [|done]. cbn [rbind].
  destruct (all_arcs fw bs (k + length s1) (S i) ms) as [[s2 a2]|] eqn:E2; [|done]. cbn [rbind]. intros [= <- <-].
  apply match_arcs_of in E1 as [F1 F2]. apply IH in E2 as [G1 G2]. split.
  - intros a [Ha|Ha]%elem_of_app.
    + destruct (F1 a Ha) as (from & next & o & c & j & H1 & H2 & H3 & ->). exists 0, x, from, next, o, c, j. rewrite Nat.add_0_r.
      split; [done|]. split; [done|]. split; [done|]. split; [by apply lookup_app_l_Some|done].
    + destruct (G1 a Ha) as (d & m & from & next & o & c & j & H0 & H1 & H2 & H3 & ->). exists (S d), m, from, next, o, c, (length s1 + j).
      rewrite Nat.add_succ_r. split; [done|]. split; [done|]. split; [done|]. split; [rewrite lookup_app_r by lia; by replace (length s1 + j - length s1) with j by lia|].
      f_equal; lia.
  - intros [|d] m; cbn [lookup list_lookup].
    + intros [= <-]. destruct F2 as (from & next & H1 & H2). exists from, next. split; [done|]. rewrite Nat.add_0_r. intros o c Hr.
      destruct (H2 o c Hr) as (j & K1 & K2). exists j. split; [by apply lookup_app_l_Some|]. apply elem_of_app. by left.
    + intros Em. destruct (G2 d m Em) as (from & next & H1 & H2). exists from, next. split; [done|]. rewrite Nat.add_succ_r. intros o c Hr.
      destruct (H2 o c Hr) as (j & K1 & K2). exists (length s1 + j).
      split; [rewrite lookup_app_r by lia; by replace (length s1 + j - length s1) with j by lia|]. apply elem_of_app. right.
      by rewrite Nat.add_assoc.
Qed.
Lemma final_states_spec bs e s : s ∈ final_states bs e <-> exists i b, s = S i /\ bs !! i = Some b /\ (tm_begin b = e \/ tm_end b = e).
Proof.
  unfold final_states. rewrite elem_of_list_fmap. split.
  - intros ([s' b] & -> & H). apply elem_of_list_In, filter_In in H as [H1 H2]. cbn [fst snd] in *.
    apply elem_of_list_In, elem_of_list_lookup in H1 as [i H1]. rewrite list_lookup_imap in H1. destruct (bs !! i) as [b'|] eqn:Eb; [|done].
    cbn in H1. injection H1 as <- <-. exists i, b'. split; [done|]. split; [done|].
    apply orb_true_iff in H2 as [H2|H2]; apply Nat.eqb_eq in H2; auto.
  - intros (i & b & -> & Hb & H). exists (S i, b). split; [done|]. apply elem_of_list_In, filter_In. split.
    + apply elem_of_list_In, elem_of_list_lookup. exists i. by rewrite list_lookup_imap, Hb.
    + cbn [snd]. apply orb_true_iff. destruct H as [H|H]; [left|right]; by apply Nat.eqb_eq.
Qed.
Lemma lattice_built fw ms bs e symbols arcs : all_arcs fw bs 1 0 ms = Ok (symbols, arcs) ->
  lattice fw ms bs e (dummy_symbol :: symbols) (Fst (S (length bs)) (final_states bs e) (arcs ++ failsafe_arcs bs)).
Proof.
  intros H. apply all_arcs_of in H as [H1 H2]. split; cbn [f_final f_arcs].
  - intros s. apply final_states_spec.
  - intros a [Ha|Ha]%elem_of_app.
    + right. destruct (H1 a Ha) as (d & m & from & next & o & c & j & K0 & K1 & K2 & K3 & ->). exists d, m, from, next, o, c, (S j).
      split; [done|]. split; [done|]. split; [done|]. split; [lia|]. split; [done|done].
    + left. unfold failsafe_arcs in Ha. apply elem_of_list_fmap in Ha as (i & -> & Hi%elem_of_seq). exists i. split; [lia|done].
  - intros i Hi. apply elem_of_app. right. apply elem_of_list_fmap. exists i. split; [done|]. apply elem_of_seq. lia.
  - intros i m Em. destruct (H2 i m Em) as (from & next & K1 & K2). exists from, next. split; [done|]. intros o c Hr.
    destruct (K2 o c Hr) as (j & L1 & L2). exists (S j). split; [lia|]. split; [done|]. apply elem_of_app. by left.
Qed.
Lemma no_symbols fw bs ms : forall k i arcs, all_arcs fw bs k i ms = Ok ([], arcs) ->
  Forall (fun m => tm_variants m = None \/ tm_variants m = Some []) ms.
Proof.
  intros k i arcs H. apply all_arcs_of in H as [_ H]. apply Forall_forall. intros m Hm. apply elem_of_list_lookup in Hm as [d Hd].
  destruct (H d m Hd) as (from & next & _ & K). destruct (tm_variants m) as [[|v vs]|] eqn:E; [by right| |by left].
  destruct (K _ _ (reading_variant fw (i + d) m from next (v :: vs) 0 v E eq_refl)) as (j & ? & _). done.
Qed.
