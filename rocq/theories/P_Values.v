(** Proofs about the small value types. *)
From Verif Require Import M_Base M_Anahash M_Iter M_Float M_Types M_Model M_Values S_Model S_Values P_Vocab.
From stdpp Require Import options.

Lemma ng_list l : length l <= 5 -> exists n, ng_from_list l = Some n /\ ng_to_vec n = l.
Proof. destruct l as [|a [|b [|c [|d [|e [|f l]]]]]]; cbn; intros; eauto; lia. Qed.
Lemma ng_list_inv l n : ng_from_list l = Some n -> ng_to_vec n = l.
Proof. destruct l as [|a [|b [|c [|d [|e [|f l]]]]]]; cbn; intros [= <-]; done. Qed.
Lemma ng_vec n : ng_from_list (ng_to_vec n) = Some n /\ length (ng_to_vec n) = ng_len n /\ ng_len n <= 5.
Proof. destruct n; cbn; repeat split; lia. Qed.
Lemma ng_long l : 5 < length l -> ng_from_list l = None.
Proof. destruct l as [|a [|b [|c [|d [|e [|f l]]]]]]; cbn; intros; done || lia. Qed.
Lemma ng_options l n : ng_from_option_list l = Some n <-> l = map Some (ng_to_vec n).
Proof.
  split.
  - destruct l as [|[a|] [|[b|] [|[c|] [|[d|] [|[e|] [|f l]]]]]]; cbn; intros [= <-]; done.
  - intros ->. by destruct n.
Qed.
Lemma ng_step n o : ng_to_vec (ng_apply n o) = list_apply (ng_to_vec n) o.
Proof. by destruct n, o. Qed.
Lemma ng_steps os : forall n, ng_to_vec (foldl ng_apply n os) = foldl list_apply (ng_to_vec n) os.
Proof. induction os as [|o os IH]; intros n; [done|]. cbn. by rewrite IH, ng_step. Qed.
Lemma ng_reports n :
  (forall x, (ng_push n x).1 = true <-> length (ng_to_vec n) < 5) /\
  ng_first n = head (ng_to_vec n) /\
  ng_to_vec (ng_pop_first n).1 = take 1 (ng_to_vec n) /\
  ng_to_vec (ng_pop_last n).1 = drop (length (ng_to_vec n) - 1) (ng_to_vec n).
Proof.
  split; [|by destruct n]. intros x. destruct n; cbn; split; intros H; try done; try lia.
Qed.

Lemma fields_one sep s : sep ∉ s -> fields_of sep s [s].
Proof. by constructor. Qed.
Lemma fields_two_inv sep s a b : fields_of sep s [a; b] -> s = a ++ sep :: b /\ sep ∉ a /\ sep ∉ b.
Proof.
  intros H. inversion H as [|f rest fs Hf H']; subst. inversion H' as [f2 Hf2|f2 r2 fs2 Hf2 H2]; subst; [done|]. inversion H2.
Qed.
Lemma decimal_no_sep max s n : decimal max s n -> 59%N ∉ s.
Proof.
  intros (ds & Hs & _ & Hd & _) Hin. assert (59%N ∈ ds) as H.
  { destruct Hs as [-> | ->]; [done|]. by apply elem_of_cons in Hin as [|]. }
  rewrite Forall_forall in Hd. specialize (Hd _ H). unfold digit in Hd. lia.
Qed.
Lemma existsb_sep s : existsb (N.eqb 59) s = true <-> 59%N ∈ s.
Proof.
  rewrite existsb_exists. split.
  - intros (x & Hx & E). apply N.eqb_eq in E as <-. by apply elem_of_list_In.
  - intros H. exists 59%N. split; [by apply elem_of_list_In|done].
Qed.

Lemma threshold_parse pf s t : threshold_from_str pf s = Some t <-> threshold_text pf s t.
Proof.
  unfold threshold_from_str. destruct (existsb (N.eqb 59) s) eqn:E.
  - apply existsb_sep in E. split.
    + pose proof (split_on_fields 59 s) as F. destruct (split_on 59 s) as [|a [|b [|]]] eqn:Es; try done.
      apply fields_two_inv in F as (-> & Ha & Hb).
      destruct (pf a) as [x|] eqn:Ex; [|done]. destruct (parse_u8 b) as [n|] eqn:En; [|done]. intros [= <-].
      apply tt_pair; try done. by apply parse_uint_spec.
    + inversion 1 as [s0 n D|s0 x H1|a b x n Ha Hb Hx D]; subst; [by apply decimal_no_sep in D|done|].
      assert (split_on 59 (a ++ 59%N :: b) = [a; b]) as ->.
      { symmetry. apply fields_det. constructor; [done|]. by constructor. }
      rewrite Hx. apply parse_uint_spec in D. unfold parse_u8. by rewrite D.
  - assert (59%N ∉ s) as E'. { intros H. apply existsb_sep in H. congruence. }
    split.
    + destruct (parse_u8 s) as [n|] eqn:En.
      * intros [= <-]. apply tt_absolute. by apply parse_uint_spec.
      * destruct (pf s) as [x|] eqn:Ex; [|done]. destruct (fge x f0 && fle x f32_1) eqn:Eb; [|done]. intros [= <-].
        apply andb_prop in Eb as [E1 E2]. apply tt_ratio; try done.
        intros n D. apply parse_uint_spec in D. unfold parse_u8 in En. congruence.
    + inversion 1 as [s0 n D|s0 x H1 H2 H3 H4 H5|a b x n Ha Hb Hx D]; subst.
      * apply parse_uint_spec in D. unfold parse_u8. by rewrite D.
      * destruct (parse_u8 s) as [n|] eqn:En; [by apply parse_uint_spec, H2 in En|]. rewrite H3.
        change (fge x f0) with (fle f0 x). rewrite H4, H5. done.
      * exfalso. apply E', elem_of_app. right. by constructor.
Qed.

(** ** The cache *)
Lemma visited_contains_true V v : visited_contains V v = true <-> v ∈ V.
Proof.
  unfold visited_contains. rewrite existsb_exists. split.
  - intros (x & Hx & E). apply N.eqb_eq in E as ->. by apply elem_of_list_In.
  - intros H. exists v. split; [by apply elem_of_list_In|]. apply N.eqb_refl.
Qed.
Lemma insert_nodup V v : NoDup V -> NoDup (visited_insert V v).
Proof.
  intros H. unfold visited_insert. destruct (visited_contains V v) eqn:E; [done|]. constructor; [|done].
  intros Hin. apply visited_contains_true in Hin. congruence.
Qed.
Definition again (s : rdstep) : option rditer := match s with RDone => None | RAgain it => Some it | RYield _ it => Some it end.
Lemma emit_nodup it node depth it' : NoDup (rd_visited it) -> again (rd_emit it node depth) = Some it' -> NoDup (rd_visited it').
Proof.
  intros H. unfold rd_emit. case_match; [by intros [= <-]|]. cbn. intros [= <-]. case_match; [|done]. cbn. by apply insert_nodup.
Qed.
Lemma step_nodup it s it' : NoDup (rd_visited it) -> rd_step it = Ok s -> again s = Some it' -> NoDup (rd_visited it').
Proof.
  intros H. unfold rd_step. destruct (rd_breadthfirst it).
  - unfold bfs_step. destruct (rd_queue it) as [|[node depth] q]; [by intros [= <-]|]. case_match; [by intros [= <-] [= <-]|].
    destruct (may_expand _ _).
    + destruct (deletions_from _ _) as [cs|]; [|done]. cbn. intros [= <-]. by apply emit_nodup.
    + cbn. intros [= <-]. by apply emit_nodup.
  - unfold dfs_step. destruct (rd_queue it) as [|[node depth] q]; [by intros [= <-]|].
    destruct (may_expand _ _); [|intros [= <-]; by apply emit_nodup]. case_match; [by intros [= <-] [= <-]|].
    destruct (rd_singlebeam _).
    + destruct (first_deletion_from _ _) as [oc|]; [|done]. cbn. intros [= <-]. apply emit_nodup. by destruct oc.
    + destruct (deletions_from _ _) as [cs|]; [|done]. cbn. intros [= <-]. by apply emit_nodup.
Qed.
Lemma run_nodup fuel : forall it l V, NoDup (rd_visited it) -> rd_run fuel it = Ok (l, V) -> NoDup V.
Proof.
  induction fuel as [|fuel IH]; intros it l V H; [done|]. cbn. destruct (rd_step it) as [s|] eqn:E; [|done]. cbn.
  pose proof (step_nodup it s) as St. destruct s as [|it'|item it']; [by intros [= _ <-]| |].
  - intros Hr. eapply IH; [|exact Hr]. by apply St.
  - destruct (rd_run fuel it') as [[l' V']|] eqn:Er; [|done]. cbn. intros [= _ <-]. eapply IH; [|exact Er]. by apply St.
Qed.
Lemma history_ok mx c : cache_history mx c -> NoDup (ca_visited c) /\ ca_max_size c = mx.
Proof.
  induction 1 as [|c H [IH1 IH2]|c H [IH1 IH2]|c value asz p fuel l V H [IH1 IH2] Hr]; cbn.
  - split; [constructor|done].
  - split; [constructor|done].
  - unfold cache_check. case_match; [|done]. split; [constructor|done].
  - split; [|done]. by eapply run_nodup; [|exact Hr].
Qed.
Lemma checked mx c : cache_history mx c ->
  (0 < mx -> length (ca_visited (cache_check c)) <= mx) /\
  (ca_visited (cache_check c) = ca_visited c \/ ca_visited (cache_check c) = []) /\
  (mx = 0 \/ length (ca_visited c) <= mx -> cache_check c = c).
Proof.
  intros H. destruct (history_ok _ _ H) as [_ E]. unfold cache_check. rewrite E.
  destruct (Nat.ltb_spec 0 mx); destruct (Nat.ltb_spec mx (length (ca_visited c))); cbn; repeat split; auto; lia.
Qed.
