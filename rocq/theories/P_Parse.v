(** Parsing of context patterns. *)
From Coq Require Import Lia ZifyNat ZifyN.
From Verif Require Import M_Base M_Anahash M_Float M_Types M_Model M_Confusable M_Rules S_Rules P_Base P_Anahash P_Utf8 P_Text P_Rules.
From stdpp Require Import options.

(** * Trimming *)
Section trim.
  Context (ws : N -> bool).
  #[local] Set Default Proof Using "Type".
  Definition trim_end (s : str) : str := reverse (trim_start ws (reverse s)).
  Lemma trim_unfold s : trim ws s = trim_end (trim_start ws s).
  Proof. done. Qed.
  Lemma trim_start_length s : length (trim_start ws s) <= length s.
  Proof. induction s as [|c s IH]; cbn; [lia|]. destruct (ws c); cbn; lia. Qed.
  Lemma trim_end_length s : length (trim_end s) <= length s.
  Proof. unfold trim_end. rewrite reverse_length. pose proof (trim_start_length (reverse s)). rewrite reverse_length in *. lia. Qed.
  Lemma trim_length s : length (trim ws s) <= length s.
  Proof. rewrite trim_unfold. pose proof (trim_end_length (trim_start ws s)). pose proof (trim_start_length s). lia. Qed.
  Lemma trim_start_app_ws l s : Forall (fun c => ws c = true) l -> trim_start ws (l ++ s) = trim_start ws s.
  Proof. induction 1 as [|c l Hc Hl IH]; [done|]. cbn. by rewrite Hc. Qed.
  Lemma trim_start_all l : Forall (fun c => ws c = true) l -> trim_start ws l = [].
  Proof. intros H. rewrite <- (app_nil_r l). by rewrite trim_start_app_ws. Qed.
  Lemma trim_start_stop s c r : ws c = false -> trim_start ws (s ++ c :: r) = trim_start ws s ++ c :: r.
  Proof. intros Hc. induction s as [|d s IH]; cbn; [by rewrite Hc|]. by destruct (ws d). Qed.
  Lemma trim_end_stop s c r : ws c = false -> trim_end (r ++ c :: s) = r ++ c :: trim_end s.
  Proof.
    intros Hc. unfold trim_end. rewrite reverse_app, reverse_cons, <- app_assoc. cbn.
    rewrite trim_start_stop by done. rewrite reverse_app, reverse_cons, <- app_assoc, reverse_involutive. done.
  Qed.
  Lemma trim_end_app_ws s r : Forall (fun c => ws c = true) r -> trim_end (s ++ r) = trim_end s.
  Proof. intros H. unfold trim_end. rewrite reverse_app, trim_start_app_ws; [done|]. by apply Forall_reverse. Qed.
  (** either all white space, or a first other character *)
  Lemma split_ws s : Forall (fun c => ws c = true) s \/
    exists l c r, s = l ++ c :: r /\ Forall (fun c => ws c = true) l /\ ws c = false.
  Proof.
    induction s as [|c s IH]; [by left|]. destruct (ws c) eqn:Hc.
    - destruct IH as [H|(l & d & r & -> & Hl & Hd)]; [left; by constructor|].
      right. exists (c :: l), d, r. split; [done|]. split; [by constructor|done].
    - right. exists [], c, s. done.
  Qed.
  Lemma trim_start_spec s : trim_start ws s = [] \/ exists l c r, s = l ++ c :: r /\ Forall (fun c => ws c = true) l /\
    ws c = false /\ trim_start ws s = c :: r.
  Proof.
    destruct (split_ws s) as [H|(l & c & r & -> & Hl & Hc)]; [left; by apply trim_start_all|].
    right. exists l, c, r. split; [done|]. split; [done|]. split; [done|]. rewrite trim_start_app_ws by done. cbn. by rewrite Hc.
  Qed.
  Lemma trim_pad l s r : Forall (fun c => ws c = true) l -> Forall (fun c => ws c = true) r -> trim ws (l ++ s ++ r) = trim ws s.
  Proof.
    intros Hl Hr. rewrite !trim_unfold, trim_start_app_ws by done.
    destruct (split_ws s) as [H|(l' & c & t & -> & Hl' & Hc)].
    - rewrite !trim_start_all; [done|done|]. by apply Forall_app.
    - rewrite <- app_assoc, (trim_start_app_ws l' ((c :: t) ++ r)), (trim_start_app_ws l' (c :: t)) by done.
      cbn [trim_start app]. rewrite Hc.
      change (c :: t ++ r) with ((c :: t) ++ r). by rewrite trim_end_app_ws.
  Qed.
  Lemma trim_start_fixed s : (forall c, head s = Some c -> ws c = false) -> trim_start ws s = s.
  Proof. destruct s as [|c s]; [done|]. intros H. cbn. by rewrite (H c eq_refl). Qed.
  Lemma trim_fixed s : trimmed ws s -> trim ws s = s.
  Proof.
    intros [Hh Hl]. rewrite trim_unfold, (trim_start_fixed s) by done. unfold trim_end.
    rewrite trim_start_fixed; [apply reverse_involutive|]. intros c H. apply Hl. by rewrite head_reverse in H.
  Qed.
  Lemma trim_head c s : ws c = false -> trim ws (c :: s) = c :: trim_end s.
  Proof. intros Hc. rewrite trim_unfold. cbn. rewrite Hc. apply (trim_end_stop s c []). done. Qed.
  Lemma trim_end_trim s : trim ws (trim_end s) = trim ws s.
  Proof.
    unfold trim_end. destruct (split_ws (reverse s)) as [H|(l & c & r & E & Hl & Hc)].
    - rewrite (trim_start_all (reverse s) H). apply Forall_reverse in H. rewrite reverse_involutive in H.
      rewrite (trim_unfold s). by rewrite (trim_start_all s H).
    - rewrite E, trim_start_app_ws by done. cbn [trim_start]. rewrite Hc. apply (f_equal reverse) in E. rewrite reverse_involutive in E.
      rewrite reverse_app, reverse_cons in E. rewrite E. rewrite reverse_cons.
      pose proof (trim_pad [] (reverse r ++ [c]) (reverse l)) as P. cbn [app] in P. rewrite P; [done|constructor|]. by apply Forall_reverse.
  Qed.
  Lemma trim_start_trim s : trim ws (trim_start ws s) = trim ws s.
  Proof.
    destruct (trim_start_spec s) as [E|(l & c & r & -> & Hl & Hc & E)].
    - rewrite E. rewrite (trim_unfold s), E. done.
    - rewrite E. pose proof (trim_pad l (c :: r) []) as P. rewrite app_nil_r in P. rewrite P; [done|done|constructor].
  Qed.
  Lemma trim_idem s : trim ws (trim ws s) = trim ws s.
  Proof. rewrite (trim_unfold s), trim_end_trim, trim_start_trim. by rewrite trim_unfold. Qed.
  Lemma trim_nonempty s c : c ∈ s -> ws c = false -> trim ws s <> [].
  Proof.
    intros Hin Hc E. apply elem_of_list_split in Hin as (a & b & ->).
    rewrite trim_unfold, trim_start_stop, trim_end_stop in E by done. by destruct (trim_start ws a).
  Qed.
  Lemma trim_start_elem s c : c ∈ trim_start ws s -> c ∈ s.
  Proof. induction s as [|d s IH]; cbn; [done|]. destruct (ws d); [|done]. intros H. right. by apply IH. Qed.
  Lemma trim_elem s c : c ∈ trim ws s -> c ∈ s.
  Proof. unfold trim. rewrite elem_of_reverse. intros H. apply trim_start_elem in H. rewrite elem_of_reverse in H. by apply trim_start_elem. Qed.
End trim.

(** * Splitting *)
Lemma split_on_none sep s : sep ∉ s -> split_on sep s = [s].
Proof.
  induction s as [|c s IH]; intros H; [done|]. cbn. destruct (N.eqb_spec c sep) as [->|]; [by destruct H; left|].
  rewrite IH; [done|]. intros H'. apply H. by right.
Qed.
Lemma split_on_nonempty sep s : split_on sep s <> [].
Proof. destruct s as [|c s]; [done|]. cbn. destruct (c =? sep)%N; [done|]. by destruct (split_on sep s). Qed.
Lemma split_on_cons sep s r : sep ∉ s -> split_on sep (s ++ sep :: r) = s :: split_on sep r.
Proof.
  induction s as [|c s IH]; intros H; cbn; [by rewrite N.eqb_refl|].
  destruct (N.eqb_spec c sep) as [->|]; [by destruct H; left|]. rewrite IH; [done|]. intros H'. apply H. by right.
Qed.
Lemma split_on_length sep s x : x ∈ split_on sep s -> length x <= length s /\ (sep ∈ s -> length x < length s).
Proof.
  revert x. induction s as [|c s IH]; intros x; cbn.
  - intros H. apply elem_of_list_singleton in H as ->. cbn. split; [lia|]. intros H. inversion H.
  - destruct (N.eqb_spec c sep) as [->|Hc].
    + intros H. apply elem_of_cons in H as [->|H]; [cbn; lia|]. apply IH in H. lia.
    + destruct (split_on sep s) as [|w l] eqn:E; [by destruct (split_on_nonempty sep s)|].
      intros H. apply elem_of_cons in H as [->|H].
      * destruct (IH w) as [L1 L2]; [left|]. cbn. split; [lia|]. intros H. apply elem_of_cons in H as [->|H]; [done|].
        apply L2 in H. lia.
      * destruct (IH x) as [L1 L2]; [by right|]. split; [lia|]. lia.
Qed.
Lemma split_bars ss : ss <> [] -> Forall (fun s => 124%N ∉ s) ss -> split_on 124 (bars ss) = ss.
Proof.
  intros Hne H. induction H as [|s ss Hs H IH]; [done|]. destruct ss as [|s' ss].
  - cbn. by apply split_on_none.
  - change (bars (s :: s' :: ss)) with (s ++ 124%N :: bars (s' :: ss)). rewrite split_on_cons by done. by rewrite IH.
Qed.
Lemma bars_snoc ss s : ss <> [] -> bars (ss ++ [s]) = bars ss ++ 124%N :: s.
Proof.
  intros Hne. induction ss as [|x ss IH]; [done|]. destruct ss as [|y ss]; [done|].
  change (bars ((x :: y :: ss) ++ [s])) with (x ++ 124%N :: bars ((y :: ss) ++ [s])). rewrite IH by done.
  change (bars (x :: y :: ss)) with (x ++ 124%N :: bars (y :: ss)). by rewrite <- app_assoc.
Qed.

Section parse.
  Context (ws : N -> bool) (lexicons : list str) (encoder : gmap str vocab_id).
  #[local] Set Default Proof Using "Type".
  Notation parse := (pm_parse ws lexicons encoder).
  (** the recursion on items *)
  Definition parse_items (fuel : nat) : list str -> res (option (list pattern_match)) :=
    fix items (l : list str) : res (option (list pattern_match)) :=
      match l with
      | [] => Ok (Some [])
      | x :: l' =>
          let* p := parse fuel x in
          match p with
          | None => Ok None
          | Some p => let* ps := items l' in Ok (option_map (cons p) ps)
          end
      end.
  Lemma parse_unfold fuel s : parse (S fuel) s =
    let s := trim ws s in
    if bool_decide (s = [63%N]) then Ok (Some PAny)
    else if bool_decide (s = [94%N]) then Ok (Some PNoLexicon)
    else if is_prefix [33; 40]%N s && is_suffix [41%N] s then
      let* p := parse fuel (drop 2 (take (length s - 1) s)) in Ok (option_map PNot p)
    else if bool_decide (124%N ∈ s) then
      let* ps := parse_items fuel (split_on 124 s) in Ok (option_map PDisjunction ps)
    else if is_prefix [33%N] s then
      let* p := parse fuel (drop 1 s) in Ok (option_map PNot p)
    else if is_prefix [64%N] s then
      Ok (option_map (fun i => PFromLexicon (N.of_nat (as_u8 i))) (find_lexicon lexicons (drop 1 s) 0))
    else Ok (option_map PVocab (encoder !! s)).
  Proof. reflexivity. Qed.
  Lemma parse_trim fuel s s' : trim ws s = trim ws s' -> parse fuel s = parse fuel s'.
  Proof. destruct fuel as [|fuel]; [done|]. rewrite !parse_unfold. cbv zeta. by intros ->. Qed.

  (** parsing always ends, and does not panic *)
  Lemma parse_items_ok fuel l : (forall x, x ∈ l -> exists o, parse fuel x = Ok o) -> exists o, parse_items fuel l = Ok o.
  Proof.
    induction l as [|x l IH]; intros H; cbn; [by eexists|]. destruct (H x) as [o ->]; [left|]. cbn [rbind].
    destruct o as [p|]; [|by eexists]. destruct IH as [o ->]; [intros y Hy; apply H; by right|]. cbn. by eexists.
  Qed.
  Lemma parse_total fuel : forall s, length s < fuel -> exists o, parse fuel s = Ok o.
  Proof.
    induction fuel as [|fuel IH]; intros s L; [lia|]. rewrite parse_unfold. cbv zeta.
    pose proof (trim_length ws s) as Lt. set (t := trim ws s) in *. clearbody t.
    destruct (bool_decide (t = [63%N])); [by eexists|]. destruct (bool_decide (t = [94%N])); [by eexists|].
    destruct (is_prefix [33; 40]%N t && is_suffix [41%N] t) eqn:Ep.
    { apply andb_true_iff in Ep as [Ep _]. apply is_prefix_spec in Ep as [r ->].
      destruct (IH (drop 2 (take (length ([33; 40]%N ++ r) - 1) ([33; 40]%N ++ r)))) as [o ->].
      { rewrite drop_length, take_length. cbn in Lt |- *. lia. }
      cbn. by eexists. }
    destruct (bool_decide (124%N ∈ t)) eqn:Eb.
    { apply bool_decide_eq_true in Eb. destruct (parse_items_ok fuel (split_on 124 t)) as [o ->].
      { intros x Hx. apply IH. apply split_on_length in Hx as [_ Hx]. specialize (Hx Eb). lia. }
      cbn. by eexists. }
    destruct (is_prefix [33%N] t) eqn:Eq.
    { apply is_prefix_spec in Eq as [r ->]. destruct (IH (drop 1 ([33%N] ++ r))) as [o ->].
      { cbn in Lt |- *. rewrite drop_0. lia. }
      cbn. by eexists. }
    destruct (is_prefix [64%N] t); by eexists.
  Qed.
  (** more fuel does not change the result *)
  Lemma parse_items_mono f f' l : (forall x, x ∈ l -> parse f x = parse f' x) -> parse_items f l = parse_items f' l.
  Proof.
    induction l as [|x l IH]; intros H; [done|]. cbn. rewrite (H x) by left. rewrite IH; [done|]. intros y Hy. apply H. by right.
  Qed.
  Lemma parse_fuel f : forall f' s, length s < f -> length s < f' -> parse f s = parse f' s.
  Proof.
    induction f as [|f IH]; intros f' s L L'; [lia|]. destruct f' as [|f']; [lia|]. rewrite !parse_unfold. cbv zeta.
    pose proof (trim_length ws s) as Lt. set (t := trim ws s) in *. clearbody t.
    destruct (bool_decide (t = [63%N])); [done|]. destruct (bool_decide (t = [94%N])); [done|].
    destruct (is_prefix [33; 40]%N t && is_suffix [41%N] t) eqn:Ep.
    { apply andb_true_iff in Ep as [Ep _]. apply is_prefix_spec in Ep as [r ->].
      rewrite (IH f'); [done| |]; rewrite drop_length, take_length; cbn in Lt |- *; lia. }
    destruct (bool_decide (124%N ∈ t)) eqn:Eb.
    { apply bool_decide_eq_true in Eb. rewrite (parse_items_mono f f'); [done|].
      intros x Hx. apply split_on_length in Hx as [_ Hx]. specialize (Hx Eb). apply IH; lia. }
    destruct (is_prefix [33%N] t) eqn:Eq; [|done].
    apply is_prefix_spec in Eq as [r ->]. rewrite (IH f'); [done| |]; cbn in Lt |- *; rewrite drop_0; lia.
  Qed.

  (** what is accepted speaks about known things only *)
  Lemma find_lexicon_range l : forall source i j, find_lexicon l source i = Some j -> i <= j < i + length l.
  Proof.
    induction l as [|x l IH]; intros source i j; cbn; [done|].
    destruct (bool_decide (source = x) || _); [intros [= <-]; lia|]. intros H. apply IH in H. lia.
  Qed.
  Lemma known_disj ps : known lexicons encoder (PDisjunction ps) <-> Forall (known lexicons encoder) ps.
  Proof. cbn [known]. induction ps as [|p ps IH]; [split; [constructor|done]|]. rewrite Forall_cons, IH. done. Qed.
  Lemma parse_known fuel : forall s p, parse fuel s = Ok (Some p) -> known lexicons encoder p.
  Proof.
    induction fuel as [|fuel IH]; intros s p; [done|]. rewrite parse_unfold. cbv zeta. set (t := trim ws s). clearbody t.
    destruct (bool_decide (t = [63%N])); [by intros [= <-]|]. destruct (bool_decide (t = [94%N])); [by intros [= <-]|].
    destruct (is_prefix [33; 40]%N t && is_suffix [41%N] t).
    { destruct (parse fuel _) as [[q|]|] eqn:E; cbn; [|done|done]. intros [= <-]. cbn. by eapply IH. }
    destruct (bool_decide (124%N ∈ t)).
    { assert (forall l ps, parse_items fuel l = Ok (Some ps) -> Forall (known lexicons encoder) ps) as Hi.
      { induction l as [|x l IHl]; intros ps; cbn; [by intros [= <-]|].
        destruct (parse fuel x) as [[q|]|] eqn:E; cbn; [|done|done].
        destruct (parse_items fuel l) as [[qs|]|] eqn:El; cbn; [|done|done]. intros [= <-].
        constructor; [by eapply IH|by apply IHl]. }
      destruct (parse_items fuel _) as [[qs|]|] eqn:E; cbn [rbind option_map]; [|done|done]. intros [= <-].
      apply known_disj. by eapply Hi. }
    destruct (is_prefix [33%N] t).
    { destruct (parse fuel _) as [[q|]|] eqn:E; cbn; [|done|done]. intros [= <-]. cbn. by eapply IH. }
    destruct (is_prefix [64%N] t).
    - destruct (find_lexicon lexicons _ 0) as [j|] eqn:E; cbn; [|done]. intros [= <-]. cbn.
      exists j. split; [|done]. apply find_lexicon_range in E. lia.
    - destruct (encoder !! t) as [id|] eqn:E; cbn; [|done]. intros [= <-]. by exists t.
  Qed.

  (** * Written patterns *)
  Context (Hws : forall c, c ∈ [33; 40; 41; 63; 64; 94; 124]%N -> ws c = false).
  #[local] Set Default Proof Using "Type Hws".
  Lemma ws_special c : c ∈ [33; 40; 41; 63; 64; 94; 124]%N -> ws c = false.
  Proof. apply Hws. Qed.
  Lemma item_shape p s : item ws lexicons encoder p s ->
    124%N ∉ s /\ (exists c, c ∈ s /\ ws c = false) /\ head s <> Some 40%N /\
    exists c t, trim_start ws s = c :: t /\ c <> 40%N /\ (c = 33%N -> exists d t', t = d :: t' /\ d <> 40%N).
  Proof.
    induction 1 as [| |id w Hw E|i name Ht Hn Hl|p s H (Hb & Hc & Hh & c & t & E & Hc1 & Hc2)|p s l r Hl Hr H (Hb & (c0 & Hin & Hc0) & Hh & c & t & E & Hc1 & Hc2)].
    - split; [set_solver|]. split; [exists 63%N; split; [left|apply ws_special; set_solver]|]. split; [done|].
      exists 63%N, []. cbn. rewrite ws_special by set_solver. done.
    - split; [set_solver|]. split; [exists 94%N; split; [left|apply ws_special; set_solver]|]. split; [done|].
      exists 94%N, []. cbn. rewrite ws_special by set_solver. done.
    - destruct Hw as ((Hh & _) & Hb & Hne & Hs). destruct w as [|c w]; [done|]. pose proof (Hh c eq_refl) as Hc.
      specialize (Hs c eq_refl). split; [done|]. split; [exists c; split; [left|done]|].
      split; [cbn; intros [= ->]; apply Hs; set_solver|]. exists c, w. cbn. rewrite Hc. split; [done|].
      split; intros ->; exfalso; apply Hs; set_solver.
    - split; [set_solver|]. split; [exists 64%N; split; [left|apply ws_special; set_solver]|]. split; [done|].
      exists 64%N, name. cbn. rewrite ws_special by set_solver. done.
    - split; [set_solver|]. split; [exists 33%N; split; [left|apply ws_special; set_solver]|]. split; [done|].
      exists 33%N, s. cbn. rewrite ws_special by set_solver. split; [done|]. split; [done|]. intros _.
      destruct s as [|d s]; [by destruct Hc as (? & Hin & _); inversion Hin|]. exists d, s. split; [done|]. cbn in Hh. congruence.
    - split.
      { rewrite !elem_of_app. rewrite Forall_forall in Hl, Hr. intros [H'|[H'|H']]; [apply Hl in H'|done|apply Hr in H'];
          rewrite ws_special in H' by set_solver; done. }
      split; [exists c0; split; [set_solver|done]|]. split.
      { destruct l as [|d l].
        - cbn. destruct s; [by inversion Hin|]. done.
        - cbn. intros [= ->]. inversion Hl as [|? ? Hd]. rewrite ws_special in Hd by set_solver. done. }
      rewrite trim_start_app_ws by done.
      destruct (trim_start_spec ws s) as [E'|(l' & c' & t' & -> & Hl' & Hc' & E')]; [congruence|].
      rewrite E in E'. injection E' as <- <-. exists c, (t ++ r).
      rewrite <- app_assoc, trim_start_app_ws by done. cbn. rewrite Hc'. split; [done|]. split; [done|].
      intros Hc3. destruct (Hc2 Hc3) as (d & t' & -> & Hd). by exists d, (t' ++ r).
  Qed.
  Lemma is_prefix_2 a b (s : str) : is_prefix [a; b] s = true -> exists r, s = a :: b :: r.
  Proof. intros H. apply is_prefix_spec in H as [r ->]. by exists r. Qed.
  Lemma not_negated c t r : (c = 33%N -> exists d t', t = d :: t' /\ d <> 40%N) -> is_prefix [33; 40]%N ((c :: t) ++ r) = false.
  Proof.
    intros H. destruct (is_prefix [33; 40]%N ((c :: t) ++ r)) eqn:E; [|done]. apply is_prefix_2 in E as [r' E].
    cbn in E. injection E as -> E. destruct (H eq_refl) as (d & t' & -> & Hd). cbn in E. by injection E as -> _.
  Qed.
  Lemma find_lexicon_names name : forall l i j,
    (exists x, l !! j = Some x /\ (x = name \/ (47%N :: name) `suffix_of` x)) ->
    (forall k x, k < j -> l !! k = Some x -> x <> name /\ ~ (47%N :: name) `suffix_of` x) ->
    find_lexicon l name i = Some (i + j).
  Proof.
    induction l as [|x l IH]; intros i j (y & E & Hy) Hn; [done|]. cbn [find_lexicon]. destruct j as [|j].
    - cbn in E. injection E as <-. rewrite Nat.add_0_r.
      destruct (bool_decide (name = x)) eqn:B; [done|]. apply bool_decide_eq_false in B. cbn [orb].
      destruct Hy as [->|Hy]; [done|]. apply is_suffix_spec in Hy. by rewrite Hy.
    - destruct (Hn 0 x ltac:(lia) eq_refl) as [H1 H2]. rewrite bool_decide_eq_false_2 by (by intros ->). cbn [orb].
      destruct (is_suffix (47%N :: name) x) eqn:Es; [apply is_suffix_spec in Es; done|].
      rewrite (IH (S i) j); [f_equal; lia|by exists y|]. intros k z Hk Hz. apply (Hn (S k) z); [lia|done].
  Qed.
  Lemma parse_item p s : item ws lexicons encoder p s -> forall fuel, length s < fuel -> parse fuel s = Ok (Some p).
  Proof.
    induction 1 as [| |id w Hw E|i name Ht Hn Hl|p s H IH|p s l r Hl Hr H IH]; intros fuel L; (destruct fuel as [|fuel]; [lia|]).
    - rewrite parse_unfold. cbv zeta. rewrite trim_fixed; [done|]. split; cbn; intros c [= <-]; apply ws_special; set_solver.
    - rewrite parse_unfold. cbv zeta. rewrite trim_fixed; [done|]. split; cbn; intros c [= <-]; apply ws_special; set_solver.
    - rewrite parse_unfold. cbv zeta. destruct Hw as (Ht & Hb & Hne & Hs). rewrite (trim_fixed ws w Ht).
      destruct w as [|c w]; [done|]. specialize (Hs c eq_refl).
      rewrite bool_decide_eq_false_2 by (intros [= -> ->]; apply Hs; set_solver).
      rewrite bool_decide_eq_false_2 by (intros [= -> ->]; apply Hs; set_solver).
      assert (is_prefix [33%N] (c :: w) = false) as P1.
      { destruct (is_prefix [33%N] (c :: w)) eqn:P; [|done]. apply is_prefix_spec in P as [r [= -> _]]. destruct Hs. set_solver. }
      assert (is_prefix [33; 40]%N (c :: w) = false) as P2.
      { destruct (is_prefix [33; 40]%N (c :: w)) eqn:P; [|done]. apply is_prefix_spec in P as [r [= -> _]]. destruct Hs. set_solver. }
      assert (is_prefix [64%N] (c :: w) = false) as P3.
      { destruct (is_prefix [64%N] (c :: w)) eqn:P; [|done]. apply is_prefix_spec in P as [r [= -> _]]. destruct Hs. set_solver. }
      rewrite P2. cbn [andb]. rewrite bool_decide_eq_false_2 by done. rewrite P1, P3, E. done.
    - rewrite parse_unfold. cbv zeta. rewrite (trim_fixed ws _ Ht).
      rewrite bool_decide_eq_false_2 by done. rewrite bool_decide_eq_false_2 by done.
      change (is_prefix [33; 40]%N (64%N :: name)) with false. cbn [andb].
      rewrite bool_decide_eq_false_2 by set_solver.
      change (is_prefix [33%N] (64%N :: name)) with false. change (is_prefix [64%N] (64%N :: name)) with true. cbv iota.
      cbn [drop]. rewrite drop_0. destruct Hl as [H1 H2]. rewrite (find_lexicon_names name lexicons 0 i H1 H2). done.
    - rewrite parse_unfold. cbv zeta. cbn in L. destruct (item_shape p s H) as (Hb & (c & Hin & Hc) & Hh & _).
      rewrite trim_head by (apply ws_special; set_solver).
      assert (trim_end ws s <> []) as Hne.
      { intros E0. apply (trim_nonempty ws s c Hin Hc). rewrite <- trim_end_trim, E0. done. }
      assert (124%N ∉ trim_end ws s) as Hb'.
      { unfold trim_end. rewrite elem_of_reverse. intros H'. apply trim_start_elem in H'. by rewrite elem_of_reverse in H'. }
      assert (is_prefix [33; 40]%N (33%N :: trim_end ws s) = false) as P.
      { destruct (is_prefix [33; 40]%N (33%N :: trim_end ws s)) eqn:P; [|done]. apply is_prefix_2 in P as [r [= P]].
        exfalso. apply Hh. destruct (split_ws ws (reverse s)) as [Hall|(a & d & b & E & Ha & Hd)].
        - apply Forall_reverse in Hall. rewrite reverse_involutive in Hall. rewrite Forall_forall in Hall.
          rewrite (Hall c Hin) in Hc. done.
        - unfold trim_end in P. rewrite E, trim_start_app_ws in P by done. cbn [trim_start] in P. rewrite Hd in P.
          apply (f_equal reverse) in E. rewrite reverse_involutive, reverse_app in E. rewrite E, P. done. }
      rewrite bool_decide_eq_false_2 by done. rewrite bool_decide_eq_false_2 by done. rewrite P. cbn [andb].
      rewrite bool_decide_eq_false_2 by set_solver. change (is_prefix [33%N] (33%N :: trim_end ws s)) with true. cbv iota.
      cbn [drop]. rewrite drop_0. rewrite (parse_trim fuel _ s) by apply trim_end_trim. rewrite IH by lia. done.
    - rewrite (parse_trim (S fuel) _ s) by (by apply trim_pad). apply IH. rewrite !app_length in L. lia.
  Qed.
  Lemma parse_items_written fuel ps : forall ss ss', Forall2 (item ws lexicons encoder) ps ss ->
    Forall2 (fun x y => trim ws x = trim ws y) ss' ss -> Forall (fun s => length s < fuel) ss ->
    parse_items fuel ss' = Ok (Some ps).
  Proof.
    induction ps as [|p ps IH]; intros ss ss' H H' L; inversion H as [|? s ? ss0 Hi Hr]; subst;
      inversion H' as [|s' ? ss1 ? Ht Hr']; subst; [done|]. inversion L; subst.
    cbn. rewrite (parse_trim fuel s' s Ht), (parse_item p s Hi) by done. cbn [rbind].
    rewrite (IH ss0 ss1 Hr Hr') by done. done.
  Qed.
  Lemma bars_length ss s : s ∈ ss -> length s <= length (bars ss) /\ (2 <= length ss -> length s < length (bars ss)).
  Proof.
    induction ss as [|x ss IH]; intros H; [inversion H|]. destruct ss as [|y ss].
    - apply elem_of_list_singleton in H as ->. cbn. lia.
    - change (bars (x :: y :: ss)) with (x ++ 124%N :: bars (y :: ss)). rewrite app_length. cbn [length].
      apply elem_of_cons in H as [->|H]; [lia|]. apply IH in H. lia.
  Qed.
  Lemma written_or ps ss fuel : 2 <= length ps -> Forall2 (item ws lexicons encoder) ps ss -> length (bars ss) < S fuel ->
    parse (S fuel) (bars ss) = Ok (Some (PDisjunction ps)).
  Proof.
    intros Hlen H L. pose proof (Forall2_length _ _ _ H) as Hl.
    assert (Forall (fun s => 124%N ∉ s) ss) as Hb.
    { rewrite Forall_forall. intros s Hs. apply elem_of_list_lookup in Hs as [i Hi].
      destruct (Forall2_lookup_r _ _ _ _ _ H Hi) as (p & _ & Hp). by apply item_shape in Hp as [? _]. }
    assert (exists x mid y, ss = x :: mid ++ [y]) as (x & mid & y & ->).
    { destruct ss as [|x ss]; [cbn in Hl; lia|]. destruct ss as [|x' ss]; [cbn in Hl; lia|].
      destruct (exists_last (l := x' :: ss) ltac:(done)) as (mid & y & ->). by exists x, mid, y. }
    rewrite parse_unfold. cbv zeta.
    assert (ws 124%N = false) as Hbar by (apply ws_special; set_solver).
    assert (trim ws (bars (x :: mid ++ [y])) = bars (trim_start ws x :: mid ++ [trim_end ws y])) as Et.
    { change (x :: mid ++ [y]) with ((x :: mid) ++ [y]).
      change (trim_start ws x :: mid ++ [trim_end ws y]) with ((trim_start ws x :: mid) ++ [trim_end ws y]).
      rewrite !bars_snoc by done. rewrite trim_unfold.
      assert (exists r, bars (x :: mid) = x ++ r /\ bars (trim_start ws x :: mid) = trim_start ws x ++ r /\ (r = [] \/ exists r', r = 124%N :: r')) as (r & -> & -> & Hr).
      { destruct mid as [|m mid]; [exists []; cbn; rewrite !app_nil_r; by split; [|split; [|left]]|].
        exists (124%N :: bars (m :: mid)). split; [done|]. split; [done|]. right. by eexists. }
      rewrite <- !app_assoc. destruct Hr as [->|[r' ->]]; cbn [app].
      - rewrite trim_start_stop, trim_end_stop by done. done.
      - rewrite trim_start_stop by done. change (124%N :: r' ++ 124%N :: y) with ((124%N :: r') ++ 124%N :: y).
        rewrite app_assoc, trim_end_stop, <- app_assoc by done. done. }
    rewrite Et.
    assert (124%N ∈ bars (trim_start ws x :: mid ++ [trim_end ws y])) as Hin.
    { change (trim_start ws x :: mid ++ [trim_end ws y]) with ((trim_start ws x :: mid) ++ [trim_end ws y]).
      rewrite bars_snoc by done. apply elem_of_app. right. left. }
    rewrite bool_decide_eq_false_2 by (intros E0; rewrite E0 in Hin; set_solver).
    rewrite bool_decide_eq_false_2 by (intros E0; rewrite E0 in Hin; set_solver).
    assert (is_prefix [33; 40]%N (bars (trim_start ws x :: mid ++ [trim_end ws y])) = false) as P.
    { inversion H as [|p0 ? ps0 ? Hp0 Hr0]; subst. destruct (item_shape p0 x Hp0) as (_ & _ & _ & c & t & E & _ & Hc).
      assert (exists r, bars (trim_start ws x :: mid ++ [trim_end ws y]) = trim_start ws x ++ r) as [r ->].
      { destruct mid as [|m mid]; by eexists. }
      rewrite E. by apply not_negated. }
    rewrite P. cbn [andb]. rewrite bool_decide_eq_true_2 by done.
    assert (Forall (fun s => 124%N ∉ s) (trim_start ws x :: mid ++ [trim_end ws y])) as Hb'.
    { inversion Hb as [|? ? Hx Hb0]; subst. apply Forall_app in Hb0 as [Hm Hy]. constructor.
      - intros H'. by apply trim_start_elem in H'.
      - apply Forall_app. split; [done|]. constructor; [|constructor]. inversion Hy as [|? ? Hy0]; subst.
        unfold trim_end. rewrite elem_of_reverse. intros H'. apply trim_start_elem in H'. by rewrite elem_of_reverse in H'. }
    rewrite split_bars by done.
    rewrite (parse_items_written fuel ps (x :: mid ++ [y])); [done|done| |].
    - constructor; [apply trim_start_trim|]. apply Forall2_app; [clear; induction mid; by constructor|].
      constructor; [apply trim_end_trim|constructor].
    - rewrite Forall_forall. intros s Hs. apply bars_length in Hs as [_ Hs].
      assert (2 <= length (x :: mid ++ [y])) as L2 by (rewrite <- Hl; done). specialize (Hs L2). lia.
  Qed.
  Lemma parse_written p s : writes ws lexicons encoder p s -> forall fuel, length s < fuel -> parse fuel s = Ok (Some p).
  Proof.
    induction 1 as [p s H|ps ss Hlen H|p s H IH|p s l r Hl Hr H IH]; intros fuel L.
    - by apply parse_item.
    - destruct fuel as [|fuel]; [lia|]. by apply written_or.
    - destruct fuel as [|fuel]; [lia|]. rewrite parse_unfold. cbv zeta.
      rewrite trim_fixed.
      2: { split; [cbn; intros c [= <-]; apply ws_special; set_solver|]. rewrite app_assoc, last_snoc.
           intros c [= <-]. apply ws_special. set_solver. }
      rewrite bool_decide_eq_false_2 by done. rewrite bool_decide_eq_false_2 by done.
      assert (is_prefix [33; 40]%N ([33; 40]%N ++ s ++ [41%N]) = true) as -> by (apply is_prefix_spec; by eexists).
      assert (is_suffix [41%N] ([33; 40]%N ++ s ++ [41%N]) = true) as ->.
      { apply is_suffix_spec. exists ([33; 40]%N ++ s). by rewrite <- app_assoc. }
      cbn [andb]. assert (drop 2 (take (length ([33; 40]%N ++ s ++ [41%N]) - 1) ([33; 40]%N ++ s ++ [41%N])) = s) as ->.
      { rewrite (app_assoc [33; 40]%N s [41%N]). rewrite take_app_alt by (rewrite !app_length; cbn; lia). done. }
      rewrite IH; [done|]. rewrite !app_length in L. cbn in L. lia.
    - rewrite (parse_trim fuel _ s) by (by apply trim_pad). apply IH. rewrite !app_length in L. lia.
  Qed.
End parse.

(** * What is accepted *)
Section accept.
  Context (ws : N -> bool) (lexicons : list str) (encoder : gmap str vocab_id).
  #[local] Set Default Proof Using "Type".
  Notation parse := (pm_parse ws lexicons encoder).
  Lemma trim_padding s : exists l r, s = l ++ trim ws s ++ r /\ Forall (fun c => ws c = true) l /\ Forall (fun c => ws c = true) r.
  Proof.
    assert (forall s, exists l, s = l ++ trim_start ws s /\ Forall (fun c => ws c = true) l) as H.
    { clear. intros s. destruct (split_ws ws s) as [H|(l & c & r & -> & Hl & Hc)].
      - exists s. rewrite trim_start_all by done. by rewrite app_nil_r.
      - exists l. rewrite trim_start_app_ws by done. cbn [trim_start]. by rewrite Hc. }
    destruct (H s) as (l & E & Hl). destruct (H (reverse (trim_start ws s))) as (r & E' & Hr).
    exists l, (reverse r). split; [|split; [done|by apply Forall_reverse]].
    rewrite E at 1. f_equal. apply (f_equal reverse) in E'. rewrite reverse_involutive, reverse_app in E'. exact E'.
  Qed.
  Lemma bars_split s : bars (split_on 124 s) = s.
  Proof.
    induction s as [|c s IH]; [done|]. cbn [split_on]. destruct (N.eqb_spec c 124) as [->|Hc].
    - destruct (split_on 124 s) as [|w l] eqn:E; [by destruct (split_on_nonempty 124 s)|].
      change (bars ([] :: w :: l)) with (124%N :: bars (w :: l)). by rewrite IH.
    - destruct (split_on 124 s) as [|w l] eqn:E; [by destruct (split_on_nonempty 124 s)|].
      destruct l as [|w' l].
      + cbn in IH |- *. by rewrite IH.
      + change (bars ((c :: w) :: w' :: l)) with (c :: bars (w :: w' :: l)). by rewrite IH.
  Qed.
  Lemma split_on_two s : 124%N ∈ s -> 2 <= length (split_on 124 s).
  Proof. clear ws lexicons encoder.
    induction s as [|c s IH]; intros H; [inversion H|]. cbn [split_on]. destruct (N.eqb_spec c 124) as [->|Hc].
    - destruct (split_on 124 s) eqn:E; [by destruct (split_on_nonempty 124 s)|]. cbn. lia.
    - apply elem_of_cons in H as [<-|H]; [done|]. specialize (IH H). destruct (split_on 124 s) as [|w l]; cbn in IH |- *; lia.
  Qed.
  Lemma find_lexicon_sound source : forall l i j, find_lexicon l source i = Some j -> i <= j /\ 
    (exists x, l !! (j - i) = Some x /\ (x = source \/ (47%N :: source) `suffix_of` x)) /\
    (forall k x, k < j - i -> l !! k = Some x -> x <> source /\ ~ (47%N :: source) `suffix_of` x).
  Proof.
    induction l as [|x l IH]; intros i j; cbn [find_lexicon]; [done|].
    destruct (bool_decide (source = x)) eqn:B; cbn [orb].
    - intros [= <-]. apply bool_decide_eq_true in B as <-. rewrite Nat.sub_diag. split; [done|].
      split; [exists source; cbn; by split; [|left]|]. intros k y H. lia.
    - apply bool_decide_eq_false in B. destruct (is_suffix (47%N :: source) x) eqn:Es.
      + intros [= <-]. apply is_suffix_spec in Es. rewrite Nat.sub_diag. split; [done|].
        split; [exists x; cbn; by split; [|right]|]. intros k y H. lia.
      + intros H. apply IH in H as (L & (y & Ey & Hy) & Hn). split; [lia|].
        assert (j - i = S (j - S i)) as -> by lia. split; [by exists y|].
        intros [|k] z Hk Ez; cbn in Ez.
        * injection Ez as <-. split; [congruence|]. intros Hs. apply is_suffix_spec in Hs. congruence.
        * apply (Hn k z); [lia|done].
  Qed.
  Lemma parse_denotes fuel : forall s p, parse fuel s = Ok (Some p) -> denotes ws lexicons encoder p s.
  Proof.
    induction fuel as [|fuel IH]; intros s p; [done|]. rewrite parse_unfold. cbv zeta.
    destruct (trim_padding s) as (l & r & E & Hl & Hr). intros H. rewrite E at 1. apply denotes_space; [done|done|].
    revert H. set (t := trim ws s) in *. clearbody t. clear E s.
    destruct (bool_decide (t = [63%N])) eqn:B1; [apply bool_decide_eq_true in B1 as ->; intros [= <-]; constructor|].
    destruct (bool_decide (t = [94%N])) eqn:B2; [apply bool_decide_eq_true in B2 as ->; intros [= <-]; constructor|].
    destruct (is_prefix [33; 40]%N t && is_suffix [41%N] t) eqn:Ep.
    { apply andb_true_iff in Ep as [Ep Es]. apply is_prefix_spec in Ep as [u ->]. apply is_suffix_spec in Es as [v Ev].
      assert (exists w, u = w ++ [41%N]) as [w ->].
      { destruct (decide (u = [])) as [->|Hu]; [rewrite app_nil_r in Ev|].
        - exfalso. apply (f_equal last) in Ev. rewrite last_snoc in Ev. done.
        - destruct (exists_last Hu) as (w & c & ->). exists w. rewrite app_assoc in Ev. by apply app_inj_tail in Ev as [_ ->]. }
      assert (drop 2 (take (length ([33; 40]%N ++ w ++ [41%N]) - 1) ([33; 40]%N ++ w ++ [41%N])) = w) as ->.
      { rewrite (app_assoc [33; 40]%N w [41%N]). rewrite take_app_alt by (rewrite !app_length; cbn; lia). done. }
      destruct (parse fuel w) as [[q|]|] eqn:E; cbn; [|done|done]. intros [= <-]. apply (denotes_group ws lexicons encoder q w). by apply IH. }
    destruct (bool_decide (124%N ∈ t)) eqn:Eb.
    { apply bool_decide_eq_true in Eb.
      assert (forall l ps, parse_items ws lexicons encoder fuel l = Ok (Some ps) -> Forall2 (denotes ws lexicons encoder) ps l) as Hi.
      { induction l0 as [|x l0 IHl]; intros ps; cbn; [intros [= <-]; constructor|].
        destruct (parse fuel x) as [[q|]|] eqn:E; cbn; [|done|done].
        destruct (parse_items ws lexicons encoder fuel l0) as [[qs|]|] eqn:El; cbn; [|done|done]. intros [= <-].
        constructor; [by eapply IH|by apply IHl]. }
      destruct (parse_items ws lexicons encoder fuel _) as [[qs|]|] eqn:E; cbn [rbind option_map]; [|done|done]. intros [= <-].
      apply Hi in E. rewrite <- (bars_split t). apply denotes_or; [|done]. rewrite (Forall2_length _ _ _ E). by apply split_on_two. }
    destruct (is_prefix [33%N] t) eqn:E1.
    { apply is_prefix_spec in E1 as [u ->]. cbn [app drop]. rewrite drop_0.
      destruct (parse fuel u) as [[q|]|] eqn:E; cbn; [|done|done]. intros [= <-]. apply denotes_not. by eapply IH. }
    destruct (is_prefix [64%N] t) eqn:E2.
    - apply is_prefix_spec in E2 as [u ->]. cbn [app drop]. rewrite drop_0.
      destruct (find_lexicon lexicons u 0) as [j|] eqn:E; cbn [option_map]; [|done]. intros [= <-].
      apply denotes_lexicon. apply find_lexicon_sound in E as (_ & H1 & H2). rewrite Nat.sub_0_r in H1, H2. done.
    - destruct (encoder !! t) as [id|] eqn:E; cbn; [|done]. intros [= <-]. by apply denotes_word.
  Qed.
End accept.

(** * Loading rules *)
Lemma split_semis ss : ss <> [] -> Forall (fun s => 59%N ∉ s) ss -> split_on 59 (semis ss) = ss.
Proof.
  intros Hne H. induction H as [|s ss Hs H IH]; [done|]. destruct ss as [|s' ss].
  - cbn. by apply split_on_none.
  - change (semis (s :: s' :: ss)) with (s ++ 59%N :: semis (s' :: ss)). rewrite split_on_cons by done. by rewrite IH.
Qed.
Lemma find_tag_spec tag : forall tags i, match find_tag tags tag i with
  | Some j => i <= j /\ tags !! (j - i) = Some tag
  | None => tag ∉ tags
  end.
Proof.
  induction tags as [|t tags IH]; intros i; cbn; [intros H; inversion H|].
  destruct (bool_decide (t = tag)) eqn:B.
  - apply bool_decide_eq_true in B as ->. rewrite Nat.sub_diag. done.
  - apply bool_decide_eq_false in B. specialize (IH (S i)). destruct (find_tag tags tag (S i)) as [j|].
    + destruct IH as [L E]. split; [lia|]. assert (j - i = S (j - S i)) as -> by lia. exact E.
    + intros H. apply elem_of_cons in H as [->|H]; [done|by apply IH].
Qed.
Lemma as_u16_small n : (n < 65536)%N -> as_u16 n = n.
Proof. apply N.mod_small. Qed.
Lemma add_tags_spec new : forall tags, length tags + length new < N.to_nat 65536 ->
  exists tags' ns, add_tags tags new = (tags', ns) /\ tags `prefix_of` tags' /\
    Forall2 (fun n t => tags' !! N.to_nat n = Some t) ns new.
Proof.
  induction new as [|t new IH]; intros tags L.
  - exists tags, []. split; [done|]. split; [done|constructor].
  - cbn [add_tags]. unfold add_tag. pose proof (find_tag_spec t tags 0) as F. destruct (find_tag tags t 0) as [j|].
    + destruct F as [_ E]. rewrite Nat.sub_0_r in E. pose proof (lookup_lt_Some _ _ _ E) as Lj. cbn [length] in L.
      destruct (IH tags ltac:(lia)) as (tags' & ns & -> & P & F). exists tags', (as_u16 (N.of_nat j) :: ns).
      split; [done|]. split; [done|]. constructor; [|done]. rewrite as_u16_small by lia. rewrite Nat2N.id.
      destruct P as [k ->]. by apply lookup_app_l_Some.
    + cbn [length] in L. destruct (IH (tags ++ [t])) as (tags' & ns & -> & P & F'); [rewrite app_length; cbn; lia|].
      exists tags', (as_u16 (N.of_nat (length tags)) :: ns). split; [done|].
      destruct P as [k ->]. split; [exists ([t] ++ k); by rewrite <- app_assoc|]. constructor; [|done].
      rewrite as_u16_small by lia. rewrite Nat2N.id, <- app_assoc. by rewrite lookup_app_r, Nat.sub_diag by lia.
Qed.
Lemma parse_u8_nil : parse_u8 [] = None.
Proof. done. Qed.
Lemma range_text_spec plen s ol : plen < 256 -> range_text plen s ol -> parse_tagoffset plen s = Ok (Some ol).
Proof.
  intros Hp. induction 1 as [b l x y Hb Hl Ex Ey|b x Hb Ex Hx|l y Hl Ey|]; unfold parse_tagoffset.
  - rewrite split_on_cons, split_on_none by done.
    destruct b as [|c b]; [by rewrite parse_u8_nil in Ex|]. destruct l as [|d l]; [by rewrite parse_u8_nil in Ey|].
    rewrite Ex. cbn [nth_error option_map default rbind]. rewrite Ey. done.
  - rewrite split_on_cons by done. destruct b as [|c b]; [by rewrite parse_u8_nil in Ex|]. rewrite Ex.
    cbn [split_on nth_error option_map default]. unfold u8_sub. rewrite as_u8_small by lia.
    cbn [from_option id]. change (id (N.to_nat x)) with (N.to_nat x). destruct (Nat.leb_spec (N.to_nat x) plen); [done|lia].
  - change (58%N :: l) with ([] ++ 58%N :: l). rewrite split_on_cons by (intros H; inversion H). rewrite split_on_none by done.
    destruct l as [|d l]; [by rewrite parse_u8_nil in Ey|]. cbn [nth_error option_map default rbind]. rewrite Ey. done.
  - cbn. unfold u8_sub. rewrite as_u8_small by lia. cbn. by rewrite Nat.sub_0_r.
Qed.
Lemma rmapM_ok {A B} (f : A -> res B) l l' : Forall2 (fun a b => f a = Ok b) l l' -> rmapM f l = Ok l'.
Proof. induction 1 as [|a b l l' E H IH]; [done|]. cbn. rewrite E. cbn. rewrite IH. done. Qed.
Lemma rmapM_total {A B} (f : A -> res B) l : (forall a, a ∈ l -> exists b, f a = Ok b) -> exists l', rmapM f l = Ok l'.
Proof.
  induction l as [|a l IH]; intros H; [by eexists|]. destruct (H a) as [b E]; [left|].
  destruct IH as [l' El]; [intros x Hx; apply H; by right|]. exists (b :: l'). cbn. rewrite E. cbn. rewrite El. done.
Qed.
Lemma collect_some {A} (l : list A) : collect_opt (map Some l) = Some l.
Proof. induction l as [|a l IH]; [done|]. cbn. by rewrite IH. Qed.
Lemma trim_fuel ws lexicons encoder s p : (forall c, c ∈ [33; 40; 41; 63; 64; 94; 124]%N -> ws c = false) ->
  writes ws lexicons encoder p s -> pm_parse ws lexicons encoder (S (length (trim ws s))) (trim ws s) = Ok (Some p).
Proof.
  intros Hws H. rewrite (parse_fuel ws lexicons encoder _ (S (length s)) (trim ws s)).
  - rewrite (parse_trim ws lexicons encoder (S (length s)) (trim ws s) s) by apply trim_idem.
    apply parse_written; [done|done|lia].
  - lia.
  - pose proof (trim_length ws s). lia.
Qed.
Lemma add_contextrule_spec ws m ps ss score tags offs rngs :
  (forall c, c ∈ [33; 40; 41; 63; 64; 94; 124]%N -> ws c = false) ->
  ps <> [] -> length ps < 256 -> Forall2 (writes ws (m_lexicons m) (m_encoder m)) ps ss -> Forall (fun s => 59%N ∉ s) ss ->
  Forall (fun t => t <> []) tags -> length (m_tags m) + length tags < N.to_nat 65536 ->
  Forall2 (range_text (length ps)) offs rngs -> length offs <= length tags ->
  exists table ns, m_tags m `prefix_of` table /\ Forall2 (fun n t => table !! N.to_nat n = Some t) ns tags /\
    add_contextrule ws m (semis ss) score tags offs = Ok (with_rules m (m_context_rules m ++
      [{| cr_pattern := ps; cr_score := score; cr_tag := ns;
          cr_tagoffset := rngs ++ replicate (length tags - length offs) (0, length ps) |}]) table, true).
Proof.
  intros Hws Hne Hlen Hw Hs Ht Htab Ho Hol. unfold add_contextrule.
  pose proof (Forall2_length _ _ _ Hw) as Hl. rewrite split_semis; [|by destruct ss, ps|done].
  rewrite (rmapM_ok _ ss (map Some ps)).
  2: { clear -Hw Hws. induction Hw as [|p s ps ss H Hw IH]; [constructor|]. cbn [map]. constructor; [|done]. by apply trim_fuel. }
  cbn [rbind]. rewrite collect_some. destruct (add_tags_spec tags (m_tags m) Htab) as (table & ns & E & P & F). rewrite E.
  assert (existsb (fun t => bool_decide (t = [])) tags = false) as ->.
  { clear -Ht. induction Ht as [|t ts H Ht IH]; [done|]. cbn [existsb]. rewrite IH, bool_decide_eq_false_2 by done. done. }
  rewrite (rmapM_ok _ offs (map Some rngs)).
  2: { clear -Ho Hlen. induction Ho as [|o r offs rngs H Ho IH]; [constructor|]. cbn [map]. constructor; [|done]. by apply range_text_spec. }
  cbn [rbind]. rewrite collect_some. exists table, ns. split; [done|]. split; [done|].
  destruct ps as [|p ps]; [done|]. rewrite (Forall2_length _ _ _ F), as_u8_small by done.
  rewrite (Forall2_length _ _ _ Ho). done.
Qed.
(** loading does not panic when no tag ranges are given *)
Lemma add_contextrule_total ws m s score tags : exists r, add_contextrule ws m s score tags [] = Ok r.
Proof.
  unfold add_contextrule.
  match goal with |- context [rmapM ?f (split_on 59 s)] => destruct (rmapM_total f (split_on 59 s)) as [l E] end.
  { intros a _. cbv zeta. apply parse_total. lia. }
  rewrite E.
  cbn [rbind]. destruct (collect_opt l) as [ps|]; [|by eexists]. destruct (add_tags _ _) as [table ns].
  destruct (existsb _ _); [by eexists|]. cbn. destruct ps; by eexists.
Qed.
(** a rule that was loaded can be tested *)
Lemma known_bounded lexicons encoder p : length lexicons <= 32 -> known lexicons encoder p -> lex_bounded p.
Proof.
  intros L. induction p as [id| | |x|p IH|ps IH] using pattern_ind'; try done.
  - cbn. intros (j & Hj & ->). rewrite as_u8_small; lia.
  - rewrite known_disj, lex_bounded_disj. intros H. rewrite Forall_forall in *. intros q Hq. by apply IH, H.
Qed.
Lemma rmapM_inv {A B} (f : A -> res B) l : forall l', rmapM f l = Ok l' -> Forall2 (fun a b => f a = Ok b) l l'.
Proof.
  induction l as [|a l IH]; intros l'; cbn; [intros [= <-]; constructor|].
  destruct (f a) as [b|] eqn:E; cbn; [|done]. destruct (rmapM f l) as [bs|] eqn:El; cbn; [|done].
  intros [= <-]. constructor; [done|by apply IH].
Qed.
Lemma collect_opt_inv {A} (l : list (option A)) : forall l', collect_opt l = Some l' -> l = map Some l'.
Proof.
  induction l as [|o l IH]; intros l'; cbn; [by intros [= <-]|]. destruct o as [a|]; [|done].
  destruct (collect_opt l) as [r|] eqn:E; cbn; [|done]. intros [= <-]. cbn. by rewrite (IH r eq_refl).
Qed.
(** rules loaded without tag ranges can be tested without panic *)
Lemma add_contextrule_rule_ok ws m s score tags m' ok : length (m_lexicons m) <= 32 -> length (split_on 59 s) < 256 ->
  Forall rule_ok (m_context_rules m) -> add_contextrule ws m s score tags [] = Ok (m', ok) -> Forall rule_ok (m_context_rules m').
Proof.
  intros Hlex Hlen Hr. unfold add_contextrule.
  match goal with |- context [rmapM ?f (split_on 59 s)] => destruct (rmapM f (split_on 59 s)) as [l|] eqn:E end; [|done].
  apply rmapM_inv in E. cbn [rbind]. destruct (collect_opt l) as [ps|] eqn:El; [|intros [= <- <-]; done].
  apply collect_opt_inv in El as ->. destruct (add_tags (m_tags m) tags) as [table ns].
  destruct (existsb _ _); [intros [= <- <-]; done|]. cbn [rmapM rbind collect_opt app length].
  pose proof (Forall2_length _ _ _ E) as L. rewrite map_length in L.
  destruct ps as [|p ps]; [intros [= <- <-]; done|]. intros H. injection H as <- <-. cbn [with_rules m_context_rules].
  apply Forall_app. split; [done|]. constructor; [|constructor]. split; [|split].
  - cbn [cr_pattern]. rewrite Forall_forall. intros q Hq. apply elem_of_list_lookup in Hq as [i Hi].
    assert (map Some (p :: ps) !! i = Some (Some q)) as Hi' by (change (map Some (p :: ps)) with (Some <$> (p :: ps)); rewrite list_lookup_fmap, Hi; done).
    destruct (Forall2_lookup_r _ _ _ _ _ E Hi') as (x & _ & Hx). cbv zeta in Hx.
    eapply known_bounded; [exact Hlex|]. eapply parse_known. exact Hx.
  - cbn [cr_tagoffset cr_pattern]. apply Forall_replicate. rewrite as_u8_small; cbn in *; lia.
  - cbn [cr_pattern]. lia.
Qed.
