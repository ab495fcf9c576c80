(** Proofs about output: columns, well-formed JSON, and an automaton that
    accepts all JSON texts (for showing that a text is none). *)
From Verif Require Import M_Base P_Base M_Anahash M_Float M_Types M_Model M_Search M_Text M_Cli S_Cli P_Parse P_Vocab P_Cli.
Import String.StringSyntax Ascii.AsciiSyntax.
From stdpp Require Import options.

#[local] Arguments pthen : simpl never.
#[local] Arguments put : simpl never.

(** * The automaton *)
Inductive state := Open | Before | InString | Escape | Bare | After.
Definition is_white (c : N) : bool := (c =? 32)%N || (c =? 9)%N || (c =? 10)%N || (c =? 13)%N.
Definition bare (c : N) : bool :=
  ((48 <=? c) && (c <=? 57))%N || ((97 <=? c) && (c <=? 122))%N || ((65 <=? c) && (c <=? 90))%N || (c =? 43)%N || (c =? 45)%N || (c =? 46)%N.
Definition step (st : state) (c : N) : option state :=
  match st with
  | InString => if (c <? 32)%N then None else if (c =? 34)%N then Some After else if (c =? 92)%N then Some Escape else Some InString
  | Escape => if existsb (N.eqb c) [34; 92; 47; 98; 102; 110; 114; 116; 117]%N then Some InString else None
  | Open | Before =>
      if is_white c then Some st
      else if (c =? 34)%N then Some InString
      else if (c =? 91)%N || (c =? 123)%N then Some Open
      else if (c =? 93)%N || (c =? 125)%N then match st with Open => Some After | _ => None end
      else if bare c then Some Bare else None
  | Bare | After =>
      if is_white c then Some After
      else if (c =? 44)%N || (c =? 58)%N then Some Before
      else if (c =? 93)%N || (c =? 125)%N then Some After
      else match st with Bare => if bare c then Some Bare else None | _ => None end
  end.
Fixpoint run (st : state) (s : str) : option state :=
  match s with
  | [] => Some st
  | c :: s' => match step st c with Some st' => run st' s' | None => None end
  end.
Lemma run_app st a b : run st (a ++ b) = match run st a with Some st' => run st' b | None => None end.
Proof. revert st. induction a as [|c a IH]; intros st; cbn [run app]; [done|]. destruct (step st c); [apply IH|done]. Qed.

Definition ready (st : state) : Prop := st = Open \/ st = Before.
Definition ended (st : state) : Prop := st = Bare \/ st = After.

Lemma white_is c : ws_char c -> is_white c = true.
Proof. unfold ws_char. intros H. repeat (apply elem_of_cons in H as [->|H]; [done|]). by apply elem_of_nil in H. Qed.
Lemma run_white_ready st w : ready st -> white w -> run st w = Some st.
Proof.
  intros H Hw. induction Hw as [|c w Hc Hw IH]; [done|]. cbn [run]. apply white_is in Hc.
  destruct H as [-> | ->]; cbn [step]; rewrite Hc; exact IH.
Qed.
Lemma run_white_ended st w : ended st -> white w -> exists st', ended st' /\ run st w = Some st'.
Proof.
  intros H Hw. revert st H. induction Hw as [|c w Hc Hw IH]; intros st H; [by exists st|]. cbn [run]. apply white_is in Hc.
  destruct H as [-> | ->]; cbn [step]; rewrite Hc; apply IH; by right.
Qed.
Lemma run_chars s u : chars s u -> forall t, run InString (s ++ t) = run InString t.
Proof.
  induction 1 as [|c s u H1 H2 H3 H IH|c e s u Hc H IH|a b c d s u Hh H IH]; intros t; [done| | |].
  - cbn [app run step]. destruct (N.ltb_spec c 32); [lia|]. destruct (N.eqb_spec c 34); [done|]. destruct (N.eqb_spec c 92); [done|]. apply IH.
  - cbn [app run step]. change (92 <? 32)%N with false. change (92 =? 34)%N with false. change (92 =? 92)%N with true. cbn iota. cbn [run step].
    replace (existsb (N.eqb c) _) with true; [apply IH|]. symmetry. unfold escapes in Hc.
    repeat (apply elem_of_cons in Hc as [Hc|Hc]; [injection Hc as -> ->; done|]). by apply elem_of_nil in Hc.
  - assert (G : forall x y, hex x -> run InString (x :: y) = run InString y).
    { intros x y Hx. cbn [run step]. unfold hex, digit in Hx. destruct (N.ltb_spec x 32); [lia|].
      destruct (N.eqb_spec x 34); [lia|]. destruct (N.eqb_spec x 92); [lia|]. done. }
    repeat (apply Forall_cons in Hh as [? Hh]). change (run InString (a :: b :: c :: d :: s ++ t) = run InString t). rewrite !G by done. apply IH.
Qed.
Lemma run_string st s t : ready st -> string s t -> run st s = Some After.
Proof.
  intros H [u t' Hu]. cbn [run]. replace (step st 34) with (Some InString) by (by destruct H as [-> | ->]).
  erewrite run_chars by done. done.
Qed.
Lemma run_bare st c s : ready st -> Forall (fun c => bare c = true) (c :: s) -> run st (c :: s) = Some Bare.
Proof.
  intros Hst H. apply Forall_cons in H as [Hc H]. cbn [run].
  assert (E : forall x, bare x = true -> is_white x = false /\ (x =? 34)%N = false /\ (x =? 91)%N = false /\ (x =? 123)%N = false /\
      (x =? 93)%N = false /\ (x =? 125)%N = false /\ (x =? 44)%N = false /\ (x =? 58)%N = false).
  { clear. intros x Hx. unfold bare in Hx. unfold is_white.
    repeat match goal with |- context [(x =? ?n)%N] => destruct (N.eqb_spec x n) as [->|]; [by vm_compute in Hx|] end. done. }
  replace (step st c) with (Some Bare); [|destruct (E c Hc) as (E1 & E2 & E3 & E4 & E5 & E6 & _); unfold step; rewrite E1, E2, E3, E4, E5, E6, Hc; by destruct Hst as [-> | ->]].
  clear Hst Hc. induction H as [|x s Hx H IH]; [done|]. cbn [run step].
  destruct (E x Hx) as (E1 & E2 & E3 & E4 & E5 & E6 & E7 & E8). rewrite E1, E5, E6, E7, E8, Hx. exact IH.
Qed.
Lemma digits_bare s : Forall digit s -> Forall (fun c => bare c = true) s.
Proof.
  intros H. eapply Forall_impl; [exact H|]. clear H. intros c [H1 H2]. unfold bare. apply N.leb_le in H1, H2. rewrite H1, H2. done.
Qed.
Lemma number_bare s : number s -> exists c s', s = c :: s' /\ Forall (fun c => bare c = true) s.
Proof.
  intros [minus i f e Hm Hi Hf He].
  assert (Bi : Forall (fun c => bare c = true) i /\ i <> []).
  { destruct Hi as [|c ds Hc Hs]; [by repeat constructor|]. split; [|done]. constructor; [|by apply digits_bare].
    unfold bare. destruct Hc as [H1 H2]. assert (48 <= c)%N by lia. apply N.leb_le in H, H2. by rewrite H, H2. }
  assert (Bf : Forall (fun c => bare c = true) f).
  { destruct Hf as [->|(ds & -> & _ & Hd)]; [constructor|]. constructor; [done|by apply digits_bare]. }
  assert (Be : Forall (fun c => bare c = true) e).
  { destruct He as [->|(x & sg & ds & -> & Hx & Hsg & _ & Hd)]; [constructor|]. constructor.
    - apply elem_of_cons in Hx as [->|Hx]; [done|]. by apply elem_of_list_singleton in Hx as ->.
    - apply Forall_app. split; [|by apply digits_bare]. destruct Hsg as [->|[->| ->]]; by repeat constructor. }
  assert (B : Forall (fun c => bare c = true) (minus ++ i ++ f ++ e)).
  { apply Forall_app. split; [destruct Hm as [->| ->]; by repeat constructor|]. apply Forall_app. split; [apply Bi|]. by apply Forall_app. }
  destruct (minus ++ i ++ f ++ e) as [|c s'] eqn:E; [|by exists c, s'].
  apply app_eq_nil in E as [_ E]. apply app_eq_nil in E as [E _]. by destruct Bi.
Qed.
Lemma run_comma st t : ended st -> run st (44%N :: t) = run Before t.
Proof. by intros [-> | ->]. Qed.
Lemma run_colon st t : ended st -> run st (58%N :: t) = run Before t.
Proof. by intros [-> | ->]. Qed.

Scheme value_ind' := Minimality for value Sort Prop
  with elements_ind' := Minimality for elements Sort Prop
  with members_ind' := Minimality for members Sort Prop.
Combined Scheme json_ind from value_ind', elements_ind', members_ind'.

Lemma run_json :
  (forall s j, value s j -> forall st, ready st -> exists st', ended st' /\ run st s = Some st') /\
  (forall s l, elements s l -> forall st, ready st -> exists st', ended st' /\ run st s = Some st') /\
  (forall s l, members s l -> forall st, ready st -> exists st', ended st' /\ run st s = Some st').
Proof.
  apply json_ind.
  - intros s t H st Hst. exists After. split; [by right|]. by eapply run_string.
  - intros s H st Hst. exists Bare. split; [by left|]. apply number_bare in H as (c & s' & -> & H). by apply run_bare.
  - intros s H st Hst. exists Bare. split; [by left|]. unfold literal in H.
    repeat (apply elem_of_cons in H as [->|H]; [apply run_bare; [done|by repeat constructor]|]). by apply elem_of_nil in H.
  - intros w Hw st Hst. exists After. split; [by right|]. cbn [run]. replace (step st 91) with (Some Open) by (by destruct Hst as [-> | ->]).
    rewrite run_app, run_white_ready by (done || by left). done.
  - intros s l _ IH st Hst. exists After. split; [by right|]. cbn [run]. replace (step st 91) with (Some Open) by (by destruct Hst as [-> | ->]).
    destruct (IH Open ltac:(by left)) as (st' & He & Hr). rewrite run_app, Hr. by destruct He as [-> | ->].
  - intros w Hw st Hst. exists After. split; [by right|]. cbn [run]. replace (step st 123) with (Some Open) by (by destruct Hst as [-> | ->]).
    rewrite run_app, run_white_ready by (done || by left). done.
  - intros s l _ IH st Hst. exists After. split; [by right|]. cbn [run]. replace (step st 123) with (Some Open) by (by destruct Hst as [-> | ->]).
    destruct (IH Open ltac:(by left)) as (st' & He & Hr). rewrite run_app, Hr. by destruct He as [-> | ->].
  - intros w1 v j w2 H1 _ IH H2 st Hst. rewrite run_app, run_white_ready by done.
    destruct (IH st Hst) as (st' & He & Hr). rewrite run_app, Hr. by apply run_white_ended.
  - intros w1 v j w2 s l H1 _ IH H2 _ IHs st Hst. rewrite run_app, run_white_ready by done.
    destruct (IH st Hst) as (st' & He & Hr). rewrite run_app, Hr.
    destruct (run_white_ended st' w2 He H2) as (st2 & He2 & Hr2). rewrite run_app, Hr2. rewrite run_comma by done. apply IHs. by right.
  - intros w1 k t w2 w3 v j w4 H1 Hk H2 H3 _ IH H4 st Hst. rewrite run_app, run_white_ready by done.
    rewrite run_app. erewrite run_string by done.
    destruct (run_white_ended After w2 ltac:(by right) H2) as (st2 & He2 & Hr2). rewrite run_app, Hr2, run_colon by done.
    rewrite run_app, run_white_ready by (done || by right).
    destruct (IH Before ltac:(by right)) as (st' & He & Hr). rewrite run_app, Hr. by apply run_white_ended.
  - intros w1 k t w2 w3 v j w4 s l H1 Hk H2 H3 _ IH H4 _ IHs st Hst. rewrite run_app, run_white_ready by done.
    rewrite run_app. erewrite run_string by done.
    destruct (run_white_ended After w2 ltac:(by right) H2) as (st2 & He2 & Hr2). rewrite run_app, Hr2, run_colon by done.
    rewrite run_app, run_white_ready by (done || by right).
    destruct (IH Before ltac:(by right)) as (st' & He & Hr). rewrite run_app, Hr.
    destruct (run_white_ended st' w4 He H4) as (st4 & He4 & Hr4). rewrite run_app, Hr4, run_comma by done. apply IHs. by right.
Qed.

Lemma json_text_run s : json_text s -> exists st, ended st /\ run Before s = Some st.
Proof.
  intros (j & w1 & v & w2 & -> & H1 & Hv & H2). rewrite run_app, run_white_ready by (done || by right).
  destruct (proj1 run_json v j Hv Before ltac:(by right)) as (st & He & Hr). rewrite run_app, Hr. by apply run_white_ended.
Qed.
Lemma not_json s : match run Before s with Some Bare | Some After => false | _ => true end = true -> ~ json_text s.
Proof. intros H Hj. apply json_text_run in Hj as (st & [-> | ->] & E); by rewrite E in H. Qed.

(** * Columns *)
Lemma columns_snoc cs l c : columns cs l -> 9%N ∉ c -> columns (cs ++ [c]) (l ++ 9%N :: c).
Proof.
  intros H Hc. induction H as [a Ha|a cs l Ha H IH]; cbn.
  - apply columns_more; [done|]. by apply columns_one.
  - rewrite <- app_assoc. cbn. by apply columns_more.
Qed.
Lemma columns_det l : forall cs cs', columns cs l -> columns cs' l -> cs = cs'.
Proof.
  intros cs cs' H. revert cs'. induction H as [a Ha|a cs l Ha H IH]; intros cs' H'.
  - destruct H' as [|b ds k Hb Hd]; [done|]. exfalso. apply Ha. set_solver.
  - remember (a ++ 9%N :: l) as L eqn:E. destruct H' as [b Hb|b ds k Hb Hd]; [subst b|].
    + exfalso. apply Hb. set_solver.
    + assert (G : a = b /\ k = l).
      { clear -Ha Hb E. revert b Hb E. induction a as [|x a IH]; intros [|y b] Hb E; cbn in *; simplify_eq; [done|set_solver|set_solver|].
        destruct (IH ltac:(set_solver) b) as [-> ->]; [set_solver|done|done]. }
      destruct G as [-> ->]. f_equal. by apply IH.
Qed.
Lemma join_joined c l : join [c] l = joined c l.
Proof. induction l as [|x [|y l] IH]; [done|done|]. change (x ++ [c] ++ join [c] (y :: l) = x ++ c :: joined c (y :: l)). by rewrite IH. Qed.

Lemma lexicons_of_names m v ls :
  lexicons_of m v = Ok ls -> length (m_lexicons m) <= 256 -> ls = lexicon_names (m_lexicons m) v.
Proof.
  unfold lexicons_of, lexicon_names. intros H Hl.
  assert (G : forall k (l : list str) bs, k + length l <= 256 ->
     rmapM (fun il : nat * str => let* b := in_lexicon v (N.of_nat (as_u8 il.1)) in Ok (b, il.2)) (imap (fun i x => (k + i, x)) l) = Ok bs ->
     omap (fun bl : bool * str => if bl.1 then Some bl.2 else None) bs =
     map snd (List.filter (fun il => N.testbit (vv_lexindex v) (N.of_nat il.1)) (imap (fun i x => (k + i, x)) l))).
  { clear. intros k l. revert k. induction l as [|x l IH]; intros k bs Hk H; [cbn in H; by simplify_eq|].
    rewrite imap_cons in H |- *. cbn [rmapM] in H. rewrite Nat.add_0_r in *.
    assert (E : forall (l : list str), imap ((fun i x => (k + i, x)) ∘ S) l = imap (fun i x => (S k + i, x)) l).
    { intros q. apply imap_ext. intros i y _. cbn. f_equal. lia. }
    rewrite E in H |- *. cbn [fst snd] in H.
    replace (as_u8 k) with k in H by (unfold as_u8; rewrite Nat.mod_small; cbn in Hk; lia).
    destruct (in_lexicon v (N.of_nat k)) as [b|] eqn:Eb; cbn [rbind] in H; [|done].
    destruct (rmapM _ (imap _ l)) as [bs'|] eqn:Er in H; cbn [rbind] in H; [|done]. injection H as <-.
    cbn in Hk. specialize (IH (S k) bs' ltac:(lia) Er). cbn [omap list_omap List.filter fst snd].
    assert (b = N.testbit (vv_lexindex v) (N.of_nat k)) as ->.
    { unfold in_lexicon, shl1 in Eb. destruct (N.ltb_spec (N.of_nat k) 32) as [Hb|Hb]; [|done].
      pose proof (P_Vocab.in_lexicon_spec v (N.of_nat k) Hb) as Hs. unfold in_lexicon, shl1 in Hs.
      destruct (N.ltb_spec (N.of_nat k) 32); [|lia]. congruence. }
    destruct (N.testbit _ _); cbn [map]; [f_equal|]; exact IH. }
  destruct (rmapM _ _) as [bs|] eqn:E in H; cbn [rbind] in H; [|done]. injection H as <-.
  apply (G 0); [cbn; lia|exact E].
Qed.
Lemma lexicons_of_ok m v : length (m_lexicons m) <= 32 -> exists ls, lexicons_of m v = Ok ls.
Proof.
  intros Hl. unfold lexicons_of.
  assert (G : forall k (l : list str), k + length l <= 32 -> exists bs,
     rmapM (fun il : nat * str => let* b := in_lexicon v (N.of_nat (as_u8 il.1)) in Ok (b, il.2)) (imap (fun i x => (k + i, x)) l) = Ok bs).
  { clear. intros k l. revert k. induction l as [|x l IH]; intros k Hk; [by exists []|].
    rewrite imap_cons. cbn [rmapM fst snd]. rewrite Nat.add_0_r. cbn in Hk.
    assert (E : imap ((fun i x => (k + i, x)) ∘ S) l = imap (fun i x => (S k + i, x)) l).
    { apply imap_ext. intros i y _. cbn. f_equal. lia. }
    rewrite E. replace (as_u8 k) with k by (unfold as_u8; rewrite Nat.mod_small; lia). rewrite P_Vocab.in_lexicon_spec by lia. cbn [rbind].
    destruct (IH (S k) ltac:(lia)) as [bs ->]. cbn [rbind]. eauto. }
  destruct (G 0 (m_lexicons m) ltac:(lia)) as [bs E]. change (imap (fun i x => (0 + i, x)) (m_lexicons m)) with (imap pair (m_lexicons m)) in E.
  rewrite E. cbn [rbind]. eauto.
Qed.

Lemma pres_ok {A} (x : res A) f : p_stop (pres x f) = None -> exists a, x = Ok a /\ p_stop (f a) = None /\ pres x f = f a.
Proof. destruct x as [a|p]; cbn; [eauto|done]. Qed.
Lemma put_out s : p_out (put s) = s.
Proof. done. Qed.
Lemma rexpect_ok {A} (o : option A) a : rexpect o = Ok a -> o = Some a.
Proof. destruct o; cbn; congruence. Qed.
Lemma fold_app_nil (s : str) : s ++ [] = s.
Proof. apply app_nil_r. Qed.

Lemma no_tab_joined c ls : c <> 9%N -> Forall (fun l => 9%N ∉ l) ls -> 9%N ∉ joined c ls.
Proof.
  intros Hc. induction 1 as [|x l Hx Hl IH]; cbn; [set_solver|]. destruct l as [|y l]; [done|]. set_solver.
Qed.
Lemma lexicon_names_sub names v x : x ∈ lexicon_names names v -> x ∈ names.
Proof.
  unfold lexicon_names. intros H. apply elem_of_list_In, in_map_iff in H as ((i & y) & <- & H). apply filter_In in H as [H _].
  apply elem_of_list_In, elem_of_lookup_imap in H as (j & z & E & Hz). cbn. simplify_eq. by eapply elem_of_list_lookup_2.
Qed.

Section tsv.
  Context (fmt : f64 -> str) (m : model) (lexmatch : bool) (fw : f32).

  Lemma tsv_result_out r :
    p_stop (tsv_result fmt m lexmatch fw r) = None -> length (m_lexicons m) <= 256 ->
    exists cs, result_columns fmt (vr_score fw) lexmatch m r cs /\
      p_out (tsv_result fmt m lexmatch fw r) = concat (map (cons 9%N) cs).
  Proof.
    unfold tsv_result. intros H Hl. apply pres_ok in H as (v & Hv & H & E). rewrite E. clear E. apply rexpect_ok in Hv. unfold get_vocab in Hv.
    exists ([vv_text v; fmt (vr_score fw r); []] ++
         (if lexmatch then [34%N :: joined 59 (lexicon_names (m_lexicons m) v) ++ [34%N]] else [])).
    split; [by exists v|]. rewrite pthen_out by done. apply pthen_ok in H as [_ H]. rewrite put_out.
    destruct lexmatch.
    - apply pres_ok in H as (ls & Hls & H & ->). apply lexicons_of_names in Hls; [|done]. subst ls.
      change (lit ";") with [59%N]. rewrite join_joined, put_out. unfold tab, quote. cbn. rewrite <- !app_assoc. cbn.
      rewrite <- !app_assoc. cbn. by rewrite ?app_nil_r.
    - rewrite put_out. unfold tab. cbn. rewrite <- !app_assoc. cbn. by rewrite ?app_nil_r.
  Qed.
  Lemma tsv_results_out rs :
    p_stop (pall (map (tsv_result fmt m lexmatch fw) rs)) = None -> length (m_lexicons m) <= 256 ->
    exists cells, Forall2 (result_columns fmt (vr_score fw) lexmatch m) rs cells /\
      p_out (pall (map (tsv_result fmt m lexmatch fw) rs)) = concat (map (cons 9%N) (concat cells)).
  Proof.
    intros H Hl. induction rs as [|r rs IH]; cbn [map pall] in *; [exists []; split; [constructor|done]|].
    apply pthen_ok in H as [H1 H2]. rewrite pthen_out by done.
    destruct (tsv_result_out r H1 Hl) as (cs & Hcs & ->). destruct (IH H2) as (cells & Hc & ->).
    exists (cs :: cells). split; [by constructor|]. cbn [concat]. rewrite map_app, concat_app. done.
  Qed.
  Lemma columns_concat cs l more : columns cs l -> Forall (fun c => 9%N ∉ c) more ->
    columns (cs ++ more) (l ++ concat (map (cons 9%N) more)).
  Proof.
    intros H Hm. revert cs l H. induction Hm as [|c more Hc Hm IH]; intros cs l H; cbn [map concat]; [by rewrite !app_nil_r|].
    rewrite (app_assoc l). replace (cs ++ c :: more) with ((cs ++ [c]) ++ more) by (by rewrite <- app_assoc).
    apply IH. by apply columns_snoc.
  Qed.
End tsv.

(** * Numbers *)
Lemma digit_of n : digit (48 + n mod 10)%N.
Proof. unfold digit. pose proof (N.mod_lt n 10 ltac:(lia)). lia. Qed.
Lemma show_from_spec fuel n acc :
  (n < 2 ^ N.of_nat (S fuel))%N ->
  exists c s, show_from fuel n acc = c :: s ++ acc /\ digit c /\ Forall digit s /\ ((0 < n)%N -> c <> 48%N) /\ ((n = 0)%N -> s = [] /\ c = 48%N) /\
    forall a, parse_digits (c :: s ++ acc) a = parse_digits acc (a * 10 ^ N.of_nat (S (length s)) + n).
Proof.
  assert (P : forall c s a, digit c -> parse_digits (c :: s) a = parse_digits s (a * 10 + (c - 48))%N).
  { intros c s a [H1 H2]. cbn [parse_digits]. apply N.leb_le in H1, H2. by rewrite H1, H2. }
  revert n acc. induction fuel as [|fuel IH]; intros n acc Hn; cbn [show_from].
  - change (2 ^ N.of_nat 1)%N with 2%N in Hn. exists (48 + n mod 10)%N, []. split; [done|]. split; [apply digit_of|]. split; [constructor|].
    rewrite N.mod_small by lia. split; [lia|]. split; [intros ->; done|]. intros a. cbn [app length]. rewrite P by (unfold digit; lia).
    f_equal. change (10 ^ N.of_nat 1)%N with 10%N. lia.
  - destruct (N.ltb_spec n 10) as [H|H].
    + exists (48 + n mod 10)%N, []. split; [done|]. split; [apply digit_of|]. split; [constructor|].
      rewrite N.mod_small by lia. split; [lia|]. split; [intros ->; done|]. intros a. cbn [app length]. rewrite P by (unfold digit; lia).
      f_equal. change (10 ^ N.of_nat 1)%N with 10%N. lia.
    + assert (Hd : (n / 10 < 2 ^ N.of_nat (S fuel))%N).
      { apply N.div_lt_upper_bound; [lia|]. rewrite (Nat2N.inj_succ (S fuel)), N.pow_succ_r' in Hn. lia. }
      destruct (IH (n / 10)%N ((48 + n mod 10)%N :: acc) Hd) as (c & s & E & Hc & Hs & Hnz & Hz & Hp).
      exists c, (s ++ [(48 + n mod 10)%N]). assert (0 < n / 10)%N by (apply N.div_str_pos; lia).
      split; [rewrite <- app_assoc; exact E|]. split; [done|]. split; [apply Forall_app; split; [done|]; repeat constructor; apply digit_of|].
      split; [intros _; by apply Hnz|]. split; [lia|]. intros a. rewrite <- app_assoc. cbn [app]. rewrite Hp, P by apply digit_of.
      f_equal. rewrite app_length. cbn [length]. rewrite Nat.add_1_r, (Nat2N.inj_succ (S (length s))), N.pow_succ_r'.
      pose proof (N.div_mod n 10 ltac:(lia)). lia.
Qed.
Lemma show_spec n : exists c s, show n = c :: s /\ digit c /\ Forall digit s /\ ((0 < n)%N -> c <> 48%N) /\ ((n = 0)%N -> s = [] /\ c = 48%N) /\
  parse_digits (show n) 0 = Some n.
Proof.
  unfold show. destruct (show_from_spec (N.to_nat (N.log2 n)) n []) as (c & s & E & H1 & H2 & H3 & H4 & H5).
  { rewrite Nat2N.inj_succ, N2Nat.id. destruct (N.eq_dec n 0) as [->|Hn]; [cbn; lia|]. apply N.log2_spec. lia. }
  exists c, s. rewrite E, app_nil_r in *. repeat split; try done; try apply H1; try apply H4; try done. specialize (H5 0%N). cbn [parse_digits] in H5 |- *.
  rewrite H5. f_equal.
Qed.
Lemma show_number n : number (show n).
Proof.
  destruct (show_spec n) as (c & s & -> & Hc & Hs & Hz & H0 & _).
  assert (integer (c :: s)).
  { destruct (N.eq_dec n 0) as [->|Hn]; [destruct (H0 eq_refl) as [-> ->]; constructor|]. constructor; [|done].
    unfold digit in Hc. specialize (Hz ltac:(lia)). lia. }
  rewrite <- (app_nil_r (c :: s)). rewrite <- (app_nil_r []). apply (number_of [] (c :: s) [] []); [by left|done|by left|by left].
Qed.
Lemma show_no_tab n : 9%N ∉ show n.
Proof.
  destruct (show_spec n) as (c & s & -> & Hc & Hs & _). intros H. apply elem_of_cons in H as [<-|H].
  - unfold digit in Hc. lia.
  - rewrite Forall_forall in Hs. apply Hs in H. unfold digit in H. lia.
Qed.
