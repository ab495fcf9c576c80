(** Proofs about the command line tool in search mode. *)
From Coq Require String Ascii.
From Coq Require Import Lia.
From Verif Require Import M_Base M_Anahash M_Iter M_Distance M_Float M_Types M_Model M_Confusable M_ConfList M_Rules M_Search M_Text M_Values.
From Verif Require Import M_Matches M_Learn M_Cli M_Main M_Options M_Program.
From Verif Require Import S_Anahash S_Text S_Model S_Search S_Lookup S_Rules S_Cli S_Options S_SearchAll S_RuleFile S_Program S_SearchRun.
From Verif Require Import P_Base P_Model P_Options P_Start P_Query.
From Verif Require S_Matches P_LookupAll P_Sequence P_Rank P_Cli P_CliOut P_Matches P_Lm P_SearchAll P_RuleFile P_Vocab P_Results.
Import String.StringSyntax Ascii.AsciiSyntax.
From stdpp Require Import options.

(** ** The texts *)
Section texts.
  Context (sp per_line : bool).
  #[local] Notation sep := (if sp then 32%N else 10%N).
  #[local] Notation read_text := (read_text sp per_line).
  #[local] Notation texts_from := (texts_from sp per_line).
  #[local] Notation ends := (ends_text per_line).

  Lemma joined_more g l : joined sep g ++ (if 0 <? length g then [sep] else []) ++ l = joined sep (g ++ [l]).
  Proof. destruct g as [|x g]; [done|]. cbn [length Nat.ltb Nat.leb]. rewrite P_Cli.joined_app_one by done. done. Qed.
  Lemma joined_nonempty g l : l <> [] -> joined sep (g ++ [l]) <> [].
  Proof. intros Hl. rewrite <- joined_more. destruct (joined sep g); [|done]. cbn [app]. destruct (0 <? length g); [done|exact Hl]. Qed.
  Lemma not_ends l : ~ ends l -> bool_decide (l = []) || per_line = false.
  Proof.
    unfold ends_text. intros H. apply orb_false_iff. split; [apply bool_decide_eq_false; tauto|]. destruct per_line; [|done]. exfalso. tauto.
  Qed.
  Lemma read_through ls : forall n g lines, Forall (fun l => ~ ends l) ls -> length ls <= n ->
    read_text n (length g) (joined sep g) (map Some ls ++ lines) = read_text (n - length ls) (length (g ++ ls)) (joined sep (g ++ ls)) lines.
  Proof.
    induction ls as [|l ls IH]; intros n g lines F Hn.
    - cbn. by rewrite app_nil_r, Nat.sub_0_r.
    - inversion F as [|? ? Hl F']; subst. destruct n as [|n]; [cbn in Hn; lia|]. cbn [map app M_Cli.read_text]. rewrite (not_ends _ Hl), joined_more.
      rewrite bool_decide_eq_false_2 by (apply joined_nonempty; intros ->; apply Hl; by right).
      replace (S (length g)) with (length (g ++ [l])) by (rewrite app_length; cbn; lia). rewrite IH by (done || cbn in Hn; lia).
      rewrite <- app_assoc. done.
  Qed.
  Lemma texts_say_from n lines ts : 0 < n -> texts_say per_line sep n lines ts -> forall fuel, length lines < fuel -> texts_from fuel n lines = Some ts.
  Proof.
    intros Hn H. induction H as [ls rest F L Hr|ls rest ts F L _ IH|ls l rest ts F L E _ IH]; intros [|fuel] Hf; try lia; cbn [M_Cli.texts_from].
    - change 0 with (length (@nil str)) at 1. change (@nil N) with (joined sep []). rewrite read_through by (done || lia). cbn [app].
      destruct (n - length ls) as [|k] eqn:Ek; [lia|]. destruct rest as [|[r|] rest]; [done| |done]. by destruct Hr.
    - change 0 with (length (@nil str)) at 1. change (@nil N) with (joined sep []). rewrite read_through by (done || lia). cbn [app].
      rewrite L, Nat.sub_diag. cbn [M_Cli.read_text]. rewrite IH; [done|]. rewrite app_length, map_length in Hf. lia.
    - change 0 with (length (@nil str)) at 1. change (@nil N) with (joined sep []). rewrite map_app, <- app_assoc, read_through by (done || lia). cbn [app].
      destruct (n - length ls) as [|k] eqn:Ek; [lia|]. cbn [map app M_Cli.read_text].
      assert (bool_decide (l = []) || per_line = true) as -> by (apply orb_true_iff; rewrite bool_decide_eq_true; unfold ends_text in E; tauto).
      rewrite joined_more, IH; [done|]. rewrite app_length, map_length, app_length in Hf. cbn in Hf. lia.
  Qed.
  Lemma ends_dec l : ends l \/ ~ ends l.
  Proof. unfold ends_text. destruct per_line; [left; by left|]. destruct (decide (l = [])); [left; by right|right; intros [?|?]; done]. Qed.
  (** every input is cut in one way *)
  Lemma cut_first n lines : exists ls rest, lines = map Some ls ++ rest /\ Forall (fun l => ~ ends l) ls /\ length ls <= n /\
    (length ls < n -> rest = [] \/ head rest = Some None \/ exists l rest', rest = Some l :: rest' /\ ends l).
  Proof.
    revert lines. induction n as [|n IH]; intros lines; [exists [], lines; split; [done|]; split; [constructor|]; cbn; split; lia|].
    destruct lines as [|[l|] lines].
    - exists [], []. split; [done|]. split; [constructor|]. split; [cbn; lia|]. tauto.
    - destruct (ends_dec l) as [E|E].
      + exists [], (Some l :: lines). split; [done|]. split; [constructor|]. split; [cbn; lia|]. intros _. right. right. eauto.
      + destruct (IH lines) as (ls & rest & -> & F & L & H). exists (l :: ls), rest. split; [done|]. split; [by constructor|]. cbn. split; [lia|].
        intros ?. apply H. lia.
    - exists [], (None :: lines). split; [done|]. split; [constructor|]. split; [cbn; lia|]. tauto.
  Qed.
  Lemma texts_exist n lines : 0 < n -> exists ts, texts_say per_line sep n lines ts.
  Proof.
    intros Hn. remember (length lines) as k eqn:Ek. revert lines Ek. induction (lt_wf k) as [k _ IH]. intros lines ->.
    destruct (cut_first n lines) as (ls & rest & -> & F & L & H). destruct (decide (length ls < n)) as [Hl|Hl].
    - destruct (H Hl) as [->|[Hr|(l & rest' & -> & E)]].
      + eexists. apply texts_last; [done..|by left].
      + eexists. apply texts_last; [done..|by right].
      + edestruct (IH (length rest')) as (ts & Ht); [|reflexivity|].
        { rewrite app_length, map_length. cbn. lia. }
        exists (joined sep (ls ++ [l]) :: ts). pose proof (texts_ended per_line sep n ls l rest' ts F Hl E Ht) as G. by rewrite map_app, <- app_assoc in G.
    - edestruct (IH (length rest)) as (ts & Ht); [|reflexivity|].
      { rewrite app_length, map_length. lia. }
      eexists. apply texts_full; [done|lia|done].
  Qed.
  Lemma texts_iff n lines ts : 0 < n -> texts_say per_line sep n lines ts <-> M_Cli.texts sp per_line n lines = Some ts.
  Proof.
    intros Hn. split; [intros H; apply (texts_say_from n lines ts Hn H); lia|]. intros E.
    destruct (texts_exist n lines Hn) as (ts' & H). pose proof (texts_say_from n lines ts' Hn H (S (length lines)) ltac:(lia)) as E'.
    unfold M_Cli.texts in E. rewrite E in E'. by injection E' as ->.
  Qed.
End texts.

(** ** Only the contents matter *)
(** also the counts *)
Record same_text (m m' : model) : Prop := {
  st_contents : same_contents m m';
  st_ngrams : m_ngrams m' = m_ngrams m;
  st_lm : m_have_lm m' = m_have_lm m;
}.
Lemma same_text_sym m m' : same_text m m' -> same_text m' m.
Proof. intros [H ? ?]. split; [by apply same_contents_sym|done..]. Qed.
Section same.
  Context (lc : N -> bool) (ses : str -> str -> list edit_instruction).
  Context (ln32 : f32 -> f32) (ln : f64 -> f64) (ws alpha : N -> bool) (solve : fst_graph -> nat -> list (list nat * f32)).
  Context (m m' : model) (p : search_parameters) (Sm : same_text m m').
  #[local] Set Default Proof Using "All".

  Lemma offered_same words n c x : offered lc ses m p words n c x -> offered lc ses m' p words n c x.
  Proof.
    intros [(Hw & ks & l & R & H & ->)|H]; [left|by right]. split; [done|]. exists ks, l. rewrite (sc_alphabet _ _ (st_contents _ _ Sm)).
    split; [done|]. split; [|done]. eapply looked_up_same; [apply Sm|done].
  Qed.
  Lemma offers_same ps a k batch : offers lc ses m p ps a k batch -> offers lc ses m' p ps a k batch.
  Proof.
    intros (xss & L & -> & H). exists xss. split; [done|]. split; [done|]. intros n xs Hn. destruct (H n xs Hn) as (words & cs & Hw & Hs & F).
    exists words, cs. split; [done|]. split; [done|]. eapply Forall2_impl; [exact F|]. intros c x. apply offered_same.
  Qed.
  Lemma scored_same bs symbols path s : path_scored ln32 ws m p bs symbols path s -> path_scored ln32 ws m' p bs symbols path s.
  Proof.
    intros [H1 H2 H3 H4 H5 H6]. destruct Sm as [[] E1 E2]. clear Sm. destruct m, m'; cbn in *; subst. split; assumption.
  Qed.
  Lemma chosen_same bs e batch out : chosen ln32 ln ws solve m p bs e batch out -> chosen ln32 ln ws solve m' p bs e batch out.
  Proof.
    assert (sequences_matter m p <-> sequences_matter m' p) as Q.
    { unfold sequences_matter. by rewrite (st_lm _ _ Sm), (sc_rules _ _ (st_contents _ _ Sm)). }
    intros [Hn|Hn Hb|symbols g seqs best perplexity cost context out' Hn Hb Hd Hs Hp Hc Hx Hbest Hpick].
    - apply chosen_first. by rewrite <- Q.
    - apply chosen_nothing; [by rewrite <- Q|done].
    - eapply (chosen_best ln32 ln ws solve m' p bs e batch symbols g seqs best perplexity cost context out'); [by rewrite <- Q|done|done| | |done|done| |done].
      + eapply Forall2_impl; [exact Hs|]. intros path s. apply scored_same.
      + unfold lm_used in *. by rewrite (st_lm _ _ Sm).
      + clear -Hbest Sm. destruct Sm as [[] E1 E2]. clear Sm. destruct m, m'; cbn in *; subst. exact Hbest.
  Qed.
  Lemma searched_same t ms : searched lc ses ln32 ln ws alpha solve m p t ms -> searched lc ses ln32 ln ws alpha solve m' p t ms.
  Proof.
    assert (searchable m <-> searchable m') as Q by (unfold searchable; by rewrite (sc_decoder _ _ (st_contents _ _ Sm))).
    intros [Hn ->|ps parts outs Ht Hs Hg Hp F Hu].
    - apply searched_nothing; [|done]. by rewrite <- Q.
    - apply (searched_text lc ses ln32 ln ws alpha solve m' p t ms ps parts outs); [done|by rewrite <- Q|done|done| |done].
      eapply Forall2_impl; [exact F|]. intros ak out (bs & e & batch & Hb & Ho & Hc). exists bs, e, batch.
      split; [done|]. split; [by apply offers_same|by apply chosen_same].
  Qed.
End same.

(** ** What a match is made of *)
Lemma stretch_chars ps n c : c ∈ S_Text.stretch ps n -> c ∈ S_Text.joined ps.
Proof.
  revert n. induction ps as [|[w b] ps IH]; intros n; [by destruct n|]. unfold S_Text.joined in *. cbn [map concat fst snd].
  destruct n as [|[|n]]; [by intros ?%elem_of_nil| |]; cbn [S_Text.stretch]; rewrite !elem_of_app; [tauto|]. intros [?|[?|?]]; [tauto..|]. right. by eapply IH.
Qed.
Lemma drop_chars ps j c : c ∈ S_Text.joined (drop j ps) -> c ∈ S_Text.joined ps.
Proof.
  intros H. rewrite <- (take_drop j ps). unfold S_Text.joined in *. rewrite map_app, concat_app. apply elem_of_app. by right.
Qed.
Lemma applied_rules rules sequence apps a : applied rules sequence apps -> a ∈ apps -> a.2 ∈ rules.
Proof.
  unfold applied. assert (forall l apps0 out, greedy sequence apps0 l out -> Forall (fun a => a.2 ∈ rules) l -> Forall (fun a => a.2 ∈ rules) apps0 -> Forall (fun a => a.2 ∈ rules) out) as G.
  { induction 1 as [apps0|apps0 b r l out Hf Hr _ IH|apps0 b r l out Hn _ IH]; intros Hl Ha; [done| |]; inversion Hl; subst.
    - apply IH; [done|]. apply Forall_app. split; [done|]. by constructor.
    - by apply IH. }
  intros H Ha. eapply G in H; [rewrite Forall_forall in H; by apply H| |constructor].
  apply Forall_forall. intros x Hx. unfold attempts in Hx. apply elem_of_list_bind in Hx as (b & Hx & _). apply elem_of_list_fmap in Hx as (r & -> & Hr). done.
Qed.
Lemma results_tags apps i tag : tag ∈ map fst (result_tags (token_results apps i)) -> exists a, a ∈ apps /\ tag ∈ cr_tag a.2.
Proof.
  intros H. apply elem_of_list_fmap in H as ([tg sq] & -> & H). unfold result_tags in H. apply elem_of_list_omap in H as (r & Hr & E).
  destruct (pr_tag r) as [tg'|] eqn:Et; [|done]. injection E as <- <-. unfold token_results in Hr.
  apply elem_of_list_In, in_concat in Hr as (l & Hl & Hr). apply in_map_iff in Hl as (a & <- & Ha). apply elem_of_list_In in Hr, Ha.
  destruct (decide (uses a i)); [|by apply elem_of_nil in Hr]. exists a. split; [done|]. cbn [fst]. unfold S_Rules.says in Hr.
  destruct (cr_tag a.2) as [|t0 tl] eqn:Ec; [apply elem_of_list_singleton in Hr; subst r; done|]. rewrite <- Ec in *.
  apply elem_of_list_omap in Hr as ([tg2 [o l]] & Hin & E). destruct (decide _); [|done]. injection E as <-. injection Et as <-.
  apply elem_of_list_In, in_combine_l, elem_of_list_In in Hin. done.
Qed.
Section matches.
  Context (lc : N -> bool) (ses : str -> str -> list edit_instruction).
  Context (ln32 : f32 -> f32) (ln : f64 -> f64) (ws alpha : N -> bool) (solve : fst_graph -> nat -> list (list nat * f32)).
  Context (m : model) (p : search_parameters) (t : str) (Hshort : short_stretches alpha p t).
  #[local] Set Default Proof Using "All".

  Record made (x : tmatch) : Prop := {
    md_text : lookup_line (tm_text x);
    md_chars : forall c, c ∈ tm_text x -> c ∈ t;
    md_variants : tm_variants x = None \/
      exists ks l, reads (m_alphabet m) (tm_text x) ks /\ looked_up lc ses m (tm_text x) ks p l /\ tm_variants x = Some l;
    md_tags : forall tag, tag ∈ tm_tag x -> exists r, r ∈ m_context_rules m /\ tag ∈ cr_tag r;
  }.
  Lemma made_same x y : tm_text y = tm_text x -> tm_variants y = tm_variants x -> tm_tag y = tm_tag x -> made x -> made y.
  Proof. intros E1 E2 E3 [H1 H2 H3 H4]. split; by rewrite ?E1, ?E2, ?E3. Qed.

  Lemma candidate_made ps a k n cs c words x : segmentation alpha t ps -> a + k <= length ps -> n < p_max_ngram p -> stretches ps a k (S n) cs -> c ∈ cs ->
    offered lc ses m p words (S n) c x -> made x.
  Proof.
    intros Hseg L Ln Hs Hc Hx. destruct (P_SearchAll.stretches_short alpha p t Hshort ps a k n cs c Hseg L Ln Hs Hc) as [Hne Hl].
    destruct Hs as (js & Hjs & ->). apply elem_of_list_fmap in Hc as (j & -> & Hj).
    assert (made (S_Text.candidate 0 ps (S n) j)) as M.
    { split; [| |by left|by intros tag ?%elem_of_nil].
      - split; [|done]. destruct (tm_text _); [done|cbn; lia].
      - intros c Hc. destruct Hseg as [-> _]. eapply drop_chars, stretch_chars, Hc. }
    destruct Hx as [(_ & ks & l & R & H & ->)|[_ ->]]; [|done]. destruct M as [M1 M2 M3 M4]. split; try done. right. exists ks, l. done.
  Qed.
  Lemma batch_made ps a k batch x : segmentation alpha t ps -> a + k <= length ps -> offers lc ses m p ps a k batch -> x ∈ batch -> made x.
  Proof.
    intros Hseg L (xss & Hl & -> & H) Hx. apply elem_of_list_In, in_concat in Hx as (xs & Hxs & Hx). apply elem_of_list_In in Hxs, Hx.
    apply elem_of_list_lookup in Hxs as (n & Hn). destruct (H n xs Hn) as (words & cs & _ & Hs & F).
    apply elem_of_list_lookup in Hx as (i & Hi). destruct (Forall2_lookup_r _ _ _ _ _ F Hi) as (c & Hc & Ho).
    apply lookup_lt_Some in Hn. eapply (candidate_made ps a k n cs c words x); [done|done|lia|done|by eapply elem_of_list_lookup_2|done].
  Qed.
  Lemma out_made ps ak out x : segmentation alpha t ps -> part_searched lc ses ln32 ln ws solve m p ps ak out -> x ∈ out -> made x.
  Proof.
    intros Hseg (bs & e & batch & B & O & C) Hx. destruct ak as [a k]. cbn [fst snd] in *.
    pose proof B as (Hlen & Hb & b & El & _). rewrite last_lookup, Hlen in El.
    assert (a + k <= length ps) as L.
    { destruct k as [|k]; [destruct bs; [done|cbn in Hlen; lia]|]. destruct (Hb _ _ El) as (w & s & E & _). apply lookup_lt_Some in E. cbn in E. lia. }
    assert (forall x, x ∈ batch -> made x) as M by (intros y Hy; by eapply batch_made).
    destruct C as [_|_ _|symbols g seqs best perplexity cost context out _ Hne Hd Hs _ _ _ (l1 & l2 & El2 & _) [Hl Hp]].
    - apply elem_of_list_fmap in Hx as (y & -> & Hy). by eapply made_same; [..|by apply M].
    - by apply elem_of_nil in Hx.
    - apply elem_of_list_lookup in Hx as (i & Hi). destruct (lookup_lt_is_Some_2 (sq_symbols best) i) as (o & Ho); [rewrite <- Hl; by eapply lookup_lt_Some|].
      destruct (Hp i o Ho) as (y & Hy & Ey). rewrite Ey in Hi. injection Hi as <-. apply elem_of_list_lookup_2, M in Hy.
      destruct (sq_tags best !! i) as [tags|] eqn:Et; [|by eapply made_same; [..|exact Hy]].
      destruct Hy as [H1 H2 H3 H4]. split; [done..|]. intros tag Htag. cbn in Htag.
      assert (exists path, path_scored ln32 ws m p bs symbols path best) as (path & Sc).
      { assert (best ∈ seqs) as Hb2 by (rewrite El2; apply elem_of_app; right; left). apply elem_of_list_lookup in Hb2 as (j & Hj).
        destruct (Forall2_lookup_r _ _ _ _ _ Hs Hj) as (path & _ & Sc). by exists path. }
      destruct (decide (m_context_rules m = [])) as [Er|Er].
      + destruct (ps_no_rules _ _ _ _ _ _ _ _ Sc Er) as [_ E]. by rewrite E in Et.
      + destruct (ps_rules _ _ _ _ _ _ _ _ Sc Er) as (apps & Ha & _ & E). rewrite E, list_lookup_fmap in Et.
        destruct (map _ _ !! i) as [r|] eqn:Er2; [|done]. injection Et as <-. rewrite list_lookup_fmap in Er2.
        destruct (seq _ _ !! i) as [j|]; [|done]. injection Er2 as <-. apply results_tags in Htag as (a0 & Ha0 & Ht). exists a0.2. split; [|done]. by eapply applied_rules.
  Qed.
  Lemma all_made ms x : searched lc ses ln32 ln ws alpha solve m p t ms -> x ∈ ms -> made x.
  Proof.
    intros [_ ->|ps parts outs _ _ Hseg _ F Hu] Hx; [by apply elem_of_nil in Hx|].
    assert (forall y, y ∈ concat outs -> made y) as M.
    { intros y Hy. apply elem_of_list_In, in_concat in Hy as (out & Ho & Hy). apply elem_of_list_In in Ho, Hy.
      apply elem_of_list_lookup in Ho as (i & Hi). destruct (Forall2_lookup_r _ _ _ _ _ F Hi) as (ak & _ & Hp). by eapply out_made. }
    destruct Hu as [[_ Hu]|[_ ->]]; [|by apply M].
    apply elem_of_list_lookup in Hx as (i & Hi). destruct (Forall2_lookup_r _ _ _ _ _ Hu Hi) as (y & Hy & b & e & _ & _ & ->).
    apply elem_of_list_lookup_2, M in Hy. by eapply made_same; [..|exact Hy].
  Qed.
End matches.
(** ** Decimal numbers are written in one way *)
#[local] Notation dvalue s := (foldl (fun a c => (a * 10 + (c - 48))%N) 0%N s).
Lemma dvalue_pos s : Forall digit s -> s <> [] -> head s <> Some 48%N -> (0 < dvalue s)%N.
Proof.
  assert (forall s a, (0 < a -> 0 < foldl (fun a c => (a * 10 + (c - 48))%N) a s)%N) as G.
  { clear. induction s as [|c s IH]; intros a Ha; [done|]. cbn [foldl]. apply IH. lia. }
  intros F Hne Hh. destruct s as [|c s]; [done|]. cbn [foldl]. inversion F as [|? ? Hc _]; subst. unfold digit in Hc. apply G. assert (c <> 48%N) by (intros ->; done). lia.
Qed.
Lemma dvalue_inj s : forall s', Forall digit s -> Forall digit s' -> head s <> Some 48%N -> head s' <> Some 48%N -> dvalue s = dvalue s' -> s = s'.
Proof.
  assert (forall r c, Forall digit (r ++ [c]) -> head (r ++ [c]) <> Some 48%N -> Forall digit r /\ digit c /\ head r <> Some 48%N) as K.
  { intros r c F H. apply Forall_app in F as [F1 F2]. inversion F2; subst. split; [done|]. split; [done|]. by destruct r. }
  induction s as [|c s IH] using rev_ind; intros s' F F' H H' E.
  - destruct s' as [|c' s']; [done|]. pose proof (dvalue_pos (c' :: s') F' ltac:(done) H') as P. cbn [foldl] in *. lia.
  - destruct s' as [|c' s' _] using rev_ind.
    + pose proof (dvalue_pos (s ++ [c]) F ltac:(by destruct s) H) as P. rewrite E in P. cbn in P. lia.
    + destruct (K _ _ F H) as (F1 & D & Hh). destruct (K _ _ F' H') as (F1' & D' & Hh'). rewrite !foldl_app in E. cbn [foldl] in E. unfold digit in D, D'.
      assert (c = c' /\ dvalue s = dvalue s') as [-> Es] by lia. by rewrite (IH s').
Qed.
Lemma decimal_det n s s' : S_Cli.decimal n s -> S_Cli.decimal n s' -> s' = s.
Proof.
  assert (forall s, integer s -> s = [48%N] \/ (Forall digit s /\ s <> [] /\ head s <> Some 48%N)) as K.
  { clear. intros s H. destruct H as [|c s Hc Hs]; [by left|right]. split; [constructor; [unfold digit; lia|done]|]. split; [done|]. intros [= ->]. lia. }
  intros [I E] [I' E']. destruct (K s I) as [->|(F & Hne & H)], (K s' I') as [->|(F' & Hne' & H')]; [done| | |].
  - pose proof (dvalue_pos s' F' Hne' H'). cbn in E. lia.
  - pose proof (dvalue_pos s F Hne H). cbn in E'. lia.
  - apply dvalue_inj; try done. congruence.
Qed.

(** ** One outcome *)
Lemma selected_first_det {A} sel (l a b : list A) : selected_first sel l a -> selected_first sel l b -> b = a.
Proof.
  intros [pre x post|s l' H|l'] H2.
  - inversion H2 as [pre' x' post' E1 E2|? ? Hle|]; subst.
    + apply app_inj_1 in E2 as [-> [= -> ->]]; done.
    + rewrite app_length in Hle; cbn in Hle; lia.
  - inversion H2 as [pre' x' post' E1 E2| |]; subst; [rewrite app_length in H; cbn in H; lia|done].
  - by inversion H2.
Qed.
Lemma offset_columns_det o a b : offset_columns o a -> offset_columns o b -> b = a.
Proof.
  intros [|x y sb se H1 H2] H; inversion H as [|? ? sb' se' H1' H2']; subst; [done|]. by rewrite (decimal_det _ _ _ H1 H1'), (decimal_det _ _ _ H2 H2').
Qed.
Lemma offset_says_det o a b : offset_says o a -> offset_says o b -> b = a.
Proof.
  intros [|x y sb se H1 H2] H; inversion H as [|? ? sb' se' H1' H2']; subst; [done|]. by rewrite (decimal_det _ _ _ H1 H1'), (decimal_det _ _ _ H2 H2').
Qed.
Lemma Forall2_det {A B} (R : A -> B -> Prop) l a : (forall x y z, x ∈ l -> R x y -> R x z -> z = y) -> Forall2 R l a -> forall b, Forall2 R l b -> b = a.
Proof.
  intros H F. induction F as [|x y l a Hxy _ IH]; intros b F'; inversion F' as [|? z ? b' Hz F2]; subst; [done|]. f_equal.
  - eapply H; [by left|done|done].
  - apply IH; [|done]. intros x' y' z' Hx'. apply H. by right.
Qed.
Lemma found_line_det fmt m p lm x a b : found_line fmt m p lm x a -> found_line fmt m p lm x b -> b = a.
Proof.
  intros (rs & os & cells & S1 & O1 & F1 & ->) (rs' & os' & cells' & S2 & O2 & F2 & ->).
  rewrite (selected_first_det _ _ _ _ S1 S2), (offset_columns_det _ _ _ O1 O2) in *. do 3 f_equal. f_equal. f_equal.
  eapply Forall2_det; [|exact F1|exact F2]. intros r y z _ (v & Hv & ->) (v' & Hv' & ->). rewrite Hv in Hv'. by injection Hv' as <-.
Qed.
Lemma found_says_det fmt sc m lm x a b : found_says fmt sc lm m x a -> found_says fmt sc lm m x b -> b = a.
Proof.
  intros (os & ts & vs & O1 & T1 & V1 & ->) (os' & ts' & vs' & O2 & T2 & V2 & ->). rewrite (offset_says_det _ _ _ O1 O2).
  assert (ts' = ts) as ->.
  { destruct T1 as [|tags seqnrs names ss Hne F1 F2]; [inversion T2; subst; done|]. inversion T2 as [|? ? names' ss' Hne' F1' F2']; subst; [done|].
    assert (names' = names) as -> by (eapply Forall2_det; [|exact F1|exact F1']; intros; congruence).
    assert (ss' = ss) as ->; [|done]. eapply Forall2_det; [|exact F2|exact F2']. intros q y z _ H1 H2. exact (decimal_det _ _ _ H1 H2). }
  assert (vs' = vs) as ->; [|done]. destruct V1 as [|l sel rs js S1 F1]; inversion V2 as [|? ? rs' js' S2 F2]; subst; [done|].
  rewrite (selected_first_det _ _ _ _ S1 S2) in *. do 3 f_equal. f_equal.
  eapply Forall2_det; [|exact F1|exact F2]. intros r y z _ (v & Hv & ->) (v' & Hv' & ->). rewrite Hv in Hv'. by injection Hv' as <-.
Qed.
Lemma selects_det {A} (Q : A -> Prop) l a b : selects Q l a -> selects Q l b -> b = a.
Proof.
  intros H. revert b. induction H as [|x l a Hx _ IH|x l a Hx _ IH]; intros b H2; inversion H2; subst; try done; [f_equal|]; by apply IH.
Qed.

(** ** The contents of a loaded model *)
Lemma encoder_inside ws pf pf32 ps fs c ts m t id : contents_say ws pf pf32 ps fs c ts m -> m_encoder m !! t = Some id -> id < length (m_decoder m).
Proof.
  intros C. destruct (cs_entries _ _ _ _ _ _ _ _ C) as (ss & a & l & r & L & _ & _ & Hr & _ & He & Hd & _).
  rewrite He, Hd, run_links_len. intros E. apply (P_Vocab.hi_inv _ _ (P_Vocab.history_run _ _ _ _ Hr)) in E as (u & Hu & _). by eapply lookup_lt_Some.
Qed.
Lemma numbered_inside table ts table' ns : tags_numbered table ts table' ns ->
  length table <= length table' /\ Forall (fun t => N.to_nat t < length table') ns.
Proof.
  assert (forall i n, i < n -> N.to_nat (N.of_nat i mod 65536) < n) as K.
  { intros i n Hi. pose proof (N.mod_le (N.of_nat i) 65536 ltac:(done)). lia. }
  induction 1 as [table|table t ts i table' ns Hi _ _ [IH1 IH2]|table t ts table' ns _ _ [IH1 IH2]].
  - by split.
  - split; [done|]. constructor; [|done]. apply K. apply lookup_lt_Some in Hi. lia.
  - rewrite app_length in IH1. cbn in IH1. split; [lia|]. constructor; [|done]. apply K. lia.
Qed.
Lemma tags_inside ws pf lexicons encoder table ls table' rs : rules_say ws pf lexicons encoder table ls table' rs ->
  length table <= length table' /\ Forall (fun r => Forall (fun t => N.to_nat t < length table') (cr_tag r)) rs.
Proof.
  induction 1 as [table|table l ls table' rs _ _ IH|table l ls table1 table' r rs Hr _ [IH1 IH2]]; [by split|done|].
  destruct Hr as [pat sc rest xs qs score tags offs ns rr _ _ _ _ _ _ _ _ Hn _]. apply numbered_inside in Hn as [H1 H2]. split; [lia|].
  constructor; [|done]. cbn. eapply Forall_impl; [exact H2|]. cbn. lia.
Qed.

Lemma loaded_counts pf pf32 ws ps o o' fs c ts (W : well_typed c ts) m : some_order o' -> (forall ss, sources_typed fs ts ss -> length ss <= 256) ->
  loaded_model pf pf32 ws ps o o' fs c ts = Ok m -> Forall (fun v => count_spaces (vv_text v) < 255) (m_decoder m) -> counts_say m.
Proof.
  intros Ho Hl E LE. destruct (load_contents pf pf32 ws ps o o' fs c ts W m Ho Hl E) as (C & m0 & B & _ & _ & _ & SC & Hng & Hfs).
  eapply (counts_loaded o o' m0 m); try done. by eapply contents_words.
Qed.
Lemma short_text alpha p t : length t <= 255 -> short_stretches alpha p t.
Proof.
  intros Ht qs i n [E _] _ _. assert (forall (qs : pieces) n, length (S_Text.stretch qs n) <= length (S_Text.joined qs)) as G.
  { clear. unfold S_Text.joined. induction qs as [|[w b] qs IH]; intros n; [by destruct n|]. cbn [map concat fst snd]. rewrite !app_length.
    destruct n as [|[|n]]; cbn [S_Text.stretch length]; [lia..|]. rewrite !app_length. pose proof (IH (S n)). lia. }
  pose proof (G (drop i qs) n) as H. assert (length (S_Text.joined (drop i qs)) <= length t) as H2; [|lia].
  rewrite E. rewrite <- (take_drop i qs) at 2. unfold S_Text.joined. rewrite map_app, concat_app, app_length. lia.
Qed.

(** what is needed to print a match *)
Record shown (m : model) (t : str) (x : tmatch) : Prop := {
  sh_chars : forall c, c ∈ tm_text x -> c ∈ t;
  sh_ok : Forall result_ok (default [] (tm_variants x));
  sh_inside : Forall (result_inside m) (default [] (tm_variants x));
  sh_tags : Forall (fun t => N.to_nat t < length (m_tags m)) (tm_tag x);
}.
Section loaded.
  Context (pf : str -> option f64) (pf32 : str -> option f32) (ws alpha : N -> bool) (ps : str -> option (list edit_instruction)).
  Context (o : list (N * node) -> list (N * node)) (o' : list (str * vocab_id) -> list (str * vocab_id)).
  Context (fs : str -> option (list (option str))) (c : command) (ts : list typed) (W : well_typed c ts).
  Context (lc : N -> bool) (ses : str -> str -> list edit_instruction) (ln32 : f32 -> f32) (ln : f64 -> f64) (solve : fst_graph -> nat -> list (list nat * f32)).
  #[local] Notation load := (loaded_model pf pf32 ws ps o o' fs c ts).
  #[local] Notation searched := (searched lc ses ln32 ln ws alpha solve).

  Record text_found (m m' : model) (p : search_parameters) (t : str) (ms : list tmatch) : Prop := {
    tf_spec : searched m p t ms;
    tf_unique : forall ms', searched m p t ms' -> ms' = ms;
    tf_finds : exists F, forall lookup, S_Matches.looks_up lc ses F m' p lookup -> find_all_matches ln32 ln ws solve alpha lookup m' t p = Ok ms;
    tf_shown : Forall (shown m t) ms;
  }.
  Lemma built_searches m m0 m' p t : built m0 m' -> same_contents m0 m -> links_inside m0 -> tame m0 p ->
    same_contents m m' -> counts_say m -> counts_say m' -> words_counted m' ->
    (forall w id, m_encoder m !! w = Some id -> id < length (m_decoder m)) ->
    Forall (fun r => Forall (fun t => N.to_nat t < length (m_tags m)) (cr_tag r)) (m_context_rules m) ->
    Forall rule_ok (m_context_rules m) -> S_Matches.solver_sound solve -> S_Matches.solver_complete solve -> alpha 32%N = false ->
    0 < p_max_seq p -> (N.of_nat (length t) < 65281)%N -> short_stretches alpha p t ->
    (forall r, final_score (p_freq_weight p) r = vr_score (p_freq_weight p) r) /\ exists ms, text_found m m' p t ms.
  Proof using lc ses ln32 ln solve ws alpha.
    clear W pf pf32 ps fs c ts o o'. intros Bt S0 I0 HT SC K K' Wc Ei Ti R Hs Hc Hsp Hq Hl Hsh. split; [intros r; apply P_LookupAll.final_is; by apply HT|].
    assert (same_text m m') as St by (destruct (counts_unique m m' SC K K') as [? ?]; by split).
    assert (S_Matches.scorable m') as Sc.
    { split; [done| |by rewrite (sc_rules _ _ SC)]. intros w id. rewrite (sc_encoder _ _ SC), (sc_decoder _ _ SC). apply Ei. }
    destruct (P_SearchAll.search_exact lc ses ln32 ln ws alpha solve m0 m' p t Bt HT Sc Hs Hsp Hl Hsh Hc Hq) as (F & HF).
    destruct (P_Sequence.search_succeeds lc ses ln32 ln ws solve alpha m0 m' t p Bt HT Sc Hs Hc Hq Hsp Hl) as (F1 & ms & H1).
    assert (searched m' p t ms) as Sd.
    { apply (HF (fun s => find_variants lc ses (F `max` F1) (fun l => l) m' s p)).
      - intros s. exists (F `max` F1), (fun l => l). split; [lia|]. split; [by intros ?|done].
      - apply H1. intros s. exists (F `max` F1), (fun l => l). split; [lia|]. split; [by intros ?|done]. }
    assert (searched m p t ms) as Sd' by (eapply searched_same; [by apply same_text_sym|done]).
    exists ms. split; [done| | |].
    - intros ms' H. eapply P_SearchAll.one_search; [exact Bt|exact HT|exact Hsh| |exact Sd]. by eapply searched_same.
    - exists F. intros lookup Hk. by apply (HF lookup Hk).
    - apply Forall_forall. intros x Hx. pose proof (all_made lc ses ln32 ln ws alpha solve m p t Hsh ms x Sd' Hx) as [M1 M2 M3 M4].
      assert (default [] (tm_variants x) = [] \/ answers lc ses m m' p (tm_text x) (default [] (tm_variants x))) as G.
      { destruct M3 as [->|(ks & l & R1 & R2 & ->)]; [by left|right]. destruct (built_answers lc ses m m0 m' (tm_text x) p Bt S0 I0 HT M1) as (l' & A). cbn [default]. change (Datatypes.id l) with l. by rewrite (an_unique _ _ _ _ _ _ _ A ks l R1 R2). }
      split; [done|destruct G as [->|[]]; done..|].
      apply Forall_forall. intros tag Ht. destruct (M4 tag Ht) as (r & Hr & Hin). rewrite Forall_forall in Ti. pose proof (Ti r Hr) as Q. rewrite Forall_forall in Q. by apply Q.
  Qed.
  Lemma loaded_searches m : some_order o -> some_order o' -> contents_say ws pf pf32 ps fs c ts m -> within_limits m ->
    counts_say m -> Forall rule_ok (m_context_rules m) -> S_Matches.solver_sound solve -> S_Matches.solver_complete solve -> alpha 32%N = false ->
    exists m', load = Ok m' /\ same_contents m m' /\
      forall p t, weight_single (p_freq_weight p) -> 0 < p_max_seq p -> (N.of_nat (length t) < 65281)%N -> short_stretches alpha p t ->
        (forall r, final_score (p_freq_weight p) r = vr_score (p_freq_weight p) r) /\ exists ms, text_found m m' p t ms.
  Proof using W.
    intros Ho Ho' C L K R Hs Hc Hsp.
    destruct (loaded_built pf pf32 ws ps o o' fs c ts W m Ho Ho' C L) as (m' & m0 & E & SC & K' & Wc & Bt & S0 & I0 & HT).
    exists m'. split; [done|]. split; [done|]. intros p t Hw Hq Hl Hsh.
    destruct (cs_rules _ _ _ _ _ _ _ _ C) as (rfs & _ & Hrs). apply tags_inside in Hrs as [_ Hrs].
    eapply built_searches; [exact Bt|done|done|by apply HT|done..| |done|done|done|done|done|done|done|done]. intros w id. by eapply encoder_inside.
  Qed.
End loaded.

(** ** Output *)
Lemma search_same m m' fmt lm fw se js sp pl n lines : same_contents m m' ->
  process_search fmt m' lm fw se js sp pl n lines = process_search fmt m lm fw se js sp pl n lines.
Proof. intros []. destruct m, m'; cbn in *; subst. reflexivity. Qed.

Section lines.
  Context (fmt : f64 -> str) (m : model) (lm : bool) (fw : f32).
  Context (Hn : length (m_lexicons m) <= 32).
  #[local] Notation line := (fun x out => exists rs os cells, selected_first (tm_selected x) (default [] (tm_variants x)) rs /\
    offset_columns (Some (tm_begin x, tm_end x)) os /\ Forall2 (result_columns fmt (vr_score fw) lm m) rs cells /\
    out = joined 9 (tm_text x :: os ++ concat cells) ++ [10%N]).

  Lemma found_tsv t x s : shown m t x -> exists out, line x out /\ search_match fmt m lm fw false s x = Printed out None.
  Proof using Hn.
    intros [_ _ Hin _]. unfold search_match.
    assert (p_stop (tsv_match fmt m lm fw (tm_text x) (tm_variants x) (tm_selected x) (Some (tm_begin x, tm_end x))) = None) as E.
    { apply P_CliOut.tsv_match_ok; [done|]. eapply Forall_impl; [exact Hin|]. by intros r [? _]. }
    destruct (P_CliOut.tsv_match_line fmt m lm fw _ _ _ _ E) as (rs & os & cells & S1 & Ho & F & O); [lia|].
    eexists. split; [exists rs, os, cells; split; [done|]; split; [done|]; split; [done|reflexivity]|]. rewrite <- O. by destruct (tsv_match _ _ _ _ _ _ _ _); cbn in *; subst.
  Qed.
  Lemma all_found_tsv t ms : forall s, Forall (shown m t) ms -> exists outs, Forall2 line ms outs /\ search_matches fmt m lm fw false s ms = Printed (concat outs) None.
  Proof using Hn.
    induction ms as [|x ms IH]; intros s F; [exists []; split; [constructor|done]|]. inversion F as [|? ? H1 H2]; subst.
    destruct (found_tsv t x (S s) H1) as (out & Hx & Ex). destruct (IH (S s) H2) as (outs & Fo & Eo). exists (out :: outs). split; [by constructor|].
    cbn [search_matches]. rewrite Ex, Eo. done.
  Qed.
  Lemma line_nonempty x out : line x out -> out <> [].
  Proof. intros (rs & os & cells & _ & _ & _ & ->). by destruct (joined _ _). Qed.
  Lemma texts_tsv se ts : forall s, (forall t, t ∈ ts -> exists ms, se t = Ok ms /\ Forall (shown m t) ms) ->
    exists blocks shown, Forall2 (fun t b => exists ms outs, se t = Ok ms /\ Forall2 line ms outs /\ b = concat outs) ts blocks /\
      selects (fun b => b <> []) blocks shown /\
      process_texts fmt m lm fw se false s ts = Printed (if 0 <? s then concat (map (cons 10%N) shown) else joined 10 shown) None.
  Proof using Hn.
    induction ts as [|t ts IH]; intros s H.
    { exists [], []. split; [constructor|]. split; [constructor|]. by destruct (0 <? s). }
    destruct (H t) as (ms & E & Hms); [by left|]. destruct (all_found_tsv t ms s Hms) as (outs & Fo & Eo).
    destruct (IH (s + length ms)) as (blocks & shown & Fb & Sb & Eb); [intros t' Ht'; apply H; by right|].
    cbn [process_texts]. rewrite E. cbn [pres]. rewrite Eo, Eb. destruct (decide (ms = [])) as [->|Hne].
    - inversion Fo; subst. exists ([] :: blocks), shown. split; [constructor; [by exists [], []|done]|]. split; [constructor; [tauto|done]|].
      rewrite bool_decide_true, andb_false_r by done. cbn [length]. by rewrite Nat.add_0_r.
    - assert (concat outs <> []) as Hb.
      { destruct Fo as [|x out ms outs Hx _]; [done|]. apply line_nonempty in Hx. cbn [concat]. by destruct out. }
      exists (concat outs :: blocks), (concat outs :: shown). split; [constructor; [by exists ms, outs|done]|]. split; [by constructor|].
      rewrite bool_decide_false by done. rewrite andb_true_r. destruct (Nat.ltb_spec 0 (s + length ms)) as [_|L]; [|destruct ms; [done|cbn in L; lia]].
      destruct (0 <? s).
      + cbn [map concat]. unfold pthen. cbn [p_stop p_out put]. done.
      + rewrite P_CliOut.joined_concat. done.
  Qed.

  (** JSON: nothing fails *)
  Lemma json_tags_ok b l : Forall (fun x : N * nat => N.to_nat x.1 < length (m_tags m)) l -> p_stop (json_tags m b l) = None.
  Proof.
    intros F. revert b. induction F as [|[t s] l Ht _ IH]; intros b; [done|]. cbn [json_tags]. cbn in Ht. apply pthen_stop; [done|]. apply pthen_stop; [|apply IH].
    destruct (lookup_lt_is_Some_2 _ _ Ht) as (n & ->). done.
  Qed.
  Lemma json_seqnrs_ok l : forall b, p_stop (json_seqnrs b l) = None.
  Proof. induction l as [|[t s] l IH]; intros b; [done|]. cbn [json_seqnrs]. apply pthen_stop; [done|]. by apply pthen_stop. Qed.
  Lemma found_json t x s : shown m t x -> p_stop (search_match fmt m lm fw true s x) = None.
  Proof using Hn.
    intros [_ _ Hin Ht]. unfold search_match, json_match. apply pthen_stop; [done|]. apply pthen_stop; [done|]. apply pthen_stop; [done|]. apply pthen_stop.
    - destruct (tm_tag x) as [|tg tags] eqn:E; [done|]. rewrite <- E in *. apply pthen_stop; [done|]. apply pthen_stop.
      + apply json_tags_ok, Forall_forall. intros [a b] Hx. apply elem_of_zip_l in Hx. rewrite Forall_forall in Ht. by apply Ht.
      + apply pthen_stop; [done|]. apply pthen_stop; [apply json_seqnrs_ok|done].
    - destruct (tm_variants x) as [l|]; [|done]. cbn [default] in Hin. change (Datatypes.id l) with l in Hin. apply pthen_stop; [done|]. apply pthen_stop; [|done]. apply json_results_ok; [done|].
      pose proof (P_Cli.listed_selected_first (tm_selected x) l) as G. rewrite Forall_forall in Hin |- *. intros r Hr. apply Hin.
      revert Hr. destruct G; try done. rewrite !elem_of_app, !elem_of_cons, elem_of_app. tauto.
  Qed.
  Lemma texts_json se ts : forall s, (forall t, t ∈ ts -> exists ms, se t = Ok ms /\ Forall (shown m t) ms) ->
    p_stop (process_texts fmt m lm fw se true s ts) = None.
  Proof using Hn.
    induction ts as [|t ts IH]; intros s H; [done|]. destruct (H t) as (ms & E & Hms); [by left|]. cbn [process_texts]. rewrite E. cbn [pres].
    apply pthen_stop; [done|]. apply pthen_stop; [|apply IH; intros t' Ht'; apply H; by right].
    clear -Hms Hn. revert s. induction Hms as [|x ms Hx _ IH]; intros s; [done|]. cbn [search_matches]. apply pthen_stop; [by eapply found_json|apply IH].
  Qed.
End lines.

(** ** A whole run *)
Section search.
  Context (pf : str -> option f64) (pf32 : str -> option f32) (fmt : f64 -> str) (ws lc alpha : N -> bool) (ln32 : f32 -> f32) (ln : f64 -> f64).
  Context (ps : str -> option (list edit_instruction)) (ses : str -> str -> list edit_instruction) (solve : fst_graph -> nat -> list (list nat * f32)).
  Context (o : list (N * node) -> list (N * node)) (o' : list (str * vocab_id) -> list (str * vocab_id)) (o'' : list (nat * list N) -> list (nat * list N)).
  Context (fs : str -> option (list (option str))).
  Context (ts : list typed).
  #[local] Notation lexm := (is_present Search ts (lit "output-lexmatch")).
  #[local] Notation js := (is_present Search ts (lit "json")).
  #[local] Notation sp := (negb (is_present Search ts (lit "retain-linebreaks"))).
  #[local] Notation pl := (is_present Search ts (lit "per-line")).

  Lemma search_files fuel P m stdin ns lls : inputs_say fs stdin ns lls ->
    over_files fmt ws lc alpha ln32 ln ses solve o o' o'' fs fuel Search ts P m stdin ns =
    pall (map (process_search fmt m lexm (p_freq_weight (tp_search P)) (search_in ws lc alpha ln32 ln ses solve o'' fuel m (tp_search P)) js sp pl MAX_BATCHSIZE_SEARCH) lls).
  Proof.
    induction 1 as [stdin|stdin n ns ls lls Hn E _ IH|stdin n ns lls Hn _ IH]; [done| |]; cbn [over_files map pall].
    - assert (is_stdin n = false) as -> by (by apply bool_decide_false). unfold open. rewrite E. cbn [rexpect pres]. rewrite IH. done.
    - assert (is_stdin n = true) as -> by (by apply bool_decide_true). cbn [pres]. rewrite IH. done.
  Qed.

  Context (W : well_typed Search ts) (debug : option str) (P : tool_parameters) (stdin : list (option str)) (lls : list (list (option str))).
  Context (A : search_asked pf pf32 alpha fs stdin debug ts P lls) (m : model) (C : contents_say ws pf pf32 ps fs Search ts m) (L : within_limits m).
  Context (K : counts_say m) (R : Forall rule_ok (m_context_rules m)).
  Context (Hs : S_Matches.solver_sound solve) (Hc : S_Matches.solver_complete solve) (Hsp : alpha 32%N = false).
  Context (Ho : some_order o) (Ho' : some_order o') (Ho'' : some_order o'').
  #[local] Notation prog fuel := (program pf pf32 fmt ws lc alpha ln32 ln ps ses solve o o' o'' fs stdin fuel (Invocation debug (Some Search) ts)).
  #[local] Notation p := (tp_search P).
  #[local] Notation found := (text_found ws alpha lc ses ln32 ln solve m).
  #[local] Notation texts_of lines := (M_Cli.texts sp pl MAX_BATCHSIZE_SEARCH lines).
  #[local] Notation block := (text_block lc ses ln32 ln ws alpha solve fmt m ts p).
  #[local] Notation output := (file_output lc ses ln32 ln ws alpha solve fmt m ts p).
  #[local] Notation values := (text_values lc ses ln32 ln ws alpha solve fmt m ts p).

  Lemma flag_there l : flag_defined Search l = true -> is_present Search ts l = true <-> TFlag l ∈ ts.
  Proof using W. intros H. apply flag_spec; [by apply accepted_spec|done]. Qed.
  Lemma input_texts_iff lines l : input_texts ts lines l <-> texts_of lines = Some l.
  Proof using W.
    rewrite <- (texts_iff sp pl MAX_BATCHSIZE_SEARCH) by (unfold MAX_BATCHSIZE_SEARCH; lia).
    pose proof (flag_there (lit "per-line") eq_refl) as Hp. pose proof (flag_there (lit "retain-linebreaks") eq_refl) as Hr. split.
    - intros (b & sep & Hb & Hsep & H). assert (b = pl) as -> by (eapply bool_iff; [exact Hp|exact Hb]).
      assert (sep = if sp then 32%N else 10%N) as ->; [|done].
      destruct Hsep as [[Hf ->]|[Hf ->]]; [by rewrite (proj2 Hr Hf)|]. destruct (is_present Search ts (lit "retain-linebreaks")) eqn:E; [by destruct Hf; apply Hr|done].
    - intros H. exists pl, (if sp then 32%N else 10%N). split; [done|]. split; [|done].
      destruct (is_present Search ts (lit "retain-linebreaks")) eqn:E; [left; split; [by apply Hr|done]|right; split; [|done]]. intros F. apply Hr in F. congruence.
  Qed.
  Lemma search_lexmatch_is : lexmatch_typed ts lexm.
  Proof using W. unfold lexmatch_typed. by apply flag_there. Qed.
  Lemma search_lexmatch_det b : lexmatch_typed ts b -> b = lexm.
  Proof using W. intros H. eapply bool_iff; [exact search_lexmatch_is|exact H]. Qed.

  (** the run and its searches *)
  Lemma whole_search_run : (forall r, final_score (p_freq_weight p) r = vr_score (p_freq_weight p) r) /\ exists m', 
    (forall ls l t, ls ∈ lls -> input_texts ts ls l -> t ∈ l -> exists ms, found m' (in_bytes p) t ms) /\
    exists se : nat -> str -> res (list tmatch), (forall t ms, found m' (in_bytes p) t ms -> exists F, forall fuel, F <= fuel -> se fuel t = Ok ms) /\
      forall fuel, prog fuel = of_printed (whole_output js (map (process_search fmt m lexm (p_freq_weight p) (se fuel) js sp pl MAX_BATCHSIZE_SEARCH) lls)).
  Proof using W A C L K R Hs Hc Hsp Ho Ho' Ho''.
    destruct A as [Hd HP Hw Hcut Hq (ns & Hns & Hi) Ht].
    destruct (loaded_searches pf pf32 ws alpha ps o o' fs Search ts W lc ses ln32 ln solve m Ho Ho' C L K R Hs Hc Hsp) as (m' & E & SC & Fi).
    split. { intros r. by apply P_LookupAll.final_is. }
    exists m'. split.
    { intros ls l t Hls Hl Hin. destruct (Ht ls l t Hls Hl Hin) as [H1 H2]. by apply Fi. }
    exists (fun fuel => search_in ws lc alpha ln32 ln ses solve o'' fuel m' (in_bytes p)). split.
    { intros t ms [_ _ (F & HF) _]. exists F. intros fuel Hfu. unfold search_in. apply HF. intros s. by exists fuel, o''. }
    intros fuel. unfold program. cbn [iv_command iv_typed iv_debug]. rewrite (proj2 (accepted_spec _ _) W). unfold run.
    assert (exists k, parse_u8 (default (lit "0") debug) = Some k) as (k & ->).
    { destruct debug as [s|]; [|by eexists]. destruct (Hd s eq_refl) as (k & Hk). exists k. by apply P_Vocab.parse_uint_spec. }
    cbn [rexpect rbind]. rewrite E. cbn [ores].
    assert (tool_params pf pf32 Search ts = Ok (byte_offsets P)) as ->.
    { apply params_spec; [by apply accepted_spec|]. split; [|done]. clear -HP. destruct HP. by split. }
    cbn [ores]. assert (cutoff_refused (tp_search (byte_offsets P)) = false) as ->.
    { unfold cutoff_refused. change (p_cutoff_threshold (tp_search (byte_offsets P))) with (p_cutoff_threshold p).
      destruct (flt _ _); [by rewrite Hcut|done]. }
    rewrite (names_input _ _ Hns). rewrite (search_files fuel (byte_offsets P) m' stdin ns lls Hi).
    unfold whole_output. do 4 f_equal. apply map_ext. intros ls. apply (search_same _ _ _ _ _ _ _ _ _ _ _ SC).
  Qed.

  Lemma all_searched (m' : model) (se : nat -> str -> res (list tmatch)) :
    (forall ls l t, ls ∈ lls -> input_texts ts ls l -> t ∈ l -> exists ms, found m' (in_bytes p) t ms) ->
    (forall t ms, found m' (in_bytes p) t ms -> exists F, forall fuel, F <= fuel -> se fuel t = Ok ms) ->
    exists F, forall fuel, F <= fuel -> forall ls l t, ls ∈ lls -> input_texts ts ls l -> t ∈ l -> exists ms, found m' (in_bytes p) t ms /\ se fuel t = Ok ms.
  Proof using W.
    clear stdin A debug fmt K R L C Hs Hc Hsp Ho Ho' Ho'' ps pf pf32 fs o o' o''.
    intros An Fi.
    assert (forall ts' : list str, (forall t, t ∈ ts' -> exists ms, found m' (in_bytes p) t ms) ->
      exists F, forall fuel, F <= fuel -> forall t, t ∈ ts' -> exists ms, found m' (in_bytes p) t ms /\ se fuel t = Ok ms) as G.
    { induction ts' as [|t ts' IH]; intros H; [exists 0; intros fuel _ t Ht; by apply elem_of_nil in Ht|].
      destruct IH as (F & IH); [intros t' Ht'; apply H; by right|]. destruct (H t) as (ms & Hms); [by left|]. destruct (Fi t ms Hms) as (F' & HF).
      exists (F `max` F'). intros fuel Hf t' [->|Ht']%elem_of_cons; [exists ms; split; [done|]; apply HF; lia|apply IH; [lia|done]]. }
    destruct (G (concat (map (fun ls => default [] (texts_of ls)) lls))) as (F & HF).
    { intros t Ht. apply elem_of_list_In, in_concat in Ht as (l & Hl & Ht). apply in_map_iff in Hl as (ls & <- & Hls). apply elem_of_list_In in Ht, Hls.
      destruct (texts_of ls) as [l|] eqn:E; [|by apply elem_of_nil in Ht]. apply (An ls l t Hls); [by apply input_texts_iff|done]. }
    exists F. intros fuel Hfu ls l t Hls Hl Ht. apply HF; [done|]. apply elem_of_list_In, in_concat. exists l. split; [|by apply elem_of_list_In].
    apply in_map_iff. exists ls. split; [|by apply elem_of_list_In]. apply input_texts_iff in Hl. by rewrite Hl.
  Qed.

  Lemma block_det m' t ms a b : found m' (in_bytes p) t ms -> block t a -> block t b -> b = a.
  Proof using W.
    intros Fd (ms1 & o1 & b1 & S1 & B1 & F1 & ->) (ms2 & o2 & b2 & S2 & B2 & F2 & ->).
    rewrite (search_lexmatch_det _ B1), (search_lexmatch_det _ B2) in *.
    rewrite (tf_unique _ _ _ _ _ _ _ _ _ _ _ _ Fd _ S1), (tf_unique _ _ _ _ _ _ _ _ _ _ _ _ Fd _ S2) in *.
    f_equal. eapply Forall2_det; [|exact F1|exact F2]. intros x y z _. apply found_line_det.
  Qed.
  Lemma output_det m' ls a b : (forall l t, input_texts ts ls l -> t ∈ l -> exists ms, found m' (in_bytes p) t ms) -> output ls a -> output ls b -> b = a.
  Proof using W.
    intros An (l1 & bs1 & s1 & I1 & F1 & S1 & ->) (l2 & bs2 & s2 & I2 & F2 & S2 & ->).
    assert (l2 = l1) as -> by (apply input_texts_iff in I1, I2; congruence).
    assert (bs2 = bs1) as ->.
    { eapply Forall2_det; [|exact F1|exact F2]. intros t y z Ht. destruct (An l1 t I1 Ht) as (ms & Hms). by eapply block_det. }
    by rewrite (selects_det _ _ _ _ S1 S2).
  Qed.

  Lemma search_json_is b : js = b <-> if b then flag_typed ts "json" else ~ flag_typed ts "json".
  Proof using W.
    pose proof (flag_there (lit "json") eq_refl) as F. destruct b; [done|]. rewrite <- F. by destruct (is_present _ _ _).
  Qed.
  Lemma search_tsv : ~ flag_typed ts "json" -> exists outs, Forall2 output lls outs /\
    (forall outs', Forall2 output lls outs' -> outs' = outs) /\
    exists F, forall fuel, F <= fuel -> prog fuel = Outcome (concat outs) Ended.
  Proof using W A C L K R Hs Hc Hsp Ho Ho' Ho''.
    intros Hj%(search_json_is false). destruct whole_search_run as (Fs & m' & An & se & Fi & Run). rewrite Hj in Run.
    destruct (all_searched m' se An Fi) as (F & HF).
    assert (forall fuel, F <= fuel -> forall lls', incl lls' lls -> exists outs, Forall2 output lls' outs /\
      pall (map (process_search fmt m lexm (p_freq_weight p) (se fuel) false sp pl MAX_BATCHSIZE_SEARCH) lls') = Printed (concat outs) None) as G.
    { intros fuel Hfu. induction lls' as [|ls lls' IH]; intros Hin; [exists []; split; [constructor|done]|].
      destruct IH as (outs & Fo & Eo); [by intros x ?; apply Hin; right|].
      assert (ls ∈ lls) as Hls by (apply elem_of_list_In, Hin; by left).
      destruct (texts_exist sp pl MAX_BATCHSIZE_SEARCH ls) as (l & El); [unfold MAX_BATCHSIZE_SEARCH; lia|].
      apply texts_iff in El; [|unfold MAX_BATCHSIZE_SEARCH; lia]. pose proof (proj2 (input_texts_iff _ _) El) as Il.
      destruct (texts_tsv fmt m lexm (p_freq_weight p) (wl_files _ L) (se fuel) l 0) as (blocks & shown & Fb & Sb & Eb).
      { intros t Ht. destruct (HF fuel Hfu ls l t Hls Il Ht) as (ms & Hms & E). exists ms. split; [done|]. apply Hms. }
      exists (joined 10 shown :: outs). split; [constructor; [|done]|].
      - exists l, blocks, shown. split; [done|]. split; [|done]. assert (Forall (fun t => t ∈ l) l) as Hl by (by apply Forall_forall).
        revert Hl Il. clear -Fb HF Hfu Hls W Fs. generalize l at 1 3. intros l0 Hl Il0.
        induction Fb as [|t b l bs (ms & outs & E & Fo & ->) _ IH]; [constructor|]. inversion Hl; subst. constructor; [|by apply IH].
        destruct (HF fuel Hfu ls l0 t Hls Il0) as (ms' & Hms & E'); [done|]. rewrite E in E'. injection E' as <-.
        exists ms, outs, lexm. split; [apply Hms|]. split; [apply search_lexmatch_is|]. split; [|done].
        eapply Forall2_impl; [exact Fo|]. intros x out (rs & os & cells & S1 & O1 & Fc & ->). exists rs, os, cells. split; [done|]. split; [done|]. split; [|done].
        eapply Forall2_impl; [exact Fc|]. intros r cs (v & Hv & ->). exists v. split; [done|]. by rewrite Fs.
      - cbn [map pall]. rewrite Eo. unfold process_search. rewrite El. cbn [pres]. rewrite Eb. done. }
    destruct (G F (le_n F) lls (incl_refl lls)) as (outs & Fo & _). exists outs. split; [done|].
    assert (forall outs', Forall2 output lls outs' -> outs' = outs) as U.
    { intros outs' Fo'. eapply Forall2_det; [|exact Fo|exact Fo']. intros ls y z Hls. apply (output_det m'). intros l t. by apply An. }
    split; [done|]. exists F. intros fuel Hfu. destruct (G fuel Hfu lls (incl_refl lls)) as (outs' & Fo' & Eo). rewrite (U _ Fo') in Eo.
    rewrite Run. unfold whole_output. rewrite Eo. unfold pthen, of_printed. cbn [p_stop p_out put]. by rewrite app_nil_r.
  Qed.

  Lemma results_showable l : Forall (fun v => clean (vv_text v)) (m_decoder m) -> weight_single (p_freq_weight p) -> Forall result_ok l ->
    Forall (showable (vr_score (p_freq_weight p)) m) l.
  Proof.
    intros Ht Hw H. eapply Forall_impl; [exact H|]. intros r Hok. pose proof Hok as [Hd Hf]. split.
    - destruct (P_Rank.vr_score_number _ _ Hw Hok) as (x & Hx & _). by eapply fval_finite.
    - apply P_Rank.modest_dv in Hd as (x & Hx & _). by eapply fval_finite.
    - apply P_Rank.unit_dv in Hf as (x & Hx & _). by eapply fval_finite.
    - intros v Hv. eapply Forall_lookup_1 in Ht; [exact Ht|exact Hv].
    - intros i v _ Hv. eapply Forall_lookup_1 in Ht; [exact Ht|exact Hv].
  Qed.
  Lemma values_det m' t ms a b : found m' (in_bytes p) t ms -> values t a -> values t b -> b = a.
  Proof using W.
    intros Fd (ms1 & b1 & S1 & B1 & F1) (ms2 & b2 & S2 & B2 & F2).
    rewrite (search_lexmatch_det _ B1), (search_lexmatch_det _ B2) in *.
    rewrite (tf_unique _ _ _ _ _ _ _ _ _ _ _ _ Fd _ S1), (tf_unique _ _ _ _ _ _ _ _ _ _ _ _ Fd _ S2) in *.
    eapply Forall2_det; [|exact F1|exact F2]. intros x y z _. apply found_says_det.
  Qed.
  Lemma search_json ls : flag_typed ts "json" -> lls = [ls] -> clean_search m ts lls -> (forall x, finite x -> number (fmt x)) ->
    exists l jss, input_texts ts ls l /\ Forall2 values l jss /\
    (forall l' jss', input_texts ts ls l' -> Forall2 values l' jss' -> jss' = jss) /\
    exists F, forall fuel, F <= fuel -> exists out, prog fuel = Outcome out Ended /\ says out (JArr (concat jss)).
  Proof using W A C L K R Hs Hc Hsp Ho Ho' Ho''.
    intros Hj%(search_json_is true) El [Ct1 Ct2 Ct3 Ct4] Hfmt. destruct whole_search_run as (Fs & m' & An & se & Fi & Run). rewrite Hj in Run.
    destruct (all_searched m' se An Fi) as (F & HF).
    assert (ls ∈ lls) as Hls by (rewrite El; by left).
    destruct (texts_exist sp pl MAX_BATCHSIZE_SEARCH ls) as (l & Et); [unfold MAX_BATCHSIZE_SEARCH; lia|].
    apply texts_iff in Et; [|unfold MAX_BATCHSIZE_SEARCH; lia]. pose proof (proj2 (input_texts_iff _ _) Et) as Il.
    pose proof (sa_weight _ _ _ _ _ _ _ _ _ A) as Hw.
    assert (forall fuel, F <= fuel -> exists jss out, Forall2 values l jss /\ prog fuel = Outcome out Ended /\ says out (JArr (concat jss))) as G.
    { intros fuel Hfu.
      assert (p_stop (process_search fmt m lexm (p_freq_weight p) (se fuel) true sp pl MAX_BATCHSIZE_SEARCH ls) = None) as Hst.
      { unfold process_search. rewrite Et. cbn [pres]. apply texts_json; [exact (wl_files _ L)|]. intros t Ht.
        destruct (HF fuel Hfu ls l t Hls Il Ht) as (ms & Hms & E). exists ms. split; [done|]. apply Hms. }
      destruct (P_CliOut.search_says fmt m lexm (p_freq_weight p) (se fuel) sp pl MAX_BATCHSIZE_SEARCH ls l Hfmt) as (jss & Hsay & Fj); [|done| |done|].
      - split; [done|pose proof (wl_files _ L); lia|done].
      - intros t ms Ht E. destruct (HF fuel Hfu ls l t Hls Il Ht) as (ms' & Hms & E'). rewrite E in E'. injection E' as <-.
        eapply Forall_impl; [exact (tf_shown _ _ _ _ _ _ _ _ _ _ _ _ Hms)|]. intros x [S1 S2 _ _]. split.
        + pose proof (Ct4 ls l t Hls Il Ht) as Hcl. unfold clean in *. rewrite Forall_forall in Hcl |- *. intros c Hcc. by apply Hcl, S1.
        + by apply results_showable.
      - exists jss, (p_out (whole_output true [process_search fmt m lexm (p_freq_weight p) (se fuel) true sp pl MAX_BATCHSIZE_SEARCH ls])). split; [|split; [|done]].
        + assert (Forall (fun t => t ∈ l) l) as Hl by (by apply Forall_forall).
          revert Hl Il. clear -Fj HF Hfu Hls W Fs. generalize l at 1 3. intros l0 Hl Il0.
          induction Fj as [|t j l jss (ms & E & Fo) _ IH]; [constructor|]. inversion Hl; subst. constructor; [|by apply IH].
          destruct (HF fuel Hfu ls l0 t Hls Il0) as (ms' & Hms & E'); [done|]. rewrite E in E'. injection E' as <-.
          exists ms, lexm. split; [apply Hms|]. split; [apply search_lexmatch_is|].
          eapply Forall2_impl; [exact Fo|]. intros x v (os & tg & vs & O1 & T1 & V1 & ->). exists os, tg, vs. split; [done|]. split; [done|]. split; [|done].
          destruct V1 as [|vs sel rs js S1 F1]; [constructor|]. econstructor; [exact S1|]. eapply Forall2_impl; [exact F1|]. intros r jv (v & Hv & ->). exists v. split; [done|]. by rewrite Fs.
        + rewrite Run, El. cbn [map]. unfold of_printed. f_equal.
          unfold whole_output. cbn [pall]. rewrite P_Cli.pthen_nil_r. unfold pthen. cbn [p_stop put]. rewrite Hst. done. }
    destruct (G F (le_n F)) as (jss & out & Fj & _). exists l, jss. split; [done|]. split; [done|].
    assert (forall l' jss', input_texts ts ls l' -> Forall2 values l' jss' -> jss' = jss) as U.
    { intros l' jss' Il' Fj'. assert (l' = l) as -> by (apply input_texts_iff in Il'; congruence).
      eapply Forall2_det; [|exact Fj|exact Fj']. intros t y z Ht. destruct (An ls l t Hls Il Ht) as (ms & Hms). by eapply values_det. }
    split; [done|]. exists F. intros fuel Hfu. destruct (G fuel Hfu) as (js' & out' & Fj' & Eo & So). rewrite (U _ _ Il Fj') in So. eauto.
  Qed.
End search.
