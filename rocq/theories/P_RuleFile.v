(** Proofs about context rule files: what is read is what the lines say. *)
From Verif Require Import M_Base M_Anahash M_Float M_Types M_Model M_Confusable M_Rules M_Main.
From Verif Require Import S_Model S_Rules S_SearchAll S_RuleFile P_Base P_Anahash P_Confusable P_Utf8 P_Rules P_Parse.
From Verif Require P_Vocab P_Lm.
From stdpp Require Import options.

Lemma fields_split sep s fs : fields_of sep s fs <-> fs = split_on sep s.
Proof. split; [apply P_Vocab.fields_det|intros ->; apply P_Vocab.split_on_fields]. Qed.
Lemma stripped_trim ws s t : stripped ws s t -> t = trim ws s.
Proof. intros (l & r & -> & Hl & Hr & Ht). rewrite trim_pad by done. symmetry. by apply trim_fixed. Qed.
Lemma trim_stripped ws s : stripped ws s (trim ws s).
Proof.
  assert (forall s, exists l, s = l ++ trim_start ws s /\ Forall (fun c => ws c = true) l) as H.
  { clear. induction s as [|c s (l & E & Hl)]; [by exists []|]. cbn. destruct (ws c) eqn:Hc; [|by exists []].
    exists (c :: l). cbn. split; [congruence|by constructor]. }
  assert (forall s c, head (trim_start ws s) = Some c -> ws c = false) as Hh.
  { clear. induction s as [|d s IH]; intros c; cbn; [done|]. destruct (ws d) eqn:Hd; [apply IH|]. cbn. by intros [= <-]. }
  destruct (H s) as (l & E & Hl). destruct (H (reverse (trim_start ws s))) as (r & E' & Hr).
  apply (f_equal reverse) in E'. rewrite reverse_involutive, reverse_app in E'.
  exists l, (reverse r). unfold trim. split; [rewrite E at 1; by rewrite E' at 1|]. split; [done|]. split; [by apply Forall_reverse|].
  split.
  - intros c Hc. apply (Hh s). rewrite E'. destruct (reverse (trim_start ws (reverse (trim_start ws s)))); [done|]. exact Hc.
  - intros c Hc. apply (Hh (reverse (trim_start ws s))). by rewrite last_reverse in Hc.
Qed.
Lemma stripped_iff ws s t : stripped ws s t <-> t = trim ws s.
Proof. split; [apply stripped_trim|intros ->; apply trim_stripped]. Qed.

Lemma group_spec t : is_prefix [33; 40]%N t && is_suffix [41%N] t = true <-> exists u, group t u.
Proof.
  rewrite andb_true_iff, is_prefix_spec, is_suffix_spec. unfold group. split.
  - intros [[u ->] [v Ev]]. assert (exists w, u = w ++ [41%N]) as [w ->]; [|by exists w].
    destruct (decide (u = [])) as [->|Hu]; [rewrite app_nil_r in Ev|].
    + exfalso. apply (f_equal last) in Ev. rewrite last_snoc in Ev. done.
    + destruct (exists_last Hu) as (w & c & ->). exists w. rewrite app_assoc in Ev. by apply app_inj_tail in Ev as [_ ->].
  - intros (u & ->). split; [by eexists|]. exists ([33; 40]%N ++ u). by rewrite app_assoc.
Qed.
Lemma group_inside t u : group t u -> drop 2 (take (length t - 1) t) = u.
Proof.
  unfold group. intros ->. rewrite (app_assoc [33; 40]%N u [41%N]). rewrite take_app_alt by (rewrite !app_length; cbn; lia). done.
Qed.
Lemma two_fields s : 124%N ∈ s <-> 2 <= length (split_on 124 s).
Proof.
  split; [apply split_on_two|]. intros H. destruct (decide (124%N ∈ s)) as [|Hn]; [done|]. rewrite (split_on_none _ _ Hn) in H. cbn in H. lia.
Qed.
Lemma find_lexicon_iff source : forall l i j, find_lexicon l source i = Some j <-> i <= j /\ names_lexicon l source (j - i).
Proof.
  intros l i j. split.
  - intros H. apply find_lexicon_sound in H as (L & H1 & H2). split; [done|]. split; [done|]. intros k x Hk Hx. by apply (H2 k x).
  - revert i. induction l as [|x l IH]; intros i (L & (y & Ey & Hy) & Hn); [done|]. cbn [find_lexicon].
    destruct (decide (j = i)) as [->|Hne].
    + rewrite Nat.sub_diag in Ey. injection Ey as <-. destruct Hy as [->|Hs]; [by rewrite bool_decide_true|].
      apply is_suffix_spec in Hs. rewrite Hs. by rewrite orb_true_r.
    + destruct (Hn 0 x) as [H1 H2]; [lia|done|]. rewrite bool_decide_false by congruence.
      destruct (is_suffix (47%N :: source) x) eqn:Es; [by apply is_suffix_spec in Es|]. cbn [orb]. apply IH. split; [lia|].
      assert (j - i = S (j - S i)) as E by lia. rewrite E in *. split; [by exists y|]. intros k z Hk Hz. by apply (Hn (S k) z); [lia|].
Qed.

Section patterns.
  Context (ws : N -> bool) (lexicons : list str) (encoder : gmap str vocab_id).
  #[local] Notation psays := (pattern_says ws lexicons encoder).
  #[local] Notation parse := (pm_parse ws lexicons encoder).

  Lemma says_cases s p : psays s p <->
    let t := trim ws s in
    if bool_decide (t = [63%N]) then p = PAny
    else if bool_decide (t = [94%N]) then p = PNoLexicon
    else if is_prefix [33; 40]%N t && is_suffix [41%N] t then exists q, psays (drop 2 (take (length t - 1) t)) q /\ p = PNot q
    else if bool_decide (124%N ∈ t) then exists ps, Forall2 psays (split_on 124 t) ps /\ p = PDisjunction ps
    else if is_prefix [33%N] t then exists q, psays (drop 1 t) q /\ p = PNot q
    else if is_prefix [64%N] t then exists i, names_lexicon lexicons (drop 1 t) i /\ p = PFromLexicon (N.of_nat (as_u8 i))
    else exists id, encoder !! t = Some id /\ p = PVocab id.
  Proof.
    cbv zeta.
    assert (forall t, (forall u, ~ group t u) -> is_prefix [33; 40]%N t && is_suffix [41%N] t = false) as G.
    { intros t H. destruct (_ && _) eqn:E; [|done]. apply group_spec in E as (u & Hu). by destruct (H u). }
    split.
    - intros H. destruct H as [H|H|t u p H Hg Hu|t xs ps H Hg Hf Hl Hs|u p H Hg Hb Hu|n i H Hb Hi|t id H Ho Hb Hn Ha He]; apply stripped_iff in H; rewrite <- H; clear H s.
      + done.
      + done.
      + rewrite !bool_decide_false by (by intros ->). rewrite (proj2 (group_spec t)) by eauto. rewrite (group_inside _ _ Hg). eauto.
      + apply fields_split in Hf as ->. pose proof Hl as Hb. apply two_fields in Hb. rewrite (bool_decide_false (t = [63%N])), (bool_decide_false (t = [94%N])) by (intros ->; vm_compute in Hl; lia).
        rewrite G by done. rewrite bool_decide_true by done. eauto.
      + rewrite (bool_decide_false (_ = [63%N])), (bool_decide_false (_ = [94%N])) by done.
        rewrite G by done. rewrite bool_decide_false by (by rewrite elem_of_cons; intros [?|?]). cbn. rewrite drop_0. by refine (ex_intro _ _ (conj _ eq_refl)).
      + rewrite (bool_decide_false (_ = [63%N])), (bool_decide_false (_ = [94%N])) by done.
        rewrite G by done. rewrite bool_decide_false by (by rewrite elem_of_cons; intros [?|?]). cbn. rewrite drop_0. by refine (ex_intro _ _ (conj _ eq_refl)).
      + rewrite !elem_of_cons, elem_of_nil in Ho. rewrite !bool_decide_false by tauto. rewrite G by (intros u ->; by eapply Hn).
        destruct (is_prefix [33%N] t) eqn:E1; [apply is_prefix_spec in E1 as (u & ->); by destruct (Hn u)|].
        destruct (is_prefix [64%N] t) eqn:E2; [apply is_prefix_spec in E2 as (u & ->); by destruct (Ha u)|]. eauto.
    - assert (stripped ws s (trim ws s)) as Hs by (by apply stripped_iff). set (t := trim ws s) in *. clearbody t.
      destruct (bool_decide_reflect (t = [63%N])) as [->|N1]; [intros ->; by apply says_any|].
      destruct (bool_decide_reflect (t = [94%N])) as [->|N2]; [intros ->; by apply says_no_lexicon|].
      destruct (is_prefix [33; 40]%N t && is_suffix [41%N] t) eqn:Eg.
      { apply group_spec in Eg as (u & Hu). rewrite (group_inside _ _ Hu). intros (q & Hq & ->). by eapply says_group. }
      assert (forall u, ~ group t u) as Hg.
      { intros u Hu. rewrite (proj2 (group_spec t)) in Eg by eauto. done. }
      destruct (bool_decide_reflect (124%N ∈ t)) as [B|B].
      { intros (ps & F & ->). eapply says_alternatives; [exact Hs|done|by apply fields_split| |done]. by apply two_fields. }
      destruct (is_prefix [33%N] t) eqn:E1.
      { apply is_prefix_spec in E1 as (u & ->). cbn. rewrite drop_0. intros (q & Hq & ->). eapply says_negated; [exact Hs|exact Hg| |done].
        intros H. apply B. by right. }
      destruct (is_prefix [64%N] t) eqn:E2.
      { apply is_prefix_spec in E2 as (u & ->). cbn. rewrite drop_0. intros (i & Hi & ->). eapply says_source; [exact Hs| |done]. intros H. apply B. by right. }
      intros (id & He & ->). eapply says_word; [exact Hs| |done| | |done].
      + rewrite !elem_of_cons, elem_of_nil. tauto.
      + intros u ->. by rewrite (proj2 (is_prefix_spec _ _)) in E1 by (by exists u).
      + intros u ->. by rewrite (proj2 (is_prefix_spec _ _)) in E2 by (by exists u).
  Qed.

  Lemma parse_items_iff fuel : forall l, (forall x p, x ∈ l -> parse fuel x = Ok (Some p) <-> psays x p) ->
    forall ps, parse_items ws lexicons encoder fuel l = Ok (Some ps) <-> Forall2 psays l ps.
  Proof.
    induction l as [|x l IH]; intros H ps; cbn [parse_items].
    - split; [intros [= <-]; constructor|]. intros F. by inversion F.
    - split.
      + destruct (parse fuel x) as [[q|]|] eqn:E; cbn [rbind]; [|done|done].
        destruct (parse_items ws lexicons encoder fuel l) as [[qs|]|] eqn:El; cbn; [|done|done]. intros [= <-].
        constructor; [apply H; [by left|done]|]. apply IH; [|done]. intros y p Hy. apply H. by right.
      + intros F. inversion F as [|? q ? qs Hq F']; subst. apply (H x q) in Hq; [|by left]. rewrite Hq. cbn [rbind].
        apply IH in F'; [|intros y p Hy; apply H; by right]. rewrite F'. done.
  Qed.
  Lemma parse_iff fuel : forall s, length s < fuel -> forall p, parse fuel s = Ok (Some p) <-> psays s p.
  Proof.
    induction fuel as [|fuel IH]; intros s L p; [lia|]. rewrite parse_unfold, says_cases. cbv zeta.
    pose proof (trim_length ws s) as Lt. set (t := trim ws s) in *. clearbody t.
    assert (forall q (x : res (option pattern_match)), (forall y, x = Ok (Some y) <-> q y) -> rbind x (fun z => Ok (option_map PNot z)) = Ok (Some p) <-> exists y, q y /\ p = PNot y) as K.
    { intros q x Hx. split.
      - destruct x as [[y|]|]; cbn; [|done|done]. intros [= <-]. exists y. split; [|done]. by apply Hx.
      - intros (y & Hy & ->). apply Hx in Hy as ->. done. }
    destruct (bool_decide (t = [63%N])); [split; [by intros [= <-]|by intros ->]|].
    destruct (bool_decide (t = [94%N])); [split; [by intros [= <-]|by intros ->]|].
    destruct (is_prefix [33; 40]%N t && is_suffix [41%N] t) eqn:Eg.
    { apply K. apply IH. apply group_spec in Eg as (u & Hu). rewrite (group_inside _ _ Hu). unfold group in Hu. rewrite Hu in Lt. rewrite !app_length in Lt. cbn in Lt. lia. }
    destruct (bool_decide_reflect (124%N ∈ t)) as [B|B].
    { split.
      - destruct (parse_items ws lexicons encoder fuel (split_on 124 t)) as [[qs|]|] eqn:E; cbn [rbind option_map]; [|done|done]. intros [= <-].
        exists qs. split; [|done]. eapply parse_items_iff; [|exact E]. intros x q Hx. apply IH. apply split_on_length in Hx as [_ Hx]. specialize (Hx B). lia.
      - intros (qs & F & ->). apply (parse_items_iff fuel) in F; [by rewrite F|]. intros x q Hx. apply IH. apply split_on_length in Hx as [_ Hx]. specialize (Hx B). lia. }
    destruct (is_prefix [33%N] t) eqn:E1.
    { apply K. apply IH. apply is_prefix_spec in E1 as (u & ->). cbn in *. rewrite drop_0. lia. }
    destruct (is_prefix [64%N] t).
    - assert (forall i, find_lexicon lexicons (drop 1 t) 0 = Some i <-> names_lexicon lexicons (drop 1 t) i) as Hx.
      { intros i. rewrite find_lexicon_iff, Nat.sub_0_r. split; [by intros [_ ?]|split; [lia|done]]. }
      split.
      + destruct (find_lexicon lexicons (drop 1 t) 0) as [i|] eqn:E; cbn [option_map]; [|done]. intros [= <-]. exists i. split; [by apply Hx|done].
      + intros (i & Hi & ->). apply Hx in Hi as ->. done.
    - split.
      + destruct (encoder !! t) as [id|]; cbn; [|done]. intros [= <-]. eauto.
      + intros (id & -> & ->). done.
  Qed.
  Lemma expression_iff e p : parse (S (length (trim ws e))) (trim ws e) = Ok (Some p) <-> psays e p.
  Proof.
    rewrite parse_iff by lia. rewrite !says_cases. cbv zeta. by rewrite trim_idem.
  Qed.
End patterns.

(** ** Tags *)
Lemma parts_iff ws f l : parts_say ws f l <-> parts_of ws f = l.
Proof.
  destruct f as [s|]; [|split; [by intros ->|by intros <-]]. cbn [parts_say parts_of].
  assert (forall ys, selects (fun y : str => y <> []) ys (List.filter (fun w => negb (bool_decide (w = []))) ys)) as K.
  { induction ys as [|y ys IH]; cbn; [constructor|]. destruct (bool_decide_reflect (y = [])); cbn; [by apply selects_skip; [intros ?|]|by apply selects_keep]. }
  split.
  - intros (xs & ys & F & H & S). apply fields_split in F as ->. assert (ys = map (trim ws) (split_on 59 s)) as ->.
    { clear -H. induction H as [|x y xs ys H _ IH]; [done|]. cbn. apply stripped_iff in H as ->. by f_equal. }
    eapply P_Lm.selects_det; [apply K|exact S].
  - intros <-. exists (split_on 59 s), (map (trim ws) (split_on 59 s)). split; [by apply fields_split|]. split; [|apply K].
    induction (split_on 59 s); cbn; constructor; [by apply stripped_iff|done].
Qed.

Lemma range_iff n s r : parse_tagoffset n s = Ok (Some r) <-> range_says n s r.
Proof.
  unfold parse_tagoffset. assert (forall f k, parse_u8 f = Some k <-> decimal 255 f k) as U by (intros; apply P_Vocab.parse_uint_spec).
  assert (forall k, ~ decimal 255 [] k) as U0 by (intros k H; apply U in H; by rewrite parse_u8_nil in H).
  destruct (split_on 58 s) as [|f fs] eqn:Es; [by apply split_on_nonempty in Es|]. split.
  - intros H.
    assert (exists b, ((f = [] /\ b = 0%N) \/ decimal 255 f b) /\ (match f with [] => Some 0 | _ => option_map N.to_nat (parse_u8 f) end) = Some (N.to_nat b)) as (b & Hb & Eb).
    { destruct f as [|c f]; [exists 0%N; split; [by left|done]|]. destruct (parse_u8 (c :: f)) as [k|] eqn:E.
      - exists k. split; [right; by apply U|done].
      - cbn [option_map] in H. apply rbind_ok in H as (tl & _ & H). done. }
    replace (match f with [] => Some 0 | _ :: _ => option_map N.to_nat (parse_u8 f) end) with (Some (N.to_nat b)) in H. cbn [default] in H.
    apply rbind_ok in H as (tl & Et & H). destruct tl as [l|]; [|done]. injection H as <-.
    enough (exists k, l = N.to_nat k /\ ((default [] (head fs) = [] /\ (N.to_nat b <= n mod 256)%nat /\ k = N.of_nat (n mod 256 - N.to_nat b)) \/
        (exists g, head fs = Some g /\ decimal 255 g k))) as (k & -> & Hk).
    { econstructor; [by apply fields_split|done|done]. }
    assert (forall l, rbind (u8_sub (as_u8 n) (N.to_nat b)) (fun l => Ok (Some l)) = Ok (Some l) -> (N.to_nat b <= n mod 256)%nat /\ l = n mod 256 - N.to_nat b) as G.
    { intros l'. unfold u8_sub, as_u8. destruct (Nat.leb_spec (N.to_nat b) (n mod 256)); [|done]. cbn. by intros [= <-]. }
    destruct fs as [|g fs]; cbn [nth_error head default] in *.
    + apply G in Et as [? ->]. exists (N.of_nat (n mod 256 - N.to_nat b)). split; [by rewrite Nat2N.id|]. by left.
    + destruct g as [|c g].
      * apply G in Et as [? ->]. exists (N.of_nat (n mod 256 - N.to_nat b)). split; [by rewrite Nat2N.id|]. by left.
      * injection Et as Et. destruct (parse_u8 (c :: g)) as [k|] eqn:E; [|done]. injection Et as <-. exists k. split; [done|]. right. exists (c :: g). split; [done|]. by apply U.
  - intros [f' fs' b l F Hb Hl]. apply fields_split in F. rewrite Es in F. injection F as -> ->.
    assert (match f with [] => Some 0 | _ :: _ => option_map N.to_nat (parse_u8 f) end = Some (N.to_nat b)) as ->.
    { destruct Hb as [[-> ->]|Hb]; [done|]. destruct f; [by apply U0 in Hb|]. apply U in Hb as ->. done. }
    change (default 0 (Some (N.to_nat b))) with (N.to_nat b). destruct Hl as [(E & Hle & ->)|(g & Eg & Hg)].
    + assert (u8_sub (as_u8 n) (N.to_nat b) = Ok (n mod 256 - N.to_nat b)) as Eu by (unfold u8_sub, as_u8; by rewrite (proj2 (Nat.leb_le _ _) Hle)).
      rewrite Nat2N.id. destruct fs as [|g fs]; cbn [nth_error head default] in *; [by rewrite Eu|]. cbn in E. subst g. by rewrite Eu.
    + destruct fs as [|g' fs]; [done|]. injection Eg as ->. cbn [nth_error]. destruct g as [|c g]; [by apply U0 in Hg|].
      apply U in Hg as ->. done.
Qed.

Lemma find_tag_iff tag : forall tags i j, find_tag tags tag i = Some j <-> i <= j /\ tags !! (j - i) = Some tag /\ forall k, k < j - i -> tags !! k <> Some tag.
Proof.
  induction tags as [|t tags IH]; intros i j; cbn [find_tag]; [split; [done|by intros (_ & ? & _)]|].
  destruct (bool_decide_reflect (t = tag)) as [->|Hne].
  - split.
    + intros [= <-]. rewrite Nat.sub_diag. split; [lia|]. split; [done|]. intros k. lia.
    + intros (L & _ & H). destruct (decide (j = i)) as [->|]; [done|]. destruct (H 0); [lia|done].
  - rewrite IH. split.
    + intros (L & E & H). assert (j - i = S (j - S i)) as -> by lia. split; [lia|]. split; [done|]. intros [|k] Hk; [cbn; congruence|]. cbn. apply H. lia.
    + intros (L & E & H). destruct (decide (j = i)) as [->|]; [rewrite Nat.sub_diag in E; cbn in E; congruence|].
      assert (j - i = S (j - S i)) as X by lia. rewrite X in *. split; [lia|]. split; [done|]. intros k Hk. apply (H (S k)). lia.
Qed.
Lemma tags_iff new : forall table table' ns, tags_numbered table new table' ns <-> add_tags table new = (table', ns).
Proof.
  induction new as [|t new IH]; intros table table' ns; cbn [add_tags].
  - split; [by inversion 1|]. intros [= <- <-]. constructor.
  - unfold add_tag. split.
    + intros H. inversion H as [|? ? ? i ? ns1 E Hf H1|? ? ? ? ns1 Hn H1]; subst.
      * assert (find_tag table t 0 = Some i) as -> by (apply find_tag_iff; rewrite Nat.sub_0_r; split; [lia|done]).
        apply IH in H1 as ->. done.
      * pose proof (find_tag_spec t table 0) as F. destruct (find_tag table t 0) as [j|].
        { destruct F as [_ F]. apply elem_of_list_lookup_2 in F. done. }
        apply IH in H1 as ->. done.
    + destruct (find_tag table t 0) as [i|] eqn:E.
      * destruct (add_tags table new) as [tb ms] eqn:E1. intros [= <- <-]. apply find_tag_iff in E as (_ & E & Hf). rewrite Nat.sub_0_r in *.
        apply IH in E1. by eapply numbered_known.
      * destruct (add_tags (table ++ [t]) new) as [tb ms] eqn:E1. intros [= <- <-]. apply IH in E1. eapply numbered_new; [|done].
        pose proof (find_tag_spec t table 0) as F. by rewrite E in F.
Qed.

(** ** Lines *)
Lemma collect_iff {A B} (f : A -> res (option B)) (R : A -> B -> Prop) l : (forall a b, f a = Ok (Some b) <-> R a b) ->
  forall bs, (exists os, rmapM f l = Ok os /\ collect_opt os = Some bs) <-> Forall2 R l bs.
Proof.
  intros H bs. split.
  - intros (os & E & C). apply collect_opt_inv in C as ->. apply rmapM_inv in E. revert bs E. induction l as [|a l IH]; intros bs E; destruct bs as [|b bs]; inversion E; subst; constructor; [by apply H|by apply IH].
  - intros F. exists (map Some bs). split; [|apply collect_some]. apply rmapM_ok. induction F; cbn; constructor; [by apply H|done].
Qed.

Lemma whole_range n r : range_says n [48; 58]%N r <-> r = (0, n mod 256).
Proof.
  rewrite <- range_iff. unfold parse_tagoffset. change (split_on 58 [48; 58]%N) with [[48%N]; []]. cbn [nth_error default].
  change (option_map N.to_nat (parse_u8 [48%N])) with (Some 0). cbn [default]. unfold u8_sub, as_u8. cbn. rewrite Nat.sub_0_r.
  split; [by intros [= <-]|by intros ->].
Qed.

Section lines.
  Context (ws : N -> bool) (pf : str -> option f32).
  #[local] Notation rsays m := (rule_says ws pf (m_lexicons m) (m_encoder m)).

  Lemma parts_not_empty f : existsb (fun t : str => bool_decide (t = [])) (parts_of ws f) = false.
  Proof.
    destruct f as [s|]; [|done]. cbn [parts_of]. induction (map (trim ws) (split_on 59 s)) as [|y ys IH]; cbn; [done|].
    destruct (bool_decide_reflect (y = [])); cbn; [done|]. by rewrite bool_decide_false.
  Qed.
  Lemma add_given_iff m pat score tags offs' m' : [] ∉ tags ->
    add_contextrule ws m pat score tags offs' = Ok (m', true) <->
    exists ps rs table ns, Forall2 (pattern_says ws (m_lexicons m) (m_encoder m)) (split_on 59 pat) ps /\
      tags_numbered (m_tags m) tags table ns /\ Forall2 (range_says (length ps)) offs' rs /\
      m' = with_rules m (m_context_rules m ++ [{| cr_pattern := ps; cr_score := score; cr_tag := ns;
             cr_tagoffset := rs ++ replicate (length tags - length offs') (0, as_u8 (length ps)) |}]) table.
  Proof.
    intros Hne. assert (existsb (fun t => bool_decide (t = [])) tags = false) as Ex.
    { apply not_true_is_false. rewrite existsb_exists. intros (x & Hx & Hb). apply bool_decide_eq_true in Hb as ->. by apply Hne, elem_of_list_In. }
    unfold add_contextrule. rewrite Ex. split.
    - intros H. apply rbind_ok in H as (os & E & H). destruct (collect_opt os) as [ps|] eqn:C; [|done].
      assert (Forall2 (pattern_says ws (m_lexicons m) (m_encoder m)) (split_on 59 pat) ps) as Fp.
      { eapply collect_iff; [|by exists os]. cbv zeta. intros a b. apply expression_iff. }
      destruct (add_tags (m_tags m) tags) as [table ns] eqn:Et. apply tags_iff in Et.
      apply rbind_ok in H as (ros & Er & H). destruct (collect_opt ros) as [rs|] eqn:Cr; [|done].
      assert (Forall2 (range_says (length ps)) offs' rs) as Fr.
      { eapply collect_iff; [|by exists ros]. intros a b. apply range_iff. }
      destruct ps as [|p ps]; [inversion Fp as [E0|]; symmetry in E0; by apply split_on_nonempty in E0|]. injection H as <-.
      exists (p :: ps), rs, table, ns. split; [done|]. split; [done|]. split; [done|]. cbn [m_context_rules with_rules].
      assert (length ns = length tags) as -> by (clear -Et; induction Et; cbn; congruence). by rewrite (Forall2_length _ _ _ Fr).
    - intros (ps & rs & table & ns & Fp & Et & Fr & ->).
      destruct (proj2 (collect_iff (fun e => pm_parse ws (m_lexicons m) (m_encoder m) (S (length (trim ws e))) (trim ws e)) _ _ (expression_iff ws (m_lexicons m) (m_encoder m)) ps) Fp) as (os & -> & C).
      cbn [rbind]. rewrite C. pose proof Et as Et'. apply tags_iff in Et' as ->.
      destruct (proj2 (collect_iff (parse_tagoffset (length ps)) _ _ (range_iff (length ps)) rs) Fr) as (ros & -> & Cr).
      cbn [rbind]. rewrite Cr. destruct ps as [|p ps]; [inversion Fp as [E0|]; symmetry in E0; by apply split_on_nonempty in E0|].
      cbn [m_context_rules with_rules]. assert (length ns = length tags) as -> by (clear -Et; induction Et; cbn; congruence).
      by rewrite (Forall2_length _ _ _ Fr).
  Qed.

  Lemma add_rule_iff m pat score rest offs' m' :
    add_contextrule ws m pat score (parts_of ws rest) offs' = Ok (m', true) <->
    exists ps rs table ns, Forall2 (pattern_says ws (m_lexicons m) (m_encoder m)) (split_on 59 pat) ps /\
      tags_numbered (m_tags m) (parts_of ws rest) table ns /\ Forall2 (range_says (length ps)) offs' rs /\
      m' = with_rules m (m_context_rules m ++ [{| cr_pattern := ps; cr_score := score; cr_tag := ns;
             cr_tagoffset := rs ++ replicate (length (parts_of ws rest) - length offs') (0, as_u8 (length ps)) |}]) table.
  Proof.
    apply add_given_iff. intros Hx. pose proof (parts_not_empty rest) as E. apply not_true_iff_false in E. apply E, existsb_exists.
    exists []. split; [by apply elem_of_list_In|done].
  Qed.

  Lemma line_iff m l m' : read_contextrule_line ws pf m l = Ok (m', true) <->
    (no_rule l /\ m' = m) \/ (exists r table, rsays m (m_tags m) l table r /\ m' = with_rules m (m_context_rules m ++ [r]) table).
  Proof.
    unfold read_contextrule_line.
    destruct (bool_decide (l = []) || is_prefix [35%N] l) eqn:E0.
    { assert (l = [] \/ head l = Some 35%N) as H0.
      { apply orb_true_iff in E0 as [E0|E0]; [left; by eapply bool_decide_eq_true_1|]. right. apply is_prefix_spec in E0 as (u & ->). done. }
      split; [intros [= <-]; left; split; [destruct H0; [by left|by right; left]|done]|].
      intros [[_ ->]|(r & tb & [pat sc rest xs ps score tags offs ns rs Hh F _ _ _ _ _ _ _ _] & _)]; [done|].
      destruct H0 as [->|H0]; [|done]. apply fields_split in F. done. }
    assert (l <> [] /\ head l <> Some 35%N) as [Hl Hh].
    { apply orb_false_iff in E0 as [E1 E2]. split; [by eapply bool_decide_eq_false_1|]. destruct l as [|c l]; [done|]. cbn in *. rewrite andb_true_r in E2.
      intros [= ->]. done. }
    destruct (split_on 9 l) as [|pat [|sc rest]] eqn:Es; [by apply split_on_nonempty in Es|..].
    { split; [done|]. intros [[[?|[?|(s & rest & F)]] _]|(r & tb & [pat' sc rest xs ps score tags offs ns rs _ F _ _ _ _ _ _ _ _] & _)]; try done;
        apply fields_split in F; by rewrite Es in F. }
    destruct pat as [|c pat].
    { split; [intros [= <-]; left; split; [right; right; exists sc, rest; by apply fields_split|done]|].
      intros [[_ ->]|(r & tb & [pat' sc' rest' xs ps score tags offs ns rs _ F Hp _ _ _ _ _ _ _] & _)]; [done|]. apply fields_split in F. rewrite Es in F. injection F as E1 _ _. by destruct Hp. }
    assert (~ no_rule l) as Hno.
    { intros [?|[?|(s & r & F)]]; [done..|]. apply fields_split in F. by rewrite Es in F. }
    set (P := c :: pat) in *. assert (P <> []) as HP by done. clearbody P. clear c pat.
    split.
    - destruct (pf sc) as [score|] eqn:Esc; [|done]. cbv zeta. destruct (negb _) eqn:En; [done|]. apply negb_false_iff, Nat.eqb_eq in En.
      intros H. apply add_rule_iff in H as (ps & rs & table & ns & Fp & Ht & Fr & ->). right. eexists _, table. split; [|done].
      rewrite <- En, Nat.sub_diag. cbn [replicate]. rewrite app_nil_r.
      econstructor; [done|by apply fields_split|done|by apply fields_split|exact Fp|exact Esc|by apply parts_iff|by apply parts_iff|rewrite !nth_error_lookup in Ht; exact Ht|].
      rewrite !nth_error_lookup in *. revert En Fr. destruct ((length (parts_of ws (rest !! 0)) =? 1) && (length (parts_of ws (rest !! 1)) =? 0)) eqn:E1; intros En Fr.
      + apply andb_true_iff in E1 as [E1 E2]. apply Nat.eqb_eq in E1, E2. right. split; [done|]. split; [by apply nil_length_inv|].
        inversion Fr as [|? r ? rs' H1 F1]; subst. inversion F1; subst. apply whole_range in H1 as ->. done.
      + left. done.
    - intros [[? _]|(r & table & [pat' sc' rest' xs ps score tags offs ns rs _ F _ Fx Fp Esc Tg Of Ht Hr] & ->)]; [done|].
      apply fields_split in F. rewrite Es in F. injection F as -> -> ->. apply fields_split in Fx as ->. rewrite Esc. cbv zeta. rewrite !nth_error_lookup. apply parts_iff in Tg, Of. rewrite Of.
      set (offs' := if (length (parts_of ws (rest !! 0)) =? 1) && (length offs =? 0) then [[48; 58]%N] else offs).
      assert (length tags = length offs' /\ Forall2 (range_says (length ps)) offs' rs) as [L Fr].
      { unfold offs'. rewrite Tg. destruct Hr as [[L Fr]|(L & -> & ->)].
        - destruct (Nat.eqb_spec (length tags) 1) as [E1|]; cbn [andb]; [|done]. destruct (Nat.eqb_spec (length offs) 0); [lia|done].
        - rewrite L. cbn. split; [done|]. constructor; [|done]. by apply whole_range. }
      clearbody offs'. rewrite Tg, L, Nat.eqb_refl. cbn [negb]. rewrite <- Tg. apply add_rule_iff. exists ps, rs, table, ns. rewrite Tg.
      split; [done|]. split; [done|]. split; [done|]. rewrite L, Nat.sub_diag. cbn. by rewrite app_nil_r.
  Qed.

  Lemma rules_iff m' : forall lines m, read_contextrules ws pf m lines = Ok (m', true) <->
    exists table rules, rules_say ws pf (m_lexicons m) (m_encoder m) (m_tags m) lines table rules /\ m' = with_rules m (m_context_rules m ++ rules) table.
  Proof.
    assert (forall m, with_rules m (m_context_rules m) (m_tags m) = m) as W by (by intros []).
    induction lines as [|l lines IH]; intros m; cbn [read_contextrules].
    - split.
      + intros [= <-]. exists (m_tags m), []. split; [constructor|]. by rewrite app_nil_r, W.
      + intros (tb & rs & H & ->). inversion H; subst. by rewrite app_nil_r, W.
    - split.
      + intros H. apply rbind_ok in H as ([m1 [|]] & E & H); [|done]. apply line_iff in E as [[Hn ->]|(r & tb & Hr & ->)].
        * apply IH in H as (tb & rs & H & ->). exists tb, rs. split; [by apply rules_skip|done].
        * apply IH in H as (tb' & rs & H & ->). exists tb', (r :: rs). split; [by eapply rules_line|]. cbn. by rewrite <- app_assoc.
      + intros (tb & rs & H & ->). inversion H as [|? ? ? ? ? Hn H1|? ? ? tb1 ? r rs1 Hr H1]; subst.
        * assert (read_contextrule_line ws pf m l = Ok (m, true)) as -> by (apply line_iff; by left). cbn [rbind]. apply IH. eauto.
        * assert (read_contextrule_line ws pf m l = Ok (with_rules m (m_context_rules m ++ [r]) tb1, true)) as -> by (apply line_iff; right; eauto).
          cbn [rbind]. apply IH. exists tb, rs1. split; [done|]. cbn. by rewrite <- app_assoc.
  Qed.
End lines.

(** the specification leaves no choice *)
Lemma rules_unique ws pf lexicons encoder table lines tb1 rs1 tb2 rs2 :
  rules_say ws pf lexicons encoder table lines tb1 rs1 -> rules_say ws pf lexicons encoder table lines tb2 rs2 -> tb1 = tb2 /\ rs1 = rs2.
Proof.
  intros H1 H2. pose (m := Model [] [] encoder ∅ ∅ ∅ [] false false [] table (Weights f0 f0 f0 f0 f0) lexicons [] false).
  assert (read_contextrules ws pf m lines = Ok (with_rules m rs1 tb1, true)) as E1 by (apply rules_iff; eauto).
  assert (read_contextrules ws pf m lines = Ok (with_rules m rs2 tb2, true)) as E2 by (apply rules_iff; eauto).
  rewrite E1 in E2. by injection E2.
Qed.

(** what a rejected file leaves behind *)
Lemma add_tags_extends new : forall table, table `prefix_of` fst (add_tags table new).
Proof.
  induction new as [|t new IH]; intros table; cbn [add_tags]; [done|]. unfold add_tag. destruct (find_tag table t 0) as [i|].
  - specialize (IH table). by destruct (add_tags table new).
  - specialize (IH (table ++ [t])). destruct (add_tags (table ++ [t]) new). cbn in *. etrans; [|exact IH]. by eexists.
Qed.
Section rejected.
  Context (ws : N -> bool) (pf : str -> option f32).
  Lemma rejected_line m l m' : read_contextrule_line ws pf m l = Ok (m', false) ->
    ~ no_rule l /\ (forall table r, ~ rule_says ws pf (m_lexicons m) (m_encoder m) (m_tags m) l table r) /\
    m_context_rules m' = m_context_rules m /\ m_tags m `prefix_of` m_tags m'.
  Proof.
    intros H. assert (forall m1, read_contextrule_line ws pf m l <> Ok (m1, true)) as N by (intros m1; by rewrite H).
    split; [intros Hn; apply (N m), line_iff; by left|]. split; [intros table r Hr; eapply N, line_iff; right; eauto|].
    revert H. clear N. unfold read_contextrule_line. destruct (_ || _); [done|]. destruct (split_on 9 l) as [|[|c pat] [|sc rest]]; try done; try by intros [= <-].
    destruct (pf sc) as [score|]; [|by intros [= <-]]. cbv zeta. destruct (negb _); [by intros [= <-]|]. unfold add_contextrule.
    intros H. apply rbind_ok in H as (os & _ & H). destruct (collect_opt os) as [ps|]; [|by injection H as <-].
    pose proof (add_tags_extends (parts_of ws (nth_error rest 0)) (m_tags m)) as Hp.
    destruct (add_tags (m_tags m) (parts_of ws (nth_error rest 0))) as [table ns]. cbn [fst] in Hp.
    rewrite parts_not_empty in H. apply rbind_ok in H as (ros & _ & H). destruct (collect_opt ros) as [rs|]; [|injection H as <-; by cbn].
    destruct ps; done.
  Qed.
  Lemma rejected_file m' : forall lines m, read_contextrules ws pf m lines = Ok (m', false) ->
    exists pre bad post table rules, lines = pre ++ bad :: post /\
      rules_say ws pf (m_lexicons m) (m_encoder m) (m_tags m) pre table rules /\
      ~ no_rule bad /\ (forall table' r, ~ rule_says ws pf (m_lexicons m) (m_encoder m) table bad table' r) /\
      m_context_rules m' = m_context_rules m ++ rules /\ table `prefix_of` m_tags m'.
  Proof.
    induction lines as [|l lines IH]; intros m; cbn [read_contextrules]; [done|]. intros H. apply rbind_ok in H as ([m1 [|]] & E & H).
    - apply line_iff in E as [[Hn ->]|(r & tb & Hr & ->)]; apply IH in H as (pre & bad & post & tb' & rs & -> & H & Hb).
      + exists (l :: pre), bad, post, tb', rs. split; [done|]. split; [by apply rules_skip|done].
      + exists (l :: pre), bad, post, tb', (r :: rs). split; [done|]. split; [by eapply rules_line|]. cbn in Hb. by rewrite <- app_assoc in Hb.
    - injection H as <-. apply rejected_line in E as (Hn & Hr & Hc & Ht). exists [], l, lines, (m_tags m), []. rewrite app_nil_r.
      split; [done|]. split; [constructor|]. done.
  Qed.
End rejected.

(** several files, one after the other *)
Lemma rules_say_app ws pf lexicons encoder l1 l2 : forall table table' rules,
  rules_say ws pf lexicons encoder table (l1 ++ l2) table' rules <->
  exists table1 r1 r2, rules_say ws pf lexicons encoder table l1 table1 r1 /\ rules_say ws pf lexicons encoder table1 l2 table' r2 /\ rules = r1 ++ r2.
Proof.
  induction l1 as [|l l1 IH]; intros table table' rules; cbn [app].
  - split; [intros H; exists table, [], rules; split; [constructor|done]|]. intros (t1 & r1 & r2 & H1 & H2 & ->). by inversion H1; subst.
  - split.
    + intros H. inversion H as [|? ? ? ? ? Hn H1|? ? ? tb1 ? r rs Hr H1]; subst; apply IH in H1 as (t1 & r1 & r2 & H1 & H2 & ->).
      * exists t1, r1, r2. split; [by apply rules_skip|done].
      * exists t1, (r :: r1), r2. split; [by eapply rules_line|done].
    + intros (t1 & r1 & r2 & H1 & H2 & ->). inversion H1 as [|? ? ? ? ? Hn H3|? ? ? tb1 ? r rs Hr H3]; subst.
      * apply rules_skip; [done|]. apply IH. exists t1, r1, r2. done.
      * cbn [app]. eapply rules_line; [done|]. apply IH. exists t1, rs, r2. done.
Qed.
Lemma files_iff ws pf m' files : forall m,
  rfoldl (fun m f => expect_ok (read_contextrules ws pf m (f_lines f))) m files = Ok m' <->
  exists table rules, rules_say ws pf (m_lexicons m) (m_encoder m) (m_tags m) (concat (map f_lines files)) table rules /\
    m' = with_rules m (m_context_rules m ++ rules) table.
Proof.
  assert (forall m, with_rules m (m_context_rules m) (m_tags m) = m) as W by (by intros []).
  induction files as [|f files IH]; intros m; cbn [rfoldl map concat].
  - split.
    + intros [= <-]. exists (m_tags m), []. split; [constructor|]. by rewrite app_nil_r, W.
    + intros (tb & rs & H & ->). inversion H; subst. by rewrite app_nil_r, W.
  - split.
    + intros H. apply rbind_ok in H as (m1 & E & H). unfold expect_ok in E. apply rbind_ok in E as ([m2 ok] & E & E'). destruct ok; [|done]. injection E' as ->.
      apply rules_iff in E as (t1 & r1 & H1 & ->). apply IH in H as (t2 & r2 & H2 & ->). exists t2, (r1 ++ r2). split; [apply rules_say_app; eauto 6|].
      cbn. by rewrite <- app_assoc.
    + intros (tb & rs & (t1 & r1 & r2 & H1 & H2 & ->)%rules_say_app & ->).
      assert (read_contextrules ws pf m (f_lines f) = Ok (with_rules m (m_context_rules m ++ r1) t1, true)) as -> by (apply rules_iff; eauto).
      unfold expect_ok at 1. cbn [rbind]. apply IH. exists tb, r2. split; [done|]. cbn. by rewrite <- app_assoc.
Qed.
