(** Proofs about the texts a model contains and the files they are from. *)
From Coq Require Import Lia.
From Verif Require Import M_Base M_Anahash M_Iter M_Distance M_Float M_Types M_Model M_Confusable M_Rules M_Search M_Text M_Cli M_Main.
From Verif Require Import S_Anahash S_Model S_Search S_Confusable S_Rules S_Cli S_Main S_RuleFile S_Program.
From Verif Require Import M_Python S_Session.
From Verif Require Import P_Base P_Model P_Start P_Session.
From Verif Require Import P_RuleFile.
From Verif Require P_Files P_Vocab P_Index P_Query P_Main.
From stdpp Require Import options.

Lemma run_links_kept m L id v' : m_decoder m !! id = Some v' ->
  exists v, m_decoder (run_links m L) !! id = Some v /\ vv_text v = vv_text v' /\ vv_type v = vv_type v' /\ vv_lexindex v = vv_lexindex v'.
Proof.
  intros H. induction L as [|x L IH] using rev_ind; [eauto|]. destruct IH as (v1 & H1 & E1 & E2 & E3). rewrite P_Files.run_links_snoc.
  destruct (P_Files.link1_lookup _ x _ _ H1) as (g & Hg & _). eexists. split; [exact Hg|]. done.
Qed.
Lemma about_first t a x rest : about t a = x :: rest -> first_added t a x.
Proof.
  unfold about. induction a as [|y a IH]; [done|]. rewrite filter_cons. destruct (decide (y.1.1 = t)) as [E|E].
  - intros [= -> _]. by exists [], a.
  - intros H. destruct (IH H) as (b & c & -> & Hx & F). exists (y :: b), c. split; [done|]. split; [done|]. by constructor.
Qed.
Lemma first_about t a x : first_added t a x -> exists rest, about t a = x :: rest.
Proof.
  intros (b & c & -> & Hx & F). rewrite P_Vocab.about_app. assert (about t b = []) as ->.
  { unfold about. induction F as [|y b Hy _ IH]; [done|]. rewrite filter_cons. by destruct (decide (y.1.1 = t)). }
  exists (about t c). cbn [app]. unfold about at 1. rewrite filter_cons. by destruct (decide (x.1.1 = t)).
Qed.

Section session.
  Context (ws : N -> bool) (pf : str -> option f64) (pf32 : str -> option f32) (ps : str -> option (list edit_instruction)).
  Context (fs : str -> option (list (option str))) (al : str) (w : weights) (cs : list py_call) (m : model).
  Context (C : session_says ws pf pf32 ps fs al w cs m).
  #[local] Notation says := (call_says pf fs).
  #[local] Notation all_say := (calls_say pf fs).

  (** searchable entries *)
  Lemma indexed_first a l ns t : all_say 0 cs a l ns ->
    (exists id v, indexed m id v /\ vv_text v = t) <-> ~ special_text t /\ exists x, first_added t a x /\ flag (declared_type x) searchable_bit = true.
  Proof using C.
    intros Ha. destruct (sn_entries _ _ _ _ _ _ _ _ _ C) as (a' & l' & r & L & Ha' & Hr & _ & He & Hd).
    destruct (all_det ws pf pf32 ps (fun l => l) (fun l => l) fs _ _ _ _ _ _ _ _ Ha Ha') as (-> & -> & _).
    pose proof (P_Vocab.history_run _ _ _ _ Hr) as Hh. pose proof (P_Vocab.hi_inv _ _ Hh) as Iv. split.
    - intros (id & v & [D Fl] & Ht). rewrite Hd in D.
      assert (exists v', m_decoder r !! id = Some v') as (v' & D') by (apply lookup_lt_is_Some_2; rewrite <- (run_links_len r L); by eapply lookup_lt_Some).
      destruct (run_links_kept _ L _ _ D') as (v1 & D1 & E1 & E2 & _). rewrite D in D1. injection D1 as <-.
      assert (S_Model.entry r t v') as En by (exists id; split; [apply Iv; exists v'; split; [done|congruence]|done]).
      assert (~ special_text t) as Hs.
      { intros Hs. pose proof (P_Vocab.es_type_special _ _ _ _ (P_Vocab.hi_entry _ _ Hh _ _ En) Hs) as Et. rewrite E2, Et in Fl. by destruct (about t a). }
      split; [done|]. destruct (P_Vocab.flags_spec _ _ _ _ _ _ Hr En Hs) as (x & rest & Ea & Ef & _). exists x. split; [by eapply about_first|]. by rewrite <- Ef, <- E2.
    - intros (Hs & x & Hx & Fl). destruct (first_about _ _ _ Hx) as (rest & Ea).
      destruct (proj2 (P_Vocab.hi_texts _ _ Hh t)) as (id & Ei).
      { right. destruct Hx as (b & c & -> & Hx & _). apply elem_of_list_fmap. exists x. split; [done|]. apply elem_of_app. right. left. }
      pose proof Ei as Ei'. apply Iv in Ei' as (v' & D' & Ht). assert (S_Model.entry r t v') as En by (by exists id).
      destruct (P_Vocab.flags_spec _ _ _ _ _ _ Hr En Hs) as (x' & rest' & Ea' & Ef & _). rewrite Ea in Ea'. injection Ea' as <- _.
      destruct (run_links_kept _ L _ _ D') as (v & D & E1 & E2 & _). exists id, v. split; [|congruence]. split; [by rewrite Hd|]. by rewrite E2, Ef.
  Qed.

  Lemma content_inverse : lookups_inverse m.
  Proof using C.
    destruct (sn_entries _ _ _ _ _ _ _ _ _ C) as (a & l & r & L & _ & Hr & _ & He & Hd). pose proof (P_Vocab.hi_inv _ _ (P_Vocab.history_run _ _ _ _ Hr)) as Iv.
    intros t id. rewrite He, Hd, (Iv t id). split; intros (v & D & Ht).
    - destruct (run_links_kept _ L _ _ D) as (v' & D' & E & _). exists v'. split; [done|congruence].
    - assert (exists v', m_decoder r !! id = Some v') as (v' & D') by (apply lookup_lt_is_Some_2; rewrite <- (run_links_len r L); by eapply lookup_lt_Some).
      destruct (run_links_kept _ L _ _ D') as (v1 & D1 & E & _). exists v'. split; [done|congruence].
  Qed.

  (** lexicons only *)
  Lemma lexicon_additions : Forall (fun c => adds_entries c -> exists n, c = CLexicon n) cs -> forall a l ns t, all_say 0 cs a l ns ->
    (exists x, first_added t a x /\ flag (declared_type x) searchable_bit = true) <-> in_lexicons fs t cs.
  Proof using ws pf pf32 ps fs.
    intros Hc a l ns t Ha.
    assert (forall i cs' a l ns, all_say i cs' a l ns -> Forall (fun c => adds_entries c -> exists n, c = CLexicon n) cs' ->
      (forall x, x ∈ a -> flag (declared_type x) searchable_bit = true) /\ ((exists x, x ∈ a /\ x.1.1 = t) <-> in_lexicons fs t cs')) as K.
    { clear C Ha Hc. intros i cs' b k ms H. induction H as [i|i c cs' a1 l1 n1 a2 l2 n2 H1 _ IH]; intros F.
      - split; [intros x Hx; by apply elem_of_nil in Hx|]. split; [intros (x & Hx & _); by apply elem_of_nil in Hx|].
        intros (n & f & ln & fd & Hn & _). by apply elem_of_nil in Hn.
      - inversion F as [|? ? F1 F2]; subst. destruct (IH F2) as [IH1 IH2]. destruct H1 as [t0 f0 p0|c n0 p f adds Hw Ht Fa|n b f es Ht Fa|c Hn].
        + destruct (F1 I) as (n & [=]).
        + destruct F1 as (n' & ->); [by eapply (word_list_adds ws pf pf32 ps (fun l => l) (fun l => l) fs)|]. inversion Hw; subst. split.
          * intros x [Hx|Hx]%elem_of_app; [|by apply IH1]. apply elem_of_list_lookup in Hx as (k & Hk).
            destruct (Forall2_lookup_r _ _ _ _ _ Fa Hk) as (ln & _ & fd & t0 & _ & _ & f0 & -> & _). done.
          * assert ((exists x, x ∈ adds /\ x.1.1 = t) <-> exists line fields, line ∈ f_lines f /\ line <> [] /\ fields_of 9 line fields /\ fields !! 0 = Some t) as E.
            { split.
              - intros (x & Hx & Et). apply elem_of_list_lookup in Hx as (k & Hk). destruct (Forall2_lookup_r _ _ _ _ _ Fa Hk) as (ln & Hl & fd & t0 & G1 & G2 & f0 & -> & _).
                apply elem_of_list_lookup_2, elem_of_list_filter in Hl as [Hl1 Hl2]. exists ln, fd. cbn in Et. subst t0. done.
              - intros (ln & fd & H1 & H2 & H3 & H4). assert (ln ∈ filter (fun l => l <> []) (f_lines f)) as Hl by (by apply elem_of_list_filter).
                apply elem_of_list_lookup in Hl as (k & Hk). destruct (Forall2_lookup_l _ _ _ _ _ Fa Hk) as (x & Hx & fd' & t0 & G1 & G2 & f0 & -> & _).
                exists (t0, Some f0, numbered_file i (default_params 0 VT_INDEXED)). split; [by eapply elem_of_list_lookup_2|]. cbn.
                apply fields_split in H3, G1. cbn in G2. congruence. }
            split.
            -- intros (x & [Hx|Hx]%elem_of_app & Et).
               ++ destruct (proj1 E) as (ln & fd & G); [eauto|]. exists n0, f, ln, fd. split; [by left|]. done.
               ++ destruct (proj1 IH2) as (n & f' & ln & fd & G1 & G2); [eauto|]. exists n, f', ln, fd. split; [by right|done].
            -- intros (n & f' & ln & fd & [[= ->]|G1]%elem_of_cons & G2 & G3).
               ++ rewrite (there_det ws pf pf32 ps (fun l => l) (fun l => l) fs _ _ _ Ht G2) in *. destruct (proj2 E) as (x & Hx & Et); [eauto|]. exists x. split; [apply elem_of_app; by left|done].
               ++ destruct (proj2 IH2) as (x & Hx & Et); [by exists n, f', ln, fd|]. exists x. split; [apply elem_of_app; by right|done].
        + destruct (F1 I) as (n' & [=]).
        + split; [done|]. cbn [app]. rewrite IH2. split.
          * intros (n & f' & ln & fd & G1 & G2). exists n, f', ln, fd. split; [by right|done].
          * intros (n & f' & ln & fd & [<-|G1]%elem_of_cons & G2); [by destruct Hn; eexists _, _; constructor|by exists n, f', ln, fd]. }
    destruct (K 0 cs a l ns Ha Hc) as [K1 K2]. rewrite <- K2. split.
    - intros (x & (b & c & -> & Et & _) & _). exists x. split; [apply elem_of_app; right; left|done].
    - intros (x & Hx & Et). destruct (about t a) as [|y rest] eqn:E.
      + assert (x ∈ about t a) as Hx' by (unfold about; by apply elem_of_list_filter). rewrite E in Hx'. by apply elem_of_nil in Hx'.
      + exists y. pose proof (about_first _ _ _ _ E) as Hy. split; [done|]. apply K1. destruct Hy as (b & c & -> & _). apply elem_of_app. right. left.
  Qed.

  (** the names of the files *)
  Lemma named_files bits t : forall cs' i a l ns, (forall t f p, CAdd t f p ∉ cs') -> all_say i cs' a l ns -> i + length ns <= 32 ->
    (forall k, i <= k -> N.testbit bits (N.of_nat k) = true <-> exists x, x ∈ a /\ x.1.1 = t /\ vp_index x.2 = N.of_nat k) ->
    files_with pf fs t i cs' (map snd (List.filter (fun il : nat * str => N.testbit bits (N.of_nat il.1)) (imap (fun j x => (i + j, x)) ns))).
  Proof using ws pf pf32 ps fs.
    clear C. clear cs. induction cs' as [|c cs' IH]; intros i a l ns Nc H Hi Hb; inversion H as [|? ? ? a1 l1 n1 a2 l2 n2 H1 H2]; subst; [constructor|].
    assert (forall t f p, CAdd t f p ∉ cs') as Nc' by (intros t0 f p Hin; apply (Nc t0 f p); by right).
    assert (forall k x, x ∈ a2 -> vp_index x.2 = N.of_nat k -> i + length n1 <= k) as Hlow.
    { clear -H2 Nc'. revert H2. generalize (i + length n1). intros j H2 k x Hx Ek.
      induction H2 as [j|j c cs' b1 k1 m1 b2 k2 m2 G1 _ IH]; [by apply elem_of_nil in Hx|]. apply elem_of_app in Hx as [Hx|Hx].
      - destruct G1 as [t0 f0 p0|c n p f adds Hw Ht Fa|n b f es Ht Fa|c Hn]; [by destruct (Nc' t0 f0 p0); left| | |by apply elem_of_nil in Hx].
        + apply elem_of_list_lookup in Hx as (q & Hq). destruct (Forall2_lookup_r _ _ _ _ _ Fa Hq) as (ln & _ & fd & t0 & _ & _ & f0 & -> & _). cbn in Ek. lia.
        + apply elem_of_list_In, in_concat in Hx as (y & Hy & Hx). apply in_map_iff in Hy as (e & <- & _). apply elem_of_list_In in Hx.
          unfold line_additions in Hx. apply elem_of_cons in Hx as [->|Hx]; [cbn in Ek; lia|]. apply elem_of_list_fmap in Hx as (z & -> & _). cbn in Ek. lia.
      - assert (j + length m1 <= k); [|lia]. apply IH; [|done]. intros t0 f p Hin. apply (Nc' t0 f p). by right. }
    assert (forall n, n1 = [n] -> forall x, x ∈ a1 -> vp_index x.2 = N.of_nat i) as Hhere.
    { clear -H1 Nc. intros n -> x Hx. inversion H1 as [t0 f0 p0|c' n' p f adds Hw Ht Fa|n' b f es Ht Fa|c' Hn]; subst.
      - apply elem_of_list_lookup in Hx as (q & Hq). by destruct (Forall2_lookup_r _ _ _ _ _ Fa Hq) as (ln & _ & fd & t0 & _ & _ & f0 & -> & _).
      - apply elem_of_list_In, in_concat in Hx as (y & Hy & Hx). apply in_map_iff in Hy as (e & <- & _). apply elem_of_list_In in Hx.
        unfold line_additions in Hx. apply elem_of_cons in Hx as [->|Hx]; [done|]. by apply elem_of_list_fmap in Hx as (z & -> & _). }
    assert (forall k, i + length n1 <= k -> N.testbit bits (N.of_nat k) = true <-> exists x, x ∈ a2 /\ x.1.1 = t /\ vp_index x.2 = N.of_nat k) as Hb2.
    { intros k Hk. rewrite Hb by lia. split; [|intros (x & Hx & G); exists x; split; [apply elem_of_app; by right|done]].
      intros (x & [Hx|Hx]%elem_of_app & Et & Ek); [|by exists x]. exfalso.
      destruct (says_names ws pf pf32 ps (fun l => l) (fun l => l) fs _ _ _ _ _ H1) as [[_ Hl]|[Hn ->]].
      - destruct n1 as [|n [|]]; [done| |done]. pose proof (Hhere n eq_refl x Hx) as Ei. rewrite Ei in Ek. cbn in Hk. lia.
      - inversion H1; subst; [by destruct (Nc t0 f p); left|by apply elem_of_nil in Hx]. }
    assert (forall sel, files_with pf fs t (i + length n1) cs' sel -> sel = map snd (List.filter (fun il : nat * str => N.testbit bits (N.of_nat il.1)) (imap (fun j x => (i + length n1 + j, x)) n2)) ->
      files_with pf fs t i (c :: cs') (map snd (List.filter (fun il : nat * str => N.testbit bits (N.of_nat il.1)) (imap (fun j x => (i + j, x)) (n1 ++ n2))))) as G.
    { intros sel F ->. destruct (says_names ws pf pf32 ps (fun l => l) (fun l => l) fs _ _ _ _ _ H1) as [[_ Hl]|[Hn ->]].
      - destruct n1 as [|n [|]]; [done| |done]. cbn [app]. rewrite imap_cons. cbn [List.filter fst]. rewrite Nat.add_0_r. cbn [length] in F. rewrite Nat.add_1_r in F.
        assert (imap ((fun j x => (i + j, x)) ∘ S) n2 = imap (fun (j : nat) (x : str) => (S i + j, x)) n2) as -> by (apply imap_ext; intros j x _; cbn; f_equal; lia).
        destruct (N.testbit bits (N.of_nat i)) eqn:E.
        + cbn [map snd]. eapply fw_here; [exact H1| |exact F]. apply Hb in E as (x & [Hx|Hx]%elem_of_app & Et & Ek); [by exists x| |done].
          pose proof (Hlow i x Hx Ek) as Hc. cbn in Hc. lia.
        + eapply fw_not; [exact H1| |exact F]. intros x Hx Et. assert (N.testbit bits (N.of_nat i) = true) as E'; [|congruence].
          apply Hb; [done|]. exists x. split; [apply elem_of_app; by left|]. split; [done|]. by eapply Hhere.
      - cbn [app]. apply fw_other.
        + intros Ha. inversion H1; subst; [by destruct (Nc t0 f p); left|done].
        + cbn [length] in F. rewrite Nat.add_0_r in F. exact F. }
    eapply G; [|reflexivity]. eapply IH; [done|exact H2|rewrite app_length in Hi; lia|done].
  Qed.
  Lemma files_det t : forall cs' i ns ns', files_with pf fs t i cs' ns -> files_with pf fs t i cs' ns' -> ns' = ns.
  Proof using ws pf pf32 ps fs.
    clear C. clear cs. assert (forall i c a l n, says i c a l [n] -> adds_entries c) as K.
    { intros i c a l n H. destruct (says_names ws pf pf32 ps (fun l => l) (fun l => l) fs _ _ _ _ _ H) as [[(n' & Hn) _]|[_ [=]]].
      destruct Hn as [(q & Hn)|(b & ->)]; [by eapply (word_list_adds ws pf pf32 ps (fun l => l) (fun l => l) fs)|done]. }
    assert (forall i c a l n a' l' n', says i c a l [n] -> says i c a' l' [n'] -> a' = a /\ n' = n) as D.
    { intros i c a l n a' l' n' H H'. destruct (says_det ws pf pf32 ps (fun l => l) (fun l => l) fs _ _ _ _ _ _ _ _ H H') as (-> & _ & [= ->]). done. }
    induction cs' as [|c cs' IH]; intros i ns ns' H H'; inversion H as [|? ? ? a l n ms G1 G2 G3|? ? ? a l n ms G1 G2 G3|? ? ? ms G1 G3]; subst; inversion H' as [|? ? ? a' l' n' ms' G1' G2' G3'|? ? ? a' l' n' ms' G1' G2' G3'|? ? ? ms' G1' G3']; subst; try done.
    - destruct (D _ _ _ _ _ _ _ _ G1 G1') as [_ ->]. by rewrite (IH _ _ _ G3 G3').
    - destruct (D _ _ _ _ _ _ _ _ G1 G1') as [-> _]. destruct G2 as (x & Hx & Et). by destruct (G2' x Hx).
    - by destruct G1'; eapply K.
    - destruct (D _ _ _ _ _ _ _ _ G1 G1') as [-> _]. destruct G2' as (x & Hx & Et). by destruct (G2 x Hx).
    - by eapply IH.
    - by destruct G1'; eapply K.
    - by destruct G1; eapply K.
    - by destruct G1; eapply K.
    - by eapply IH.
  Qed.
  Lemma names_of_entry id v : m_decoder m !! id = Some v -> length (m_lexicons m) <= 32 -> (forall t f p, CAdd t f p ∉ cs) ->
    files_with pf fs (vv_text v) 0 cs (lexicon_names (m_lexicons m) v).
  Proof using C.
    intros D Hl Nc. destruct (sn_entries _ _ _ _ _ _ _ _ _ C) as (a & l & r & L & Ha & Hr & _ & He & Hd).
    pose proof (P_Vocab.history_run _ _ _ _ Hr) as Hh. rewrite Hd in D.
    assert (exists v', m_decoder r !! id = Some v') as (v' & D') by (apply lookup_lt_is_Some_2; rewrite <- (run_links_len r L); by eapply lookup_lt_Some).
    destruct (run_links_kept _ L _ _ D') as (v1 & D1 & E1 & _ & E3). rewrite D in D1. injection D1 as <-.
    assert (S_Model.entry r (vv_text v) v') as En by (exists id; split; [apply (P_Vocab.hi_inv _ _ Hh); exists v'; split; [done|congruence]|done]).
    unfold lexicon_names. change (imap pair (m_lexicons m)) with (imap (fun j (x : str) => (0 + j, x)) (m_lexicons m)).
    eapply (named_files _ _ cs 0); [done|exact Ha|cbn; lia|]. intros k _. rewrite E3, (P_Vocab.es_lex _ _ _ _ (P_Vocab.hi_entry _ _ Hh _ _ En)). split.
    - intros (x & Hx & Ek). unfold about in Hx. apply elem_of_list_filter in Hx as [Et Hx]. by exists x.
    - intros (x & Hx & Et & Ek). exists x. split; [|done]. unfold about. by apply elem_of_list_filter.
  Qed.
End session.

Section answers.
  Context (ws : N -> bool) (pf : str -> option f64) (pf32 : str -> option f32) (ps : str -> option (list edit_instruction)).
  Context (o : list (N * node) -> list (N * node)) (o' : list (str * vocab_id) -> list (str * vocab_id)).
  Context (fs : str -> option (list (option str))) (Ho : some_order o) (Ho' : some_order o').
  Context (al : str) (w : weights) (cs : list py_call) (Od : orderly cs).

  Context (m : model) (C : session_says ws pf pf32 ps fs al w cs m) (L : within_limits m).
  #[local] Notation leaves := (fun m' => exists m0, py_model ws fs al w = Returned m0 /\ py_steps ws pf pf32 ps o o' fs m0 cs = Returned m').

  (** [in] *)
  Lemma contains_session : exists m', leaves m' /\ forall t, exists b, py_contains m' t = Ok b /\
    (b = true <-> ~ special_text t /\ exists a l ns x, calls_say pf fs 0 cs a l ns /\ first_added t a x /\ flag (declared_type x) searchable_bit = true).
  Proof using Ho Ho' Od C L.
    destruct (content_succeeds ws pf pf32 ps o o' fs al w cs m Ho' Od C L) as (m0 & m' & E1 & E2). exists m'. split; [by exists m0|]. intros t.
    destruct (session_content ws pf pf32 ps o o' fs al w cs m0 m' Ho' Od E1 E2) as (C' & m1 & B & Sa & SC & _ & _).
    pose proof (content_unique ws pf pf32 ps o o' fs al w cs m m' C C') as SC'.
    destruct (P_Index.lookup_built o o' m1 m' t) as ((b & E & H) & _); [| |done|done|done|].
    { pose proof (content_inverse ws pf pf32 ps fs al w cs m' C') as Iv. intros t0 id. rewrite <- (sc_encoder _ _ SC), <- (sc_decoder _ _ SC). apply Iv. }
    { rewrite <- (sc_alphabet _ _ SC), (sc_alphabet _ _ SC'). destruct (sn_alphabet _ _ _ _ _ _ _ _ _ C) as (ls & _ & HA). apply P_Main.alphabet_spec in HA. rewrite <- HA.
      apply read_forms. rewrite HA. pose proof (wl_alphabet _ L). lia. }
    exists b. split; [exact E|]. rewrite H. destruct (sn_entries _ _ _ _ _ _ _ _ _ C') as (a & l & r & L0 & Ha & _).
    transitivity (exists id v, indexed m' id v /\ vv_text v = t); [unfold indexed; by rewrite (sc_decoder _ _ SC)|].
    rewrite (indexed_first ws pf pf32 ps fs al w cs m' C' _ _ _ t Ha). split; intros [Hs G]; (split; [exact Hs|]).
    - destruct G as (x & Hx). by exists a, l, (m_lexicons m'), x.
    - destruct G as (a' & l' & ns' & x & Ha' & Hx). destruct (all_det ws pf pf32 ps (fun l => l) (fun l => l) fs _ _ _ _ _ _ _ _ Ha Ha') as (-> & _). by exists x.
  Qed.
  Lemma contains_lexicons : Forall (fun c => adds_entries c -> exists n, c = CLexicon n) cs ->
    exists m', leaves m' /\ forall t, exists b, py_contains m' t = Ok b /\ (b = true <-> ~ special_text t /\ in_lexicons fs t cs).
  Proof using Ho Ho' Od C L.
    intros F. destruct contains_session as (m' & Hm & H). exists m'. split; [done|]. intros t. destruct (H t) as (b & E & Hb). exists b. split; [done|]. rewrite Hb.
    destruct (sn_entries _ _ _ _ _ _ _ _ _ C) as (a & l & r & L0 & Ha & _). split; intros [Hs G]; (split; [exact Hs|]).
    - destruct G as (a' & l' & ns' & x & Ha' & Hx). apply (lexicon_additions ws pf pf32 ps fs cs F a' l' ns' t Ha'). by exists x.
    - apply (lexicon_additions ws pf pf32 ps fs cs F _ _ _ t Ha) in G as (x & Hx). by exists a, l, (m_lexicons m), x.
  Qed.
  Lemma lexicons_session : (forall t f p, CAdd t f p ∉ cs) -> exists m', leaves m' /\
    forall id v, m_decoder m' !! id = Some v -> forall ns, files_with pf fs (vv_text v) 0 cs ns <-> ns = lexicon_names (m_lexicons m') v.
  Proof using Ho Ho' Od C L.
    intros N. destruct (content_succeeds ws pf pf32 ps o o' fs al w cs m Ho' Od C L) as (m0 & m' & E1 & E2). exists m'. split; [by exists m0|]. intros id v D.
    destruct (session_content ws pf pf32 ps o o' fs al w cs m0 m' Ho' Od E1 E2) as (C' & _). pose proof (content_unique ws pf pf32 ps o o' fs al w cs m m' C C') as SC'.
    assert (files_with pf fs (vv_text v) 0 cs (lexicon_names (m_lexicons m') v)) as H.
    { eapply (names_of_entry ws pf pf32 ps); [done|done| |done]. rewrite (sc_lexicons _ _ SC'). apply L. }
    intros ns. split; [|by intros ->]. intros H'. by eapply (files_det ws pf pf32 ps fs).
  Qed.
End answers.
