(** Variant lists and files: reading them is adding and linking. *)
From Coq Require Import Lia Sorted.
From Verif Require Import M_Base M_Anahash M_Float M_Types M_Model M_Main S_Anahash S_Model S_Rules S_Main P_Base P_Model P_Vocab P_Links.
From stdpp Require Import options.

Definition link1 (m : model) (x : link) : model := (add_variant_by_id m (x.1.1) (x.1.2) (x.2)).1.
Lemma run_links_snoc m l x : run_links m (l ++ [x]) = link1 (run_links m l) x.
Proof. unfold run_links. by rewrite foldl_app. Qed.
Lemma run_links_app m l l' : run_links m (l ++ l') = run_links (run_links m l) l'.
Proof. unfold run_links. by rewrite foldl_app. Qed.
Lemma update_decoder_len dec id f : length (update_decoder dec id f) = length dec.
Proof. unfold update_decoder. destruct (dec !! id); [apply insert_length|done]. Qed.
Lemma link1_len m x : length (m_decoder (link1 m x)) = length (m_decoder m).
Proof. unfold link1, add_variant_by_id. destruct negb; [|done]. cbn. by rewrite !update_decoder_len. Qed.
Lemma link1_encoder m x : m_encoder (link1 m x) = m_encoder m.
Proof. unfold link1, add_variant_by_id. by destruct negb. Qed.
Lemma link1_alphabet m x : m_alphabet (link1 m x) = m_alphabet m.
Proof. unfold link1, add_variant_by_id. by destruct negb. Qed.
Lemma link1_lexicons m x : m_lexicons (link1 m x) = m_lexicons m.
Proof. unfold link1, add_variant_by_id. by destruct negb. Qed.

(** adding commutes with linking *)
Lemma update_item_variants id v f p x :
  update_item id (with_variants v x) f p = rmap (fun w => with_variants w x) (update_item id v f p).
Proof. unfold update_item. cbn. destruct update_frequency; [|done]. cbn. by destruct shl1. Qed.
Lemma update_item_var id v f p w : update_item id v f p = Ok w -> vv_variants w = vv_variants v.
Proof. unfold update_item. destruct update_frequency; [|done]. cbn. destruct shl1; [|done]. cbn. by intros [= <-]. Qed.

Lemma update_insert dec i j v w g : dec !! i = Some v -> (i = j -> vv_variants w = vv_variants v) ->
  let up := fun u => with_variants u (g (vv_variants u)) in
  update_decoder (<[i := w]> dec) j up = <[i := if decide (i = j) then with_variants w (g (vv_variants v)) else w]> (update_decoder dec j up).
Proof.
  intros D Hw up. assert (i < length dec) by (by eapply lookup_lt_Some). unfold update_decoder. case_decide as E.
  - subst j. rewrite list_lookup_insert by done. rewrite D. rewrite !list_insert_insert. unfold up. by rewrite (Hw eq_refl).
  - rewrite list_lookup_insert_ne by done. destruct (dec !! j) as [u|]; [|done]. by rewrite list_insert_commute.
Qed.
Lemma update_app dec j w f : j < length dec -> update_decoder (dec ++ [w]) j f = update_decoder dec j f ++ [w].
Proof.
  intros H. unfold update_decoder. rewrite lookup_app_l by done. destruct (dec !! j); [|done]. by rewrite insert_app_l.
Qed.

Definition inside (m : model) (x : link) : Prop := x.1.1 < length (m_decoder m) /\ x.1.2 < length (m_decoder m).
Lemma update_lookup dec j f i : update_decoder dec j f !! i = if decide (i = j) then f <$> dec !! i else dec !! i.
Proof.
  unfold update_decoder. case_decide as E.
  - subst. destruct (dec !! j) as [v|] eqn:D; [|by rewrite D]. rewrite list_lookup_insert; [done|]. by eapply lookup_lt_Some.
  - destruct (dec !! j) as [v|] eqn:D; [|done]. by rewrite list_lookup_insert_ne.
Qed.
Lemma link1_lookup m x id v : m_decoder m !! id = Some v ->
  exists g, m_decoder (link1 m x) !! id = Some (with_variants v (g (vv_variants v))) /\
    forall v', vv_variants v' = vv_variants v ->
      m_decoder (link1 (with_vocab m (<[id := v']> (m_decoder m)) (m_encoder m)) x) =
      <[id := with_variants v' (g (vv_variants v))]> (m_decoder (link1 m x)).
Proof.
  intros D. destruct x as [[r y] s]. unfold link1, add_variant_by_id. cbn [fst snd].
  destruct (Nat.eqb_spec y r) as [->|Hne]; cbn [negb fst m_decoder with_vocab].
  - exists (fun x => x). cbn. split; [by destruct v|]. intros v' E. rewrite <- E. by destruct v'.
  - set (g1 := push_link (is_reference_for y) (ReferenceFor y s)).
    set (g2 := push_link (is_variant_of y) (VariantOf r s)).
    destruct (decide (id = r)) as [->|Hr]; [|destruct (decide (id = y)) as [->|Hy]].
    + exists g1. split.
      * rewrite update_lookup, decide_False by congruence. rewrite update_lookup, decide_True by done. by rewrite D.
      * intros v' E. rewrite (update_insert _ r r v v' g1) by done. rewrite decide_True by done.
        rewrite (update_insert _ r y (with_variants v (g1 (vv_variants v))) (with_variants v' (g1 (vv_variants v))) g2).
        { by rewrite decide_False by congruence. }
        { rewrite update_lookup, decide_True by done. by rewrite D. }
        { congruence. }
    + exists g2. split.
      * rewrite update_lookup, decide_True by congruence. rewrite update_lookup, decide_False by done. by rewrite D.
      * intros v' E. rewrite (update_insert _ y r v v' g1) by done. rewrite decide_False by done.
        rewrite (update_insert _ y y v v' g2).
        { by rewrite decide_True by done. }
        { rewrite update_lookup, decide_False by done. done. }
        { done. }
    + exists (fun x => x). cbn. split.
      * rewrite update_lookup, decide_False by done. rewrite update_lookup, decide_False by done. rewrite D. by destruct v.
      * intros v' E. rewrite (update_insert _ id r v v' g1) by done. rewrite decide_False by done.
        rewrite (update_insert _ id y v v' g2).
        { rewrite decide_False by done. rewrite <- E. by destruct v'. }
        { rewrite update_lookup, decide_False by done. done. }
        { done. }
Qed.

Lemma link1_only_decoder m x : link1 m x = with_vocab m (m_decoder (link1 m x)) (m_encoder m).
Proof. unfold link1, add_variant_by_id. destruct negb; [done|]. by destruct m. Qed.

Lemma add_link m x t f p : inside m x ->
  add_to_vocabulary (link1 m x) t f p = rmap (fun r => (link1 r.1 x, r.2)) (add_to_vocabulary m t f p).
Proof.
  intros [H1 H2]. unfold add_to_vocabulary. rewrite link1_encoder, link1_alphabet, link1_len.
  destruct (m_encoder m !! t) as [id|].
  - destruct (m_decoder m !! id) as [v|] eqn:D.
    + destruct (link1_lookup m x id v D) as (g & -> & Hg). cbn. rewrite update_item_variants.
      destruct (update_item id v (default 1%N f) p) as [w|] eqn:U; [|done]. cbn. f_equal. f_equal.
      rewrite (link1_only_decoder (with_vocab _ _ _)). cbn. rewrite (Hg w) by (by eapply update_item_var).
      rewrite (link1_only_decoder m). done.
    + assert (m_decoder (link1 m x) !! id = None) as ->; [|done].
      apply lookup_ge_None. rewrite link1_len. by apply lookup_ge_None.
  - destruct new_item as [w|]; [|done]. cbn. f_equal. f_equal.
    rewrite (link1_only_decoder (with_vocab _ _ _)). cbn.
    assert (m_decoder (link1 (with_vocab m (m_decoder m ++ [w]) (<[t:=length (m_decoder m)]> (m_encoder m))) x) = m_decoder (link1 m x) ++ [w]) as ->.
    { unfold link1, add_variant_by_id. destruct negb; [|done]. cbn. rewrite (update_app (m_decoder m)) by done. rewrite update_app; [done|]. by rewrite update_decoder_len. }
    by rewrite (link1_only_decoder m).
Qed.
Lemma add_links m l t f p : Forall (inside m) l ->
  add_to_vocabulary (run_links m l) t f p = rmap (fun r => (run_links r.1 l, r.2)) (add_to_vocabulary m t f p).
Proof.
  induction l as [|x l IH] using rev_ind; intros F; [by destruct add_to_vocabulary as [[]|]|].
  apply Forall_app in F as [F [Fx _]%Forall_cons]. rewrite run_links_snoc. rewrite add_link.
  - rewrite IH by done. destruct (add_to_vocabulary m t f p) as [[m1 id1]|e]. { cbn. by rewrite run_links_snoc. } done.
  - unfold inside. assert (length (m_decoder (run_links m l)) = length (m_decoder m)) as ->; [|done].
    clear. induction l as [|x l IH] using rev_ind; [done|]. rewrite run_links_snoc, link1_len. done.
Qed.

Lemma run_links_len m l : length (m_decoder (run_links m l)) = length (m_decoder m).
Proof. induction l as [|x l IH] using rev_ind; [done|]. by rewrite run_links_snoc, link1_len. Qed.
Lemma run_links_encoder m l : m_encoder (run_links m l) = m_encoder m.
Proof. induction l as [|x l IH] using rev_ind; [done|]. by rewrite run_links_snoc, link1_encoder. Qed.
Lemma same_vocab_sym m m' : same_vocab m m' -> same_vocab m' m.
Proof. intros (?&?&?). split_and!; congruence. Qed.
Lemma link1_same m m' x : same_vocab m m' -> same_vocab (link1 m x) (link1 m' x).
Proof.
  intros (D & E & A). unfold link1, add_variant_by_id. rewrite D. destruct negb; [|done]. split_and!; cbn; congruence.
Qed.

(** [m] is the model [m0] after the additions and links *)
Definition st (m0 : model) (adds : list addition) (lt : list (str * str * f64)) (m : model) : Prop :=
  exists r L, run_adds m0 adds = Ok r /\ lookups_inverse r /\ links_between r lt L /\ same_vocab (run_links r L) m.

Lemma links_inside r lt L : lookups_inverse r -> links_between r lt L -> Forall (inside r) L.
Proof.
  intros I. induction 1 as [|x y lt L (H1 & H2 & _) _ IH]; constructor; [|done].
  apply I in H1 as (v1 & H1 & _). apply I in H2 as (v2 & H2 & _). split; by eapply lookup_lt_Some.
Qed.
Lemma st_new m : lookups_inverse m -> st m [] [] m.
Proof. intros I. exists m, []. split; [done|]. split; [done|]. split; [constructor|done]. Qed.
Lemma add_enc m t f p m' id : add_to_vocabulary m t f p = Ok (m', id) ->
  m_encoder m' !! t = Some id /\ m_lexicons m' = m_lexicons m /\
  forall t' i, m_encoder m !! t' = Some i -> m_encoder m' !! t' = Some i.
Proof.
  intros H. apply add_cases in H as [(item & item' & E & D & U & ->)|(item & E & -> & U & ->)]; cbn; [done|].
  rewrite lookup_insert. split; [done|]. split; [done|]. intros t' i H. rewrite lookup_insert_ne; [done|]. intros ->. congruence.
Qed.

Lemma run_adds_snoc m l t f p : run_adds m (l ++ [(t, f, p)]) = (let* r := run_adds m l in rmap fst (add_to_vocabulary r t f p)).
Proof. rewrite run_adds_app. destruct (run_adds m l) as [r|]; [|done]. cbn. unfold run_adds. cbn. by destruct add_to_vocabulary as [[]|]. Qed.
Lemma st_add m0 adds lt m t f p m' id : st m0 adds lt m -> add_to_vocabulary m t f p = Ok (m', id) -> st m0 (adds ++ [(t, f, p)]) lt m'.
Proof.
  intros (r & L & Ra & I & B & S) H. destruct (add_same_vocab _ _ t f p (m', id) S H) as (r2 & E & S2 & Ei).
  rewrite add_links in E by (by eapply links_inside). destruct (add_to_vocabulary r t f p) as [[r' id']|] eqn:Er; [|done].
  cbn in E. injection E as <-. cbn in *. exists r', L. split; [|split; [|split]].
  - rewrite run_adds_snoc, Ra. cbn. by rewrite Er.
  - by apply add_wf in Er as [].
  - apply add_enc in Er as (_ & _ & Hm). clear -B Hm. induction B as [|x y lt L (H1 & H2 & H3) _ IH]; constructor; [|done].
    split; [by apply Hm|]. split; [by apply Hm|]. done.
  - done.
Qed.
Lemma st_add_ok m0 adds lt m t f p r' : st m0 adds lt m -> run_adds m0 (adds ++ [(t, f, p)]) = Ok r' ->
  exists m' id, add_to_vocabulary m t f p = Ok (m', id).
Proof.
  intros (r & L & Ra & I & B & S) H. rewrite run_adds_snoc, Ra in H. cbn in H.
  destruct (add_to_vocabulary r t f p) as [[r1 id]|] eqn:Er; [|done].
  assert (E : add_to_vocabulary (run_links r L) t f p = Ok (run_links r1 L, id)).
  { rewrite add_links by (by eapply links_inside). by rewrite Er. }
  destruct (add_same_vocab m (run_links r L) t f p _ (same_vocab_sym _ _ S) E) as ([m' i] & E2 & _). by exists m', i.
Qed.
Lemma st_link m0 adds lt m a b i j s : st m0 adds lt m -> m_encoder m !! a = Some i -> m_encoder m !! b = Some j ->
  st m0 adds (lt ++ [(a, b, s)]) (add_variant_by_id m i j s).1.
Proof.
  intros (r & L & Ra & I & B & S) Ha Hb. exists r, (L ++ [(i, j, s)]). split; [done|]. split; [done|].
  assert (m_encoder m = m_encoder r) as Ee by (destruct S as (_ & -> & _); apply run_links_encoder).
  split.
  - apply Forall2_app; [done|]. constructor; [|done]. cbn. by rewrite <- Ee.
  - rewrite run_links_snoc. exact (link1_same _ _ (i, j, s) S).
Qed.
Lemma st_same m0 adds lt m m' : st m0 adds lt m -> same_vocab m m' -> st m0 adds lt m'.
Proof. intros (r & L & ? & ? & ? & ?) S. exists r, L. split; [done|]. split; [done|]. split; [done|]. by eapply same_vocab_trans. Qed.

Lemma add_variant_step m0 adds lt m rt ri t s f p m' b :
  st m0 adds lt m -> m_encoder m !! rt = Some ri -> add_variant m ri t s f p = Ok (m', b) ->
  st m0 (adds ++ [(t, f, p)]) (lt ++ [(rt, t, s)]) m' /\ m_encoder m' !! rt = Some ri /\ m_lexicons m' = m_lexicons m.
Proof.
  intros S Hr H. unfold add_variant in H. apply rbind_ok in H as ([m1 id] & E & [= H]). cbn [fst snd] in H.
  destruct (add_enc _ _ _ _ _ _ E) as (H1 & H2 & H3).
  assert (m' = (add_variant_by_id m1 ri id s).1) as -> by (by rewrite H).
  split; [|split].
  - apply st_link; [by eapply st_add|auto|done].
  - change (m_encoder (link1 m1 (ri, id, s)) !! rt = Some ri). rewrite link1_encoder. auto.
  - change (m_lexicons (link1 m1 (ri, id, s)) = m_lexicons m). by rewrite link1_lexicons.
Qed.

Definition group_additions (tp : vocab_params) (gs : list (str * f64 * option N)) : list addition := map (fun x => (x.1.1, x.2, tp)) gs.
Definition group_links (rt : str) (gs : list (str * f64 * option N)) : list (str * str * f64) := map (fun x => (rt, x.1.1, x.1.2)) gs.

Section lists.
  Context (pf : str -> option f64).
  #[local] Set Default Proof Using "All".
  Lemma read3 m0 tp rt ri : forall n fs, length fs <= n -> forall adds lt m m',
    st m0 adds lt m -> m_encoder m !! rt = Some ri -> read_variants_freq pf m ri tp fs = Ok m' ->
    exists gs, groups3 pf fs gs /\ st m0 (adds ++ group_additions tp gs) (lt ++ group_links rt gs) m' /\ m_lexicons m' = m_lexicons m.
  Proof.
    induction n as [|n IH]; intros fs Hn adds lt m m' S Hr H.
    { destruct fs; [|cbn in Hn; lia]. injection H as <-. exists []. cbn. rewrite !app_nil_r. split; [constructor; cbn; lia|done]. }
    destruct fs as [|v [|s [|f fs]]]; cbn in H.
    1-3: injection H as <-; exists []; cbn; rewrite !app_nil_r; split; [constructor; cbn; lia|done].
    apply rbind_ok in H as (x & Ex%rexpect_ok & H). apply rbind_ok in H as (k & Ek%rexpect_ok & H).
    apply rbind_ok in H as ([m1 b] & E1 & H). cbn [fst snd] in H.
    destruct (add_variant_step _ _ _ _ _ _ _ _ _ _ _ _ S Hr E1) as (S1 & Hr1 & L1).
    destruct (IH fs ltac:(cbn in Hn; lia) _ _ _ _ S1 Hr1 H) as (gs & G & S2 & L2).
    exists ((v, x, Some k) :: gs). cbn. rewrite <- !app_assoc in S2. split; [|split; [done|congruence]].
    constructor; [done| |done]. by apply parse_uint_spec.
  Qed.
  Lemma read2 m0 tp rt ri : forall n fs, length fs <= n -> forall adds lt m m',
    st m0 adds lt m -> m_encoder m !! rt = Some ri -> read_variants_nofreq pf m ri tp fs = Ok m' ->
    exists gs, groups2 pf fs gs /\ st m0 (adds ++ group_additions tp gs) (lt ++ group_links rt gs) m' /\ m_lexicons m' = m_lexicons m.
  Proof.
    induction n as [|n IH]; intros fs Hn adds lt m m' S Hr H.
    { destruct fs; [|cbn in Hn; lia]. injection H as <-. exists []. cbn. rewrite !app_nil_r. split; [constructor; cbn; lia|done]. }
    destruct fs as [|v [|s fs]]; cbn in H.
    1-2: injection H as <-; exists []; cbn; rewrite !app_nil_r; split; [constructor; cbn; lia|done].
    apply rbind_ok in H as (x & Ex%rexpect_ok & H).
    apply rbind_ok in H as ([m1 b] & E1 & H). cbn [fst snd] in H.
    destruct (add_variant_step _ _ _ _ _ _ _ _ _ _ _ _ S Hr E1) as (S1 & Hr1 & L1).
    destruct (IH fs ltac:(cbn in Hn; lia) _ _ _ _ S1 Hr1 H) as (gs & G & S2 & L2).
    exists ((v, x, None) :: gs). cbn. rewrite <- !app_assoc in S2. split; [|split; [done|congruence]].
    by constructor.
  Qed.
  (** the other way round *)
  Lemma write3 m0 tp rt ri fs gs : groups3 pf fs gs -> forall adds lt m rest r',
    st m0 adds lt m -> m_encoder m !! rt = Some ri -> run_adds m0 (adds ++ group_additions tp gs ++ rest) = Ok r' ->
    exists m', read_variants_freq pf m ri tp fs = Ok m'.
  Proof.
    induction 1 as [fs Hl|v s f x k fs gs Ex Ek G IH]; intros adds lt m rest r' S Hr H.
    - exists m. destruct fs as [|? [|? [|]]]; cbn in *; [done..|lia].
    - assert (H' : run_adds m0 ((adds ++ [(v, Some k, tp)]) ++ group_additions tp gs ++ rest) = Ok r') by (rewrite <- app_assoc; exact H).
      clear H; rename H' into H. rewrite run_adds_app in H. apply rbind_ok in H as (r1 & E1 & H).
      destruct (st_add_ok _ _ _ _ _ _ _ _ S E1) as (m1 & id & E2).
      assert (add_variant m ri v x (Some k) tp = Ok (add_variant_by_id m1 ri id x)) as E3 by (unfold add_variant; by rewrite E2).
      destruct (add_variant_by_id m1 ri id x) as [m2 b] eqn:E4.
      destruct (add_variant_step _ _ _ _ _ _ _ _ _ _ _ _ S Hr E3) as (S1 & Hr1 & L1).
      destruct (IH _ _ m2 rest r' S1 Hr1) as (m' & E5). { rewrite run_adds_app, E1. done. }
      exists m'. cbn. rewrite Ex. cbn. apply parse_uint_spec in Ek. unfold parse_u32. rewrite Ek. cbn. by rewrite E3.
  Qed.
  Lemma write2 m0 tp rt ri fs gs : groups2 pf fs gs -> forall adds lt m rest r',
    st m0 adds lt m -> m_encoder m !! rt = Some ri -> run_adds m0 (adds ++ group_additions tp gs ++ rest) = Ok r' ->
    exists m', read_variants_nofreq pf m ri tp fs = Ok m'.
  Proof.
    induction 1 as [fs Hl|v s x fs gs Ex G IH]; intros adds lt m rest r' S Hr H.
    - exists m. destruct fs as [|? [|]]; cbn in *; [done..|lia].
    - assert (H' : run_adds m0 ((adds ++ [(v, None, tp)]) ++ group_additions tp gs ++ rest) = Ok r') by (rewrite <- app_assoc; exact H).
      clear H; rename H' into H. rewrite run_adds_app in H. apply rbind_ok in H as (r1 & E1 & H).
      destruct (st_add_ok _ _ _ _ _ _ _ _ S E1) as (m1 & id & E2).
      assert (add_variant m ri v x None tp = Ok (add_variant_by_id m1 ri id x)) as E3 by (unfold add_variant; by rewrite E2).
      destruct (add_variant_by_id m1 ri id x) as [m2 b] eqn:E4.
      destruct (add_variant_step _ _ _ _ _ _ _ _ _ _ _ _ S Hr E3) as (S1 & Hr1 & L1).
      destruct (IH _ _ m2 rest r' S1 Hr1) as (m' & E5). { rewrite run_adds_app, E1. done. }
      exists m'. cbn. rewrite Ex. cbn. by rewrite E3.
  Qed.

  Definition steps (hf hf' : option bool) (l : str) (e : list_line) : Prop :=
    match hf, hf' with
    | None, None => undecided l /\ line_says pf false l e
    | None, Some b => decides b l /\ line_says pf b l e
    | Some b, Some b' => b = b' /\ line_says pf b l e
    | Some _, None => False
    end.
  Lemma columns25_of l r s fs : split_on 9 l = r :: s :: fs -> Nat.modulo (length fs) 3 = 0 -> columns25 l s.
  Proof.
    intros E M. exists r, fs, (length fs / 3). rewrite <- E. split; [apply split_on_fields|].
    pose proof (Nat.div_mod (length fs) 3 ltac:(lia)). lia.
  Qed.
  (** one line, read *)
  Lemma read_line m0 p tp adds lt m hf line m' hf' : line <> [] ->
    st m0 adds lt m -> read_variants_line pf p tp (m, hf) line = Ok (m', hf') ->
    exists e, steps hf hf' line e /\ st m0 (adds ++ line_additions p tp e) (lt ++ line_links e) m' /\ m_lexicons m' = m_lexicons m.
  Proof.
    intros Hl S H. unfold read_variants_line in H. destruct line as [|c0 l0]; [done|]. set (line := c0 :: l0) in *. clearbody line. clear c0 l0.
    pose proof (split_on_fields 9 line) as F. destruct (split_on 9 line) as [|r fs] eqn:Efs; [by inversion F|].
    cbn [lookup list_lookup rexpect rbind] in H. apply rbind_ok in H as ([hf1 fr] & Ed & H). cbn [fst snd] in H.
    apply rbind_ok in H as ([m1 ri] & Ea & H). cbn [fst snd] in H. apply rbind_ok in H as (m2 & E2 & H). injection H as <- <-.
    destruct (add_enc _ _ _ _ _ _ Ea) as (Hr & L1 & _). pose proof (st_add _ _ _ _ _ _ _ _ _ S Ea) as S1.
    assert (T : forall n s fs', hf1 = Some true -> fr = Some n -> fs = s :: fs' -> decimal 4294967295 s n ->
      exists e, line_says pf true line e /\ st m0 (adds ++ line_additions p tp e) (lt ++ line_links e) m2 /\ m_lexicons m2 = m_lexicons m).
    { intros n s fs' -> -> -> Hs. cbn [drop] in E2.
      destruct (read3 m0 tp r ri _ fs' (le_n _) _ _ _ _ S1 Hr E2) as (gs & G & S2 & L2).
      exists (ListLine r (Some n) gs). rewrite <- app_assoc in S2. split; [|split; [exact S2|congruence]]. by econstructor. }
    assert (N : hf1 <> Some true -> fr = None ->
      exists e, line_says pf false line e /\ st m0 (adds ++ line_additions p tp e) (lt ++ line_links e) m2 /\ m_lexicons m2 = m_lexicons m).
    { intros Hh ->. assert (E3 : read_variants_nofreq pf m1 ri tp fs = Ok m2) by (destruct hf1 as [[]|]; done).
      destruct (read2 m0 tp r ri _ fs (le_n _) _ _ _ _ S1 Hr E3) as (gs & G & S2 & L2).
      exists (ListLine r None gs). rewrite <- app_assoc in S2. split; [|split; [exact S2|congruence]]. by econstructor. }
    destruct hf as [[]|]; cbn [detect_freq] in Ed.
    - apply rbind_ok in Ed as (s & Es%rexpect_ok & Ed). apply rbind_ok in Ed as (n & En%rexpect_ok & [= <- <-]).
      destruct fs as [|s' fs']; [done|]. injection Es as ->. apply parse_uint_spec in En.
      destruct (T n s fs' eq_refl eq_refl eq_refl En) as (e & ? & ?). by exists e.
    - injection Ed as <- <-. destruct (N ltac:(done) eq_refl) as (e & ? & ?). by exists e.
    - destruct fs as [|s fs']; [discriminate Ed|].
      assert (Ed' : (if (Nat.modulo (length fs') 3 =? 0)%nat then
          match parse_u32 s with Some f => Ok (Some true, Some f) | None => Ok (None, None) end
          else Ok (Some false, None)) = Ok (hf1, fr)).
      { rewrite <- Ed. unfold detect_freq. change (length (r :: s :: fs') <? 2)%nat with false. cbn iota.
        replace (length (r :: s :: fs') - 2) with (length fs') by (cbn; lia). done. }
      clear Ed; rename Ed' into Ed.
      destruct (Nat.eqb_spec (Nat.modulo (length fs') 3) 0) as [M|M].
      + assert (C : columns25 line s) by (by eapply columns25_of).
        destruct (parse_u32 s) as [n|] eqn:En.
        * injection Ed as <- <-. apply parse_uint_spec in En. destruct (T n s fs' eq_refl eq_refl eq_refl En) as (e & ? & ?).
          exists e. split; [|done]. split; [|done]. exists s, n. done.
        * injection Ed as <- <-. destruct (N ltac:(done) eq_refl) as (e & ? & ?). exists e. split; [|done]. split; [|done].
          exists s. split; [done|]. intros n Hn. apply parse_uint_spec in Hn. unfold parse_u32 in En. congruence.
      + injection Ed as <- <-. destruct (N ltac:(done) eq_refl) as (e & ? & ?). exists e. split; [|done]. split; [|done].
        exists r, s, fs'. done.
  Qed.

  Lemma detect_none r s fs : detect_freq None (r :: s :: fs) =
    if (Nat.modulo (length fs) 3 =? 0)%nat then match parse_u32 s with Some f => Ok (Some true, Some f) | None => Ok (None, None) end
    else Ok (Some false, None).
  Proof.
    unfold detect_freq. change (length (r :: s :: fs) <? 2)%nat with false. cbn iota.
    replace (length (r :: s :: fs) - 2) with (length fs) by (cbn; lia). done.
  Qed.
  Lemma three k : Nat.modulo (3 * k) 3 = 0.
  Proof. rewrite Nat.mul_comm. apply Nat.mod_mul. lia. Qed.

  (** one line, the other way round *)
  Lemma write_line m0 p tp adds lt m hf hf' line e rest r' :
    line <> [] -> steps hf hf' line e -> st m0 adds lt m -> run_adds m0 (adds ++ line_additions p tp e ++ rest) = Ok r' ->
    exists m', read_variants_line pf p tp (m, hf) line = Ok (m', hf').
  Proof.
    intros Hl Hs S H.
    assert (D : exists b r fs gs, (if b : bool then exists s n fs', fs = s :: fs' /\ decimal 4294967295 s n /\ groups3 pf fs' gs /\ e = ListLine r (Some n) gs /\ hf' = Some true
        else groups2 pf fs gs /\ e = ListLine r None gs /\ hf' <> Some true) /\ split_on 9 line = r :: fs /\ detect_freq hf (r :: fs) = Ok (hf', ll_freq e)).
    { destruct hf as [b|], hf' as [b'|]; cbn in Hs; [|done| |].
      - destruct Hs as [<- Hs]. destruct Hs as [l r f n fs gs F Hn G|l r fs gs F G]; apply fields_det in F.
        + exists true, r, (f :: fs), gs. split; [by exists f, n, fs|]. split; [done|]. cbn. apply parse_uint_spec in Hn. unfold parse_u32. by rewrite Hn.
        + exists false, r, fs, gs. done.
      - destruct Hs as [Hd Hs]. destruct Hs as [l r f n fs gs F Hn G|l r fs gs F G]; apply fields_det in F; cbn in Hd.
        + destruct Hd as (s & k & (r0 & fs' & j & F' & Hj) & Hk). apply fields_det in F'. rewrite <- F in F'. injection F' as -> -> ->.
          exists true, r, (f :: fs), gs. split; [by exists f, n, fs|]. split; [done|]. rewrite detect_none, Hj, three.
          apply parse_uint_spec in Hn. unfold parse_u32. by rewrite Hn.
        + destruct Hd as (r0 & s & fs' & F' & Hj). apply fields_det in F'. rewrite <- F in F'. injection F' as -> <-.
          exists false, r, (s :: fs'), gs. split; [done|]. split; [done|]. rewrite detect_none.
          apply Nat.eqb_neq in Hj. by rewrite Hj.
      - destruct Hs as [(s & (r0 & fs' & j & F' & Hj) & Hk) Hs]. apply fields_det in F'. inversion Hs as [|l r fs gs F G]; subst. apply fields_det in F. rewrite <- F' in F. injection F as -> ->.
        exists false, r0, (s :: fs'), gs. split; [done|]. split; [done|]. rewrite detect_none, Hj, three. cbn [Nat.eqb].
        destruct (parse_u32 s) as [n|] eqn:En; [|done]. apply parse_uint_spec in En. by destruct (Hk n). }
    destruct D as (b & r & fs & gs & D & Efs & Ed).
    assert (Er : ll_reference e = r) by (destruct b; [destruct D as (? & ? & ? & ? & ? & ? & -> & ?)|destruct D as (? & -> & ?)]; done).
    assert (Eg : ll_variants e = gs) by (destruct b; [destruct D as (? & ? & ? & ? & ? & ? & -> & ?)|destruct D as (? & -> & ?)]; done).
    unfold line_additions in H. rewrite Er, Eg in H. fold (group_additions tp gs) in H.
    assert (H' : run_adds m0 ((adds ++ [(r, ll_freq e, p)]) ++ group_additions tp gs ++ rest) = Ok r') by (rewrite <- app_assoc; exact H).
    clear H. rename H' into H. assert (H2 := H). rewrite run_adds_app in H2. apply rbind_ok in H2 as (r1 & E1 & _).
    destruct (st_add_ok _ _ _ _ _ _ _ _ S E1) as (m1 & ri & Ea). destruct (add_enc _ _ _ _ _ _ Ea) as (Hr & L1 & _).
    pose proof (st_add _ _ _ _ _ _ _ _ _ S Ea) as S1.
    unfold read_variants_line. destruct line as [|c0 l0]; [done|]. rewrite Efs. cbn [lookup list_lookup rexpect rbind]. cbn [fst snd].
    rewrite Ed. cbn [rbind fst snd]. rewrite Ea. cbn [rbind fst snd].
    destruct b.
    - destruct D as (s & n & fs' & -> & Hn & G & _ & ->). cbn [drop].
      destruct (write3 m0 tp r ri _ _ G _ _ _ _ _ S1 Hr H) as (m' & Em). exists m'. rewrite drop_0. by rewrite Em.
    - destruct D as (G & _ & Hh). cbn [drop].
      destruct (write2 m0 tp r ri _ _ G _ _ _ _ _ S1 Hr H) as (m' & Em). exists m'. try rewrite drop_0. destruct hf' as [[]|]; [done|by rewrite Em..].
  Qed.

  Lemma groups3_det fs gs gs' : groups3 pf fs gs -> groups3 pf fs gs' -> gs' = gs.
  Proof.
    intros G. revert gs'. induction G as [fs Hl|v s f x n fs gs E Hn G IH]; intros gs' G'; inversion G'; subst; cbn in *; [done|lia|lia|].
    f_equal; [|by apply IH]. repeat match goal with H : decimal _ _ _ |- _ => apply parse_uint_spec in H end. congruence.
  Qed.
  Lemma groups2_det fs gs gs' : groups2 pf fs gs -> groups2 pf fs gs' -> gs' = gs.
  Proof.
    intros G. revert gs'. induction G as [fs Hl|v s x fs gs E G IH]; intros gs' G'; inversion G'; subst; cbn in *; [done|lia|lia|].
    f_equal; [|by apply IH]. congruence.
  Qed.
  Lemma line_says_det b l e e' : line_says pf b l e -> line_says pf b l e' -> e' = e.
  Proof.
    intros H H'. destruct H as [l r f n fs gs F Hn G|l r fs gs F G]; inversion H' as [? r' f' n' fs' gs' F' Hn' G'|? r' fs' gs' F' G']; subst;
      apply fields_det in F, F'; rewrite <- F in F'; injection F' as; subst.
    - apply (groups3_det _ _ _ G) in G' as ->. apply parse_uint_spec in Hn, Hn'. congruence.
    - by apply (groups2_det _ _ _ G) in G' as ->.
  Qed.
  Lemma steps_det hf hf' l e e' : steps hf hf' l e -> steps hf hf' l e' -> e' = e.
  Proof.
    destruct hf as [b|], hf' as [b'|]; cbn; [|done| |].
    - intros [_ H] [<- H']. by eapply line_says_det.
    - intros [_ H] [_ H']. by eapply line_says_det.
    - intros [_ H] [_ H']. by eapply line_says_det.
  Qed.

  Inductive chain : option bool -> list str -> list list_line -> option bool -> Prop :=
  | chain_nil hf : chain hf [] [] hf
  | chain_cons hf hf1 hf2 l ls e es : steps hf hf1 l e -> chain hf1 ls es hf2 -> chain hf (l :: ls) (e :: es) hf2.

  Lemma chain_some b ls es hf' : chain (Some b) ls es hf' -> Forall2 (line_says pf b) ls es.
  Proof.
    remember (Some b) as hf eqn:E. induction 1 as [|hf hf1 hf2 l ls e es Hs Hc IH]; [constructor|]. subst.
    destruct hf1 as [b1|]; [|done]. destruct Hs as [<- Hs]. constructor; [done|]. by apply IH.
  Qed.
  Lemma chain_none ls es hf' : chain None ls es hf' -> exists pre post b es1 es2, ls = pre ++ post /\ es = es1 ++ es2 /\
      Forall undecided pre /\ Forall2 (line_says pf false) pre es1 /\
      (forall l rest, post = l :: rest -> decides b l) /\ Forall2 (line_says pf b) post es2.
  Proof.
    remember None as hf eqn:E. induction 1 as [|hf hf1 hf2 l ls e es Hs Hc IH].
    { exists [], [], true, [], []. split_and!; first [done|constructor]. }
    subst. destruct hf1 as [b1|]; destruct Hs as [Hd Hs].
    - apply chain_some in Hc. exists [], (l :: ls), b1, [], (e :: es). split_and!; first [done|by constructor|idtac].
      by intros ? ? [= <- <-].
    - destruct (IH eq_refl) as (pre & post & b & es1 & es2 & -> & -> & ? & ? & ? & ?).
      exists (l :: pre), post, b, (e :: es1), es2. split_and!; first [done|by constructor].
  Qed.
  Lemma some_chain b ls es : Forall2 (line_says pf b) ls es -> chain (Some b) ls es (Some b).
  Proof. induction 1 as [|l e ls es H _ IH]; [constructor|]. econstructor; [|exact IH]. done. Qed.
  Lemma none_chain pre post b es1 es2 : Forall undecided pre -> Forall2 (line_says pf false) pre es1 ->
      (forall l rest, post = l :: rest -> decides b l) -> Forall2 (line_says pf b) post es2 ->
      exists hf', chain None (pre ++ post) (es1 ++ es2) hf'.
  Proof.
    intros U F D G. revert U. induction F as [|l e pre es1 H _ IH]; cbn [app]; intros U.
    - destruct G as [|l e ls es H G]; [by exists None; constructor|]. exists (Some b). econstructor; [|by apply some_chain].
      split; [by eapply D|done].
    - apply Forall_cons in U as [U1 U2]. destruct (IH U2) as (hf' & C). exists hf'. econstructor; [|exact C]. done.
  Qed.

  Lemma read_lines m0 p tp : forall lines adds lt m hf m' hf',
    st m0 adds lt m -> rfoldl (read_variants_line pf p tp) (m, hf) lines = Ok (m', hf') ->
    exists es, chain hf (filter (fun l => l <> []) lines) es hf' /\
      st m0 (adds ++ concat (map (line_additions p tp) es)) (lt ++ concat (map line_links es)) m' /\ m_lexicons m' = m_lexicons m.
  Proof.
    induction lines as [|line lines IH]; intros adds lt m hf m' hf' S H; cbn [rfoldl] in H.
    - injection H as <- <-. exists []. cbn. rewrite !app_nil_r. split; [constructor|done].
    - apply rbind_ok in H as ([m1 hf1] & E & H). rewrite filter_cons. destruct (decide (line <> [])) as [Hl|Hl].
      + destruct (read_line m0 p tp adds lt m hf line m1 hf1 Hl S E) as (e & Hs & S1 & L1).
        destruct (IH _ _ _ _ _ _ S1 H) as (es & C & S2 & L2). exists (e :: es). cbn [map concat]. rewrite !app_assoc.
        split; [econstructor; [exact Hs|exact C]|]. split; [done|congruence].
      + apply dec_stable in Hl. subst. cbn in E. injection E as <- <-. by apply IH.
  Qed.
  Lemma write_lines m0 p tp hf' : forall lines adds lt m hf es rest r',
    chain hf (filter (fun l => l <> []) lines) es hf' -> st m0 adds lt m ->
    run_adds m0 (adds ++ concat (map (line_additions p tp) es) ++ rest) = Ok r' ->
    exists m', rfoldl (read_variants_line pf p tp) (m, hf) lines = Ok (m', hf').
  Proof.
    induction lines as [|line lines IH]; intros adds lt m hf es rest r' C S H; cbn [rfoldl].
    - inversion C; subst. by exists m.
    - rewrite filter_cons in C. destruct (decide (line <> [])) as [Hl|Hl].
      + inversion C as [|? hf1 ? ? ? e es' Hs C']; subst. cbn [map concat] in H. rewrite <- app_assoc in H.
        destruct (write_line _ _ _ _ _ _ _ _ _ _ _ _ Hl Hs S H) as (m1 & E). rewrite E. cbn [rbind].
        destruct (read_line m0 p tp adds lt m hf line m1 hf1 Hl S E) as (e' & Hs' & S1 & L1).
        assert (e' = e) as ->.
        { by eapply steps_det. }
        eapply IH; [exact C'|exact S1|]. rewrite <- app_assoc. exact H.
      + apply dec_stable in Hl. subst. cbn. by eapply IH.
  Qed.

  Lemma says_chain lines es : list_says pf lines es <-> exists hf', chain None (filter (fun l => l <> []) lines) es hf'.
  Proof.
    split.
    - intros (pre & post & b & es1 & es2 & -> & -> & U & F & D & G). by eapply none_chain.
    - intros (hf' & C). by apply chain_none in C.
  Qed.
  Lemma steps_next hf h1 h2 l e e' : steps hf h1 l e -> steps hf h2 l e' -> h1 = h2.
  Proof.
    assert (D : forall s s', columns25 l s -> columns25 l s' -> s = s').
    { intros s s' (r & fs & k & F & _) (r' & fs' & k' & F' & _). apply fields_det in F, F'. rewrite <- F in F'. by injection F'. }
    assert (C : forall s r s' fs, columns25 l s -> fields_of 9 l (r :: s' :: fs) -> Nat.modulo (length fs) 3 <> 0 -> False).
    { intros s r s' fs (r' & fs' & k & F & Hk) F' H. apply fields_det in F, F'. rewrite <- F in F'. injection F' as -> -> ->.
      rewrite Hk, three in H. done. }
    assert (UT : undecided l -> decides true l -> False).
    { intros (s & Hc & Hn) (s' & n & Hc' & Hn'). destruct (D _ _ Hc Hc'). by apply (Hn n). }
    assert (UF : undecided l -> decides false l -> False).
    { intros (s & Hc & Hn) (r & s' & fs & F & H). by eapply C. }
    assert (TF : decides true l -> decides false l -> False).
    { intros (s & n & Hc & Hn) (r & s' & fs & F & H). by eapply C. }
    destruct hf as [b|], h1 as [b1|], h2 as [b2|]; cbn; try done.
    - intros [-> _] [-> _]. done.
    - intros [H1 _] [H2 _]. destruct b1, b2; try done; exfalso; eauto.
    - intros [H1 _] [H2 _]. exfalso. destruct b1; eauto.
    - intros [H1 _] [H2 _]. exfalso. destruct b2; eauto.
  Qed.
  Lemma chain_det hf ls es h : chain hf ls es h -> forall es' h', chain hf ls es' h' -> es' = es.
  Proof.
    induction 1 as [|hf hf1 hf2 l ls e es Hs Hc IH]; intros es' h' C; inversion C as [|? g1 ? ? ? e' es'' Hs' C']; subst; [done|].
    destruct (steps_next _ _ _ _ _ _ Hs Hs'). f_equal; [by eapply steps_det|by eapply IH].
  Qed.
  Lemma list_says_det lines es es' : list_says pf lines es -> list_says pf lines es' -> es = es'.
  Proof. rewrite !says_chain. intros (h & C) (h' & C'). symmetry. by eapply chain_det. Qed.

  Definition list_params (i : nat) (ps : option vocab_params) : vocab_params := with_params_index (default vocab_params_default ps) (N.of_nat i).
  Definition variant_params (p : vocab_params) (tr : bool) : vocab_params :=
    if tr then with_params_type p (N.lor (vp_vocab_type p) VT_TRANSPARENT) else p.
  Lemma read_list m0 adds lt m name lines ps tr m' :
    st m0 adds lt m -> read_variants pf m name lines ps tr = Ok m' ->
    let p := list_params (as_u8 (length (m_lexicons m))) ps in
    exists es, list_says pf lines es /\
      st m0 (adds ++ concat (map (line_additions p (variant_params p tr)) es)) (lt ++ concat (map line_links es)) m' /\
      m_lexicons m' = m_lexicons m ++ [name].
  Proof.
    intros S H p. unfold read_variants in H. apply rbind_ok in H as ([m1 hf] & E & [= <-]).
    destruct (read_lines m0 p (variant_params p tr) lines adds lt m None m1 hf S E) as (es & C & S1 & L1).
    exists es. split; [|split].
    - apply says_chain. by exists hf.
    - eapply st_same; [exact S1|]. done.
    - cbn. by rewrite L1.
  Qed.
  Lemma write_list m0 adds lt m name lines ps tr es rest r' :
    st m0 adds lt m -> list_says pf lines es ->
    let p := list_params (as_u8 (length (m_lexicons m))) ps in
    run_adds m0 (adds ++ concat (map (line_additions p (variant_params p tr)) es) ++ rest) = Ok r' ->
    exists m', read_variants pf m name lines ps tr = Ok m'.
  Proof.
    intros S (hf' & C)%says_chain p H. destruct (write_lines m0 p (variant_params p tr) hf' lines adds lt m None es rest r' C S H) as (m1 & E).
    unfold read_variants. fold p. unfold p, list_params in E. unfold variant_params in E. rewrite E. eauto.
  Qed.
End lists.

(** ** Lexicons *)
Lemma st_adds m0 lt : forall l adds m r, st m0 adds lt m -> run_adds m l = Ok r -> st m0 (adds ++ l) lt r /\ m_alphabet r = m_alphabet m.
Proof.
  induction l as [|[[t f] p] l IH]; intros adds m r S H.
  - injection H as <-. rewrite app_nil_r. done.
  - unfold run_adds in H. cbn [rfoldl fst snd] in H. destruct (add_to_vocabulary m t f p) as [[m1 id]|] eqn:E; [|done]. cbn [rmap rbind fst] in H.
    destruct (IH _ _ _ (st_add _ _ _ _ _ _ _ _ _ S E) H) as [S' A].
    split; [by rewrite <- app_assoc in S'|]. rewrite A. by apply add_cases in E as [(? & ? & _ & _ & _ & ->)|(? & _ & _ & _ & ->)].
Qed.
Lemma read_lexicon m0 adds lt m name lines p m' :
  st m0 adds lt m -> read_vocabulary m name lines p = Ok m' ->
  exists l, Forall2 (line_adds (with_params_index p (N.of_nat (as_u8 (length (m_lexicons m)))))) (filter (fun l => l <> []) lines) l /\
    st m0 (adds ++ l) lt m' /\ m_lexicons m' = m_lexicons m ++ [name].
Proof.
  intros S H. destruct (read_vocabulary_adds _ _ _ _ _ H) as (l & r & F & Er & D & E & L). exists l. split; [done|]. split; [|done].
  destruct (st_adds _ _ _ _ _ _ S Er) as [S' A]. eapply st_same; [exact S'|]. split; [done|]. split; [done|]. rewrite A.
  assert (m_alphabet m' = m_alphabet m); [|done].
  assert (lookups_inverse m) as I.
  { destruct S as (r0 & L0 & _ & I & B & S). apply (same_vocab_wf _ _ S). apply links_inside in B; [|done]. clear -I B.
    induction L0 as [|x L0 IH] using rev_ind; [done|]. apply Forall_app in B as [B _]. rewrite run_links_snoc.
    apply link_wf. by apply IH. }
  destruct (read_vocabulary_keeps _ _ _ _ _ H I) as [_ [A' _]]. done.
Qed.
Lemma write_lexicon m0 lt name p : forall lines adds m l rest r',
  st m0 adds lt m ->
  Forall2 (line_adds (with_params_index p (N.of_nat (as_u8 (length (m_lexicons m)))))) (filter (fun l => l <> []) lines) l ->
  run_adds m0 (adds ++ l ++ rest) = Ok r' -> exists m', read_vocabulary m name lines p = Ok m'.
Proof.
  intros lines adds m l rest r'. unfold read_vocabulary. generalize (with_params_index p (N.of_nat (as_u8 (length (m_lexicons m))))) as q.
  intros q S F H. cut (exists m', rfoldl (read_vocabulary_line q) m lines = Ok m'). { intros (m' & ->). cbn. eauto. }
  revert adds m l S F H. induction lines as [|line lines IH]; intros adds m l S F H; cbn [rfoldl]; [eauto|].
  rewrite filter_cons in F. destruct (decide (line <> [])) as [Hl|Hl].
  - inversion F as [|? a ? l' La F']; subst. destruct a as [[t f] q']. cbn in H.
    assert (H' : run_adds m0 ((adds ++ [(t, f, q')]) ++ l' ++ rest) = Ok r') by (rewrite <- app_assoc; exact H). clear H.
    assert (exists m1, read_vocabulary_line q m line = Ok m1 /\ st m0 (adds ++ [(t, f, q')]) lt m1) as (m1 & E & S1).
    { destruct La as (fs & t' & Fs & Et & f' & [= -> -> ->] & Hc). apply fields_det in Fs.
      unfold read_vocabulary_line. destruct line as [|c0 l0]; [done|]. rewrite <- Fs. rewrite Et. cbn [rexpect rbind].
      match goal with |- exists m1, rbind ?X _ = _ /\ _ =>
        assert (exists ma, same_vocab m ma /\ X = Ok (ma, f')) as (ma & Sa & Ea) end.
      { destruct (vp_freq_column q) as [col|].
        - eexists. split; cycle 1.
          + cbn zeta. destruct (fs !! col) as [s|]; cbn [default].
            * apply parse_uint_spec in Hc. unfold parse_u32. cbn. rewrite Hc. cbn. done.
            * subst f'. done.
          + by destruct vt_check.
        - subst. by exists m. }
      rewrite Ea. cbn [rbind fst snd]. rewrite run_adds_app in H'. apply rbind_ok in H' as (r1 & E1 & _).
      pose proof (st_same _ _ _ _ _ S Sa) as Sm.
      destruct (st_add_ok _ _ _ _ _ _ _ _ Sm E1) as (m1 & id & Em). rewrite Em. cbn. exists m1. split; [done|]. by eapply st_add. }
    rewrite E. cbn [rbind]. by eapply IH.
  - apply dec_stable in Hl. subst. cbn. by eapply IH.
Qed.
