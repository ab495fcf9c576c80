(** Boundaries, n-gram candidates and offsets. *)
From Coq Require Import Lia ZifyNat.
From Verif Require Import M_Base M_Utf8 M_Float M_Types M_Text S_Text P_Utf8.
From stdpp Require Import options.

#[local] Arguments byte_len : simpl never.
#[local] Arguments utf8_len : simpl never.
(** * Slices *)
Lemma byte_len_app s t : byte_len (s ++ t) = byte_len s + byte_len t.
Proof. unfold byte_len. by rewrite map_app, sum_list_with_app || rewrite map_app, sum_list_app. Qed.
Lemma byte_len_cons c t : byte_len (c :: t) = utf8_len c + byte_len t.
Proof. done. Qed.
Lemma byte_len_1 c : byte_len [c] = utf8_len c.
Proof. rewrite byte_len_cons. change (byte_len []) with 0. lia. Qed.
Lemma byte_len_0 t : byte_len t = 0 -> t = [].
Proof. destruct t as [|c t]; [done|]. rewrite byte_len_cons. pose proof (utf8_len_pos c). lia. Qed.
Lemma byte_len_inj s1 : forall s2 r1 r2, s1 ++ r1 = s2 ++ r2 -> byte_len s1 = byte_len s2 -> s1 = s2 /\ r1 = r2.
Proof.
  induction s1 as [|c s1 IH]; intros [|d s2] r1 r2 E L.
  - done.
  - rewrite byte_len_cons in L. pose proof (utf8_len_pos d). change (byte_len []) with 0 in L. lia.
  - rewrite byte_len_cons in L. pose proof (utf8_len_pos c). change (byte_len []) with 0 in L. lia.
  - cbn in E. injection E as -> E. rewrite !byte_len_cons in L. destruct (IH s2 r1 r2 E) as [-> ->]; [lia|done].
Qed.
Lemma split_at_byte_app pre post : split_at_byte (byte_len pre) (pre ++ post) = Some (pre, post).
Proof.
  induction pre as [|c pre IH]; [by destruct post|]. cbn [app split_at_byte]. rewrite byte_len_cons. pose proof (utf8_len_pos c).
  destruct (Nat.eqb_spec (utf8_len c + byte_len pre) 0); [lia|].
  destruct (Nat.ltb_spec (utf8_len c + byte_len pre) (utf8_len c)); [lia|].
  replace (utf8_len c + byte_len pre - utf8_len c) with (byte_len pre) by lia. by rewrite IH.
Qed.
Lemma split_at_byte_spec n t a b : split_at_byte n t = Some (a, b) <-> t = a ++ b /\ byte_len a = n.
Proof.
  split; [|intros [-> <-]; apply split_at_byte_app].
  revert n a. induction t as [|c t IH]; intros n a; cbn [split_at_byte].
  - destruct (Nat.eqb_spec n 0); [|done]. by intros [= <- <-].
  - destruct (Nat.eqb_spec n 0); [by intros [= <- <-]|]. destruct (Nat.ltb_spec n (utf8_len c)); [done|].
    destruct (split_at_byte (n - utf8_len c) t) as [[a' b']|] eqn:E; [|done]. intros [= <- <-].
    destruct (IH _ _ E) as [-> L]. split; [done|]. rewrite byte_len_cons. lia.
Qed.
Lemma slice_spec t b e s : slice t b e = Ok s <-> at_bytes t b e s.
Proof.
  unfold slice, at_bytes. split.
  - destruct (Nat.ltb_spec e b); [done|]. destruct (split_at_byte b t) as [[pre r]|] eqn:E; [|done].
    destruct (split_at_byte (e - b) r) as [[m post]|] eqn:E'; [|done]. intros [= <-].
    apply split_at_byte_spec in E as [-> L], E' as [-> L']. exists pre, post. split; [done|]. lia.
  - intros (pre & post & -> & -> & ->). destruct (Nat.ltb_spec (byte_len pre + byte_len s) (byte_len pre)); [lia|].
    rewrite split_at_byte_app. replace (byte_len pre + byte_len s - byte_len pre) with (byte_len s) by lia.
    by rewrite split_at_byte_app.
Qed.
Lemma slice_panic t b e p : slice t b e = Panic p -> forall s, ~ at_bytes t b e s.
Proof. intros E s H. apply slice_spec in H. congruence. Qed.
Lemma slice_at pre s post : slice (pre ++ s ++ post) (byte_len pre) (byte_len pre + byte_len s) = Ok s.
Proof. apply slice_spec. by exists pre, post. Qed.
(** the same on bytes *)
Lemma at_bytes_bytes t b e s : at_bytes t b e s -> take (e - b) (drop b (bytes t)) = bytes s.
Proof.
  intros (pre & post & -> & -> & ->). rewrite !bytes_app, <- !bytes_length.
  rewrite drop_app_alt by done.
  replace (length (bytes pre) + length (bytes s) - length (bytes pre)) with (length (bytes s)) by lia. by rewrite take_app.
Qed.
Lemma at_bytes_unique t b e s s' : at_bytes t b e s -> at_bytes t b e s' -> s = s'.
Proof. rewrite <- !slice_spec. congruence. Qed.
Lemma at_bytes_range t b e s : at_bytes t b e s -> b <= e <= byte_len t.
Proof. intros (pre & post & -> & -> & ->). rewrite !byte_len_app. lia. Qed.

(** * Boundaries *)
Fixpoint boundaries_at (pos : nat) (ps : pieces) : list tmatch :=
  match ps with
  | [] => []
  | (w, b) :: ps' =>
      new_empty b (pos + byte_len w) (pos + byte_len w + byte_len b)
        :: boundaries_at (pos + byte_len w + byte_len b) ps'
  end.
Lemma joined_cons w b ps : joined ((w, b) :: ps) = w ++ b ++ joined ps.
Proof. unfold joined. cbn. by rewrite <- app_assoc. Qed.
Lemma joined_1 w b : joined [(w, b)] = w ++ b.
Proof. rewrite joined_cons. unfold joined. cbn. by rewrite app_nil_r. Qed.
Lemma joined_app ps qs : joined (ps ++ qs) = joined ps ++ joined qs.
Proof. unfold joined. by rewrite map_app, concat_app. Qed.
Lemma boundaries_at_length pos ps : length (boundaries_at pos ps) = length ps.
Proof. revert pos. induction ps as [|[w b] ps IH]; intros pos; cbn; [done|]. by rewrite IH. Qed.
Lemma boundaries_at_lookup ps : forall pos i m, boundaries_at pos ps !! i = Some m <->
  exists w b, ps !! i = Some (w, b) /\
    m = new_empty b (pos + byte_len (joined (take i ps) ++ w)) (pos + byte_len (joined (take i ps) ++ w ++ b)).
Proof.
  induction ps as [|[w b] ps IH]; intros pos i m.
  - cbn. split; [done|by intros (? & ? & ? & _)].
  - destruct i as [|i].
    + cbn. split.
      * intros [= <-]. exists w, b. split; [done|]. f_equal; rewrite ?byte_len_app; lia.
      * intros (w' & b' & [= <- <-] & ->). f_equal. f_equal; rewrite ?byte_len_app; lia.
    + change (boundaries_at pos ((w, b) :: ps) !! S i) with (boundaries_at (pos + byte_len w + byte_len b) ps !! i).
      rewrite IH. change (((w, b) :: ps) !! S i) with (ps !! i). cbn [take]. rewrite joined_cons.
      split; intros (w' & b' & E & ->); exists w', b'; (split; [done|]); f_equal; rewrite !byte_len_app; lia.
Qed.

(** words alphabetic, separators not, none empty but the first word and the last separator *)
Fixpoint well_cut (alpha : N -> bool) (first : bool) (ps : pieces) : Prop :=
  match ps with
  | [] => True
  | (w, b) :: ps' =>
      Forall (fun c => alpha c = true) w /\ Forall (fun c => alpha c = false) b /\
      (first = false -> w <> []) /\ (ps' <> [] -> b <> []) /\ well_cut alpha false ps'
  end.
Lemma well_cut_lookup alpha ps : forall first, well_cut alpha first ps <->
  forall i w b, ps !! i = Some (w, b) ->
    Forall (fun c => alpha c = true) w /\ Forall (fun c => alpha c = false) b /\
    (first = false \/ 0 < i -> w <> []) /\ (S i < length ps -> b <> []).
Proof.
  induction ps as [|[w b] ps IH]; intros first; cbn [well_cut]; [split; [done|done]|]. rewrite IH. split.
  - intros (Hw & Hb & Hf & Hl & H) [|i] w' b' E.
    + injection E as <- <-. split; [done|]. split; [done|]. split; [intros [?|?]; [by apply Hf|lia]|].
      cbn. intros L. apply Hl. destruct ps; [cbn in L; lia|done].
    + destruct (H i w' b' E) as (? & ? & Hw' & Hb'). split; [done|]. split; [done|].
      split; [intros _; apply Hw'; by left|]. cbn. intros L. apply Hb'. lia.
  - intros H. destruct (H 0 w b eq_refl) as (Hw & Hb & Hf & Hl). split; [done|]. split; [done|].
    split; [intros ->; apply Hf; by left|]. split; [intros Hne; apply Hl; destruct ps; [done|cbn; lia]|].
    intros i w' b' E. destruct (H (S i) w' b' E) as (? & ? & Hw' & Hb'). split; [done|]. split; [done|].
    split; [intros _; apply Hw'; right; lia|]. intros L. apply Hb'. cbn. lia.
Qed.
Lemma segmentation_cut alpha t ps : segmentation alpha t ps <-> t = joined ps /\ ps <> [] /\ well_cut alpha true ps.
Proof.
  unfold segmentation. rewrite well_cut_lookup. split; intros (-> & Hne & H); (split; [done|]); (split; [done|]);
    intros i w b E; destruct (H i w b E) as (? & ? & Hw & Hb); (split; [done|]); (split; [done|]); (split; [|done]).
  - intros [[=]|L]; by apply Hw.
  - intros L. apply Hw. by right.
Qed.

(** the loop: [cs] remaining; in a word [w] or in a separator [b] after word [w] *)
Lemma find_boundaries_from_spec alpha text cs : forall pre w b,
  text = pre ++ w ++ b ++ cs -> Forall (fun c => alpha c = true) w -> Forall (fun c => alpha c = false) b ->
  exists w' b' ps,
    find_boundaries_from alpha text cs (byte_len (pre ++ w ++ b)) (match b with [] => None | _ => Some (byte_len (pre ++ w)) end)
      = Ok (boundaries_at (byte_len pre) ((w', b') :: ps)) /\
    w' ++ b' ++ joined ps = w ++ b ++ cs /\ w `prefix_of` w' /\ (b <> [] -> w' = w) /\
    Forall (fun c => alpha c = true) w' /\ Forall (fun c => alpha c = false) b' /\
    (ps <> [] -> b' <> []) /\ well_cut alpha false ps.
Proof.
  induction cs as [|c cs IH]; intros pre w b Ht Hw Hb; cbn [find_boundaries_from].
  - exists w, b, []. rewrite app_nil_r in Ht. split.
    + subst text. destruct b as [|c0 b0]; cbn [boundaries_at].
      * rewrite app_nil_r, byte_len_app. change (byte_len []) with 0. by rewrite Nat.add_0_r.
      * rewrite !byte_len_app. change (pre ++ w ++ c0 :: b0) with (pre ++ w ++ (c0 :: b0)).
        rewrite (assoc_L _ pre w (c0 :: b0)).
        pose proof (slice_at (pre ++ w) (c0 :: b0) []) as E. rewrite app_nil_r, !byte_len_app in E.
        rewrite Nat.add_assoc. rewrite E. cbn [rbind]. done.
    + unfold joined. cbn. rewrite !app_nil_r. done.
  - destruct b as [|c0 b0].
    + rewrite !app_nil_r. destruct (alpha c) eqn:Hc.
      * destruct (IH pre (w ++ [c]) []) as (w' & b' & ps & E & Ej & Hpre & _ & H).
        { by rewrite Ht, <- !app_assoc. }
        { apply Forall_app; by repeat constructor. }
        { done. }
        exists w', b', ps. rewrite !app_nil_r in E.
        replace (byte_len (pre ++ w) + utf8_len c) with (byte_len (pre ++ w ++ [c])) by (rewrite !byte_len_app, ?byte_len_1; lia).
        split; [done|]. split; [by rewrite Ej, <- !app_assoc|]. split; [by etrans; [|exact Hpre]; apply prefix_app_r|].
        done.
      * destruct (IH pre w [c]) as (w' & b' & ps & E & Ej & Hpre & Hb' & H).
        { by rewrite Ht. }
        { done. }
        { by repeat constructor. }
        exists w', b', ps.
        replace (byte_len (pre ++ w) + utf8_len c) with (byte_len (pre ++ w ++ [c])) by (rewrite !byte_len_app, ?byte_len_1; lia).
        split; [done|]. split; [by rewrite Ej|]. split; [done|]. done.
    + destruct (alpha c) eqn:Hc.
      * rewrite Ht. pose proof (slice_at (pre ++ w) (c0 :: b0) (c :: cs)) as Es.
        replace (byte_len (pre ++ w ++ c0 :: b0)) with (byte_len (pre ++ w) + byte_len (c0 :: b0))
          by (rewrite !byte_len_app; lia).
        rewrite <- app_assoc in Es. rewrite Es. cbn [rbind].
        destruct (IH (pre ++ w ++ c0 :: b0) [c] []) as (w' & b' & ps & E & Ej & Hpre & _ & Hw' & Hb' & Hl & H).
        { rewrite Ht, <- !app_assoc. done. }
        { by repeat constructor. }
        { done. }
        cbn [app] in E. rewrite ?app_nil_r in E. rewrite <- Ht.
        replace (byte_len (pre ++ w) + byte_len (c0 :: b0) + utf8_len c) with (byte_len ((pre ++ w ++ c0 :: b0) ++ [c]))
          by (rewrite !byte_len_app, ?byte_len_1; lia).
        rewrite E. cbn [rbind]. exists w, (c0 :: b0), ((w', b') :: ps). split.
        { cbn [boundaries_at]. f_equal. rewrite !byte_len_app. rewrite (Nat.add_assoc _ _ (byte_len (c0 :: b0))). f_equal. }
        rewrite joined_cons, Ej. split; [done|]. split; [done|]. split; [done|]. split; [done|]. split; [done|].
        split; [done|]. cbn [well_cut]. split; [done|]. split; [done|]. split; [|done].
        intros _ ->. apply prefix_nil_inv in Hpre. done.
      * destruct (IH pre w ((c0 :: b0) ++ [c])) as (w' & b' & ps & E & Ej & Hpre & Hbw & H).
        { by rewrite Ht, <- !app_assoc. }
        { done. }
        { apply Forall_app. split; [done|]. by repeat constructor. }
        exists w', b', ps. cbn [app] in E, Ej.
        replace (byte_len (pre ++ w ++ c0 :: b0) + utf8_len c) with (byte_len (pre ++ w ++ c0 :: b0 ++ [c])).
        2: { change (c0 :: b0 ++ [c]) with ((c0 :: b0) ++ [c]). rewrite !byte_len_app, byte_len_1. lia. }
        split; [done|]. split; [by rewrite Ej, <- !app_assoc|]. split; [done|]. split; [|done].
        intros _. by apply Hbw.
Qed.
Lemma find_boundaries_cut alpha t :
  exists ps, segmentation alpha t ps /\ find_boundaries alpha t = Ok (boundaries_at 0 ps).
Proof.
  destruct (find_boundaries_from_spec alpha t t [] [] []) as (w & b & ps & E & Ej & _ & _ & Hw & Hb & Hl & H);
    [done|constructor|constructor|].
  exists ((w, b) :: ps). split; [|done]. apply segmentation_cut. rewrite joined_cons. split; [done|]. split; [done|].
  cbn. split; [done|]. split; [done|]. split; [done|]. split; [done|]. done.
Qed.

(** the division into longest runs is unique *)
Lemma run_unique (P : N -> bool) w1 : forall w2 r1 r2, w1 ++ r1 = w2 ++ r2 ->
  Forall (fun c => P c = true) w1 -> Forall (fun c => P c = true) w2 ->
  (forall c, head r1 = Some c -> P c = false) -> (forall c, head r2 = Some c -> P c = false) -> w1 = w2 /\ r1 = r2.
Proof.
  induction w1 as [|c w1 IH]; intros [|d w2] r1 r2 E H1 H2 N1 N2.
  - done.
  - cbn in E. subst r1. inversion H2 as [|? ? Hd]; subst. rewrite (N1 d eq_refl) in Hd. done.
  - cbn in E. subst r2. inversion H1 as [|? ? Hc]; subst. rewrite (N2 c eq_refl) in Hc. done.
  - cbn in E. injection E as -> E. inversion H1; inversion H2; subst. destruct (IH w2 r1 r2 E) as [-> ->]; done.
Qed.
Lemma well_cut_head alpha ps : well_cut alpha false ps -> forall c, head (joined ps) = Some c -> alpha c = true.
Proof.
  destruct ps as [|[w b] ps]; [done|]. cbn [well_cut]. intros (Hw & _ & Hne & _) c. rewrite joined_cons.
  destruct w as [|d w]; [by destruct (Hne eq_refl)|]. cbn. intros [= <-]. by inversion Hw.
Qed.
Lemma separator_head alpha b ps : Forall (fun c => alpha c = false) b -> (ps <> [] -> b <> []) ->
  forall c, head (b ++ joined ps) = Some c -> alpha c = false.
Proof.
  intros Hb Hl c. destruct b as [|d b].
  - destruct ps; [done|]. by destruct Hl.
  - cbn. intros [= <-]. by inversion Hb.
Qed.
Lemma well_cut_unique alpha ps : forall first qs, well_cut alpha first ps -> well_cut alpha first qs ->
  joined ps = joined qs -> (first = true -> ps <> [] /\ qs <> []) -> ps = qs.
Proof.
  induction ps as [|[w b] ps IH]; intros first [|[w' b'] qs] Hp Hq E Hne.
  - done.
  - exfalso. destruct first; [by destruct (Hne eq_refl)|]. destruct Hq as (_ & _ & H & _).
    rewrite joined_cons in E. destruct w'; [by apply H|done].
  - exfalso. destruct first; [by destruct (Hne eq_refl)|]. destruct Hp as (_ & _ & H & _).
    rewrite joined_cons in E. destruct w; [by apply H|done].
  - rewrite !joined_cons in E. destruct Hp as (Hw & Hb & _ & Hl & Hp), Hq as (Hw' & Hb' & _ & Hl' & Hq).
    apply (run_unique alpha) in E as [-> E]; [|done|done|by apply separator_head|by apply separator_head].
    apply (run_unique (fun c => negb (alpha c))) in E as [-> E].
    + f_equal. by apply (IH false).
    + eapply Forall_impl; [exact Hb|]. by intros c ->.
    + eapply Forall_impl; [exact Hb'|]. by intros c ->.
    + intros c H. by rewrite (well_cut_head alpha ps Hp c H).
    + intros c H. by rewrite (well_cut_head alpha qs Hq c H).
Qed.
Lemma segmentation_unique alpha t ps qs : segmentation alpha t ps -> segmentation alpha t qs -> ps = qs.
Proof.
  rewrite !segmentation_cut. intros (-> & Hp & Cp) (E & Hq & Cq). by apply (well_cut_unique alpha ps true qs).
Qed.
Lemma find_boundaries_spec alpha t ps : segmentation alpha t ps -> find_boundaries alpha t = Ok (boundaries_at 0 ps).
Proof.
  intros H. destruct (find_boundaries_cut alpha t) as (qs & H' & E).
  by rewrite (segmentation_unique alpha t ps qs H H').
Qed.
Lemma find_boundaries_at alpha t bs : find_boundaries alpha t = Ok bs ->
  exists ps, segmentation alpha t ps /\ length bs = length ps /\ forall i m, bs !! i = Some m <-> is_boundary ps i m.
Proof.
  intros E. destruct (find_boundaries_cut alpha t) as (ps & H & E'). rewrite E in E'. injection E' as ->.
  exists ps. split; [done|]. split; [apply boundaries_at_length|]. intros i m. rewrite boundaries_at_lookup. done.
Qed.

(** * Strength *)
Lemma classify_length bs : length (classify_boundaries bs) = length bs.
Proof. apply imap_length. Qed.
Lemma classify_lookup bs i : classify_boundaries bs !! i = (fun b => classify_one (i =? length bs - 1) b) <$> bs !! i.
Proof. unfold classify_boundaries. by rewrite list_lookup_imap. Qed.

(** * Candidates *)
Lemma nth_error_lookup_eq {A} (l : list A) i : nth_error l i = l !! i.
Proof. revert i. induction l as [|x l IH]; intros [|i]; cbn; [done|done|done|apply IH]. Qed.
Lemma stretch_split ps : forall n w b, ps !! n = Some (w, b) -> stretch ps (S n) = joined (take n ps) ++ w.
Proof.
  induction ps as [|[w0 b0] ps IH]; intros n w b E; [done|]. destruct n as [|n].
  - injection E as <- <-. done.
  - cbn [take]. rewrite joined_cons, <- !app_assoc. rewrite <- (IH n w b E). done.
Qed.
Lemma stretch_from ps i n w b : ps !! (i + n) = Some (w, b) ->
  joined (take (i + n) ps) ++ w = joined (take i ps) ++ stretch (drop i ps) (S n).
Proof.
  intros E. rewrite (stretch_split (drop i ps) n w b) by (by rewrite lookup_drop).
  rewrite app_assoc, <- joined_app. f_equal. f_equal.
  rewrite <- (take_take_drop ps i n) at 1. done.
Qed.
Lemma stretch_beyond ps n : forall i, n + i <= length ps -> exists r, joined (drop i ps) = stretch (drop i ps) n ++ r.
Proof.
  intros i L. destruct n as [|n]; [by exists (joined (drop i ps)); destruct (drop i ps) as [|[]]|].
  destruct (lookup_lt_is_Some_2 (drop i ps) n) as [[w b] E]; [rewrite drop_length; lia|].
  rewrite (stretch_split _ n w b E). exists (b ++ joined (drop (S n) (drop i ps))).
  rewrite <- (take_drop_middle _ _ _ E) at 1. rewrite joined_app, joined_cons. by rewrite <- !app_assoc.
Qed.
(** positions of the boundaries *)
Definition start_of (pos : nat) (ps : pieces) (i : nat) : nat := pos + byte_len (joined (take i ps)).
Lemma start_mono pos ps i j : i <= j -> start_of pos ps i <= start_of pos ps j.
Proof.
  intros L. unfold start_of. replace j with (i + (j - i)) by lia. rewrite <- take_take_drop, joined_app, byte_len_app. lia.
Qed.
Lemma boundary_between pos ps i m : boundaries_at pos ps !! i = Some m ->
  start_of pos ps i <= tm_begin m <= tm_end m /\ tm_end m = start_of pos ps (S i).
Proof.
  rewrite boundaries_at_lookup. intros (w & b & E & ->). cbn [tm_begin tm_end new_empty]. unfold start_of.
  rewrite (take_S_r ps i (w, b) E), joined_app, joined_1, !byte_len_app. lia.
Qed.
Lemma internal_range_bounds m bs : forall i lo hi begin e,
  (forall j x, bs !! j = Some x -> tm_begin m < tm_begin x -> tm_end x < tm_end m -> lo <= i + j < hi) ->
  (forall b, begin = Some b -> lo <= b) -> e <= hi ->
  forall b' e', internal_range m i bs begin e = (Some b', e') -> lo <= b' /\ e' <= hi.
Proof.
  induction bs as [|x bs IH]; intros i lo hi begin e H Hb He b' e'; cbn [internal_range].
  - intros [= -> <-]. split; [by apply Hb|done].
  - assert (forall j y, bs !! j = Some y -> tm_begin m < tm_begin y -> tm_end y < tm_end m -> lo <= S i + j < hi) as H'.
    { intros j y Ey H1 H2. pose proof (H (S j) y Ey H1 H2). lia. }
    destruct (Nat.ltb_spec (tm_begin m) (tm_begin x)) as [L1|]; cbn [andb]; [|by apply IH].
    destruct (Nat.ltb_spec (tm_end x) (tm_end m)) as [L2|]; [|by apply IH].
    pose proof (H 0 x eq_refl L1 L2). destruct begin as [b0|].
    + apply IH; [done|done|lia].
    + apply IH; [done| |done]. intros b [= <-]. lia.
Qed.
Lemma internal_count m bs lo hi :
  (forall j x, bs !! j = Some x -> tm_begin m < tm_begin x -> tm_end x < tm_end m -> lo <= j < hi) ->
  length (internal_boundaries m bs) <= hi - lo.
Proof.
  intros H. unfold internal_boundaries.
  destruct (internal_range m 0 bs None 0) as [[b|] e] eqn:E; [|cbn; lia].
  assert (lo <= b /\ e <= hi) as [? ?].
  { eapply (internal_range_bounds m bs 0 lo hi None 0); [exact H|done|lia|exact E]. }
  destruct (Nat.leb_spec e b); [cbn; lia|]. rewrite take_length. lia.
Qed.

Section ngrams.
  Context (pre post : str) (ps : pieces) (n : nat).
  Notation text := (pre ++ joined ps ++ post).
  Notation pos := (byte_len pre).
  Notation bs := (boundaries_at pos ps).
  #[local] Set Default Proof Using "Type".

  Lemma candidate_ends i w b : ps !! (i + n) = Some (w, b) ->
    exists m, bs !! (i + n) = Some m /\ tm_begin m = tm_end (candidate pos ps (S n) i) /\
    slice text (start_of pos ps i) (tm_begin m) = Ok (stretch (drop i ps) (S n)).
  Proof.
    intros E. eexists. split.
    { apply boundaries_at_lookup. exists w, b. split; [exact E|reflexivity]. }
    cbn [tm_begin tm_end new_empty candidate set_n]. rewrite (stretch_from ps i n w b E), byte_len_app.
    split; [lia|]. apply slice_spec.
    assert (n + i < length ps) as L by (apply lookup_lt_Some in E; lia).
    destruct (stretch_beyond ps (S n) i) as [r Hr]; [lia|].
    exists (pre ++ joined (take i ps)), (r ++ post). split.
    - rewrite <- (take_drop i ps) at 1. rewrite joined_app, Hr. by rewrite <- !app_assoc.
    - unfold start_of. rewrite byte_len_app. lia.
  Qed.
  Lemma ngrams_loop E : (forall i m, bs !! i = Some m -> tm_begin m <= E) ->
    forall k i, k = length ps - n - i ->
    match_ngrams_loop text bs (drop (i + n) bs) (S n) (start_of pos ps i) E i
    = Ok (start_of pos ps (i + k), List.filter (fun m => worth_matching (tm_text m)) (map (candidate pos ps (S n)) (seq i k))).
  Proof.
    intros HE k. induction k as [|k IH]; intros i Hk.
    - rewrite drop_ge by (rewrite boundaries_at_length; lia). cbn. by rewrite Nat.add_0_r.
    - destruct (lookup_lt_is_Some_2 ps (i + n)) as [[w b] Ew]; [lia|].
      destruct (candidate_ends i w b Ew) as (m & Em & Eb & Es).
      rewrite (drop_S bs m (i + n) Em). cbn [match_ngrams_loop].
      destruct (Nat.ltb_spec E (tm_begin m)) as [L|_]; [pose proof (HE _ _ Em); lia|]. rewrite Es. cbn [rbind].
      destruct (lookup_lt_is_Some_2 bs i) as [mi Emi]; [rewrite boundaries_at_length; lia|].
      rewrite nth_error_lookup_eq, Emi. cbn [rexpect rbind].
      destruct (boundary_between pos ps i mi Emi) as [_ ->].
      change (S (i + n)) with (S i + n). rewrite IH by lia. cbn [rbind seq map List.filter].
      replace (S i + k) with (i + S k) by lia.
      change (tm_text (candidate pos ps (S n) i)) with (stretch (drop i ps) (S n)).
      rewrite Eb. done.
  Qed.
  Lemma find_match_ngrams_spec last : bs !! (length ps - 1) = Some last ->
    find_match_ngrams text bs (S n) pos (Some (tm_begin last))
    = Ok (List.filter (fun m => worth_matching (tm_text m)) (map (candidate pos ps (S n)) (seq 0 (length ps - n)))).
  Proof.
    intros Hlast. unfold find_match_ngrams. change (S n =? 0) with false. cbv iota.
    replace (S n - 1) with n by lia.
    assert (forall i m, bs !! i = Some m -> tm_begin m <= tm_begin last) as HE.
    { intros i m E. pose proof (boundary_between pos ps _ _ E). pose proof (boundary_between pos ps _ _ Hlast).
      assert (i < length ps) by (apply lookup_lt_Some in E; by rewrite boundaries_at_length in E).
      destruct (decide (i = length ps - 1)) as [->|Hi]; [rewrite E in Hlast; by injection Hlast as ->|].
      pose proof (start_mono pos ps (S i) (length ps - 1)). lia. }
    pose proof (ngrams_loop (tm_begin last) HE (length ps - n) 0) as L.
    unfold start_of in L at 1. cbn [take Nat.add] in L. change (byte_len (joined [])) with 0 in L.
    rewrite Nat.add_0_r in L. rewrite L by lia. cbn [rbind]. clear L.
    set (k := length ps - n). destruct (Nat.ltb_spec (start_of pos ps k) (tm_begin last)) as [Lt|]; [|done].
    assert (length ps > 0) as Hlen.
    { apply lookup_lt_Some in Hlast. rewrite boundaries_at_length in Hlast. lia. }
    assert (exists s, slice text (start_of pos ps k) (tm_begin last) = Ok s) as [s Es].
    { rewrite boundaries_at_lookup in Hlast. destruct Hlast as (w & b & Ew & ->). cbn [tm_begin new_empty] in *.
      destruct (decide (k <= length ps - 1)) as [Hk|Hk].
      - assert (exists d, length ps - 1 = k + d) as [d Ed] by (exists (length ps - 1 - k); lia). rewrite Ed in Ew |- *.
        rewrite (stretch_from ps k d w b Ew). destruct (stretch_beyond ps (S d) k) as [r Hr]; [lia|].
        exists (stretch (drop k ps) (S d)). apply slice_spec. exists (pre ++ joined (take k ps)), (r ++ post).
        unfold start_of. rewrite !byte_len_app. split; [|lia].
        rewrite <- (take_drop k ps) at 1. rewrite joined_app, Hr. by rewrite <- !app_assoc.
      - exfalso. replace k with (S (length ps - 1)) in Lt by lia. unfold start_of in Lt.
        rewrite (take_S_r ps _ (w, b) Ew), joined_app, joined_1, !byte_len_app in Lt. lia. }
    rewrite Es. cbn [rbind]. set (m := set_n (new_empty s (start_of pos ps k) (tm_begin last)) (S n)).
    assert (length (internal_boundaries m bs) < S n) as Hi.
    { eapply Nat.le_lt_trans; [apply (internal_count m bs k (length ps - 1))|lia].
      intros j x Ex L1 L2. cbn [tm_begin tm_end m set_n new_empty] in L1, L2.
      pose proof (boundary_between pos ps _ _ Ex).
      assert (j < length ps) by (apply lookup_lt_Some in Ex; by rewrite boundaries_at_length in Ex). split.
      - destruct (decide (k <= j)); [done|]. pose proof (start_mono pos ps (S j) k). lia.
      - destruct (decide (j = length ps - 1)) as [->|]; [|lia]. rewrite Hlast in Ex. injection Ex as <-. lia. }
    destruct (Nat.eqb_spec (length (internal_boundaries m bs)) (S n)); [lia|]. by rewrite andb_false_r.
  Qed.
End ngrams.

(** which candidates are kept *)
Lemma stretch_words alpha ps : forall first n, well_cut alpha first ps -> alpha 32%N = false -> n < length ps ->
  worth_matching (stretch ps (S n)) = true \/ (n = 0 /\ first = true /\ exists b ps', ps = ([], b) :: ps').
Proof.
  intros first n H Hsp L. destruct ps as [|[w b] ps]; [cbn in L; lia|]. destruct H as (Hw & Hb & Hne & Hl & H).
  destruct n as [|n].
  - cbn [stretch]. destruct w as [|c w].
    + right. destruct first; [|by destruct Hne]. split; [done|]. split; [done|]. by exists b, ps.
    + left. unfold worth_matching. rewrite !bool_decide_eq_false_2; [done| |done].
      intros [= -> ->]. inversion Hw as [|? ? Hc]. congruence.
  - left. destruct ps as [|[w' b'] ps]; [cbn in L; lia|]. destruct H as (Hw' & _ & Hne' & _).
    specialize (Hne' eq_refl). assert (b <> []) as Hb0 by (by apply Hl).
    change (stretch ((w, b) :: (w', b') :: ps) (S (S n))) with (w ++ b ++ stretch ((w', b') :: ps) (S n)).
    assert (2 <= length (w ++ b ++ stretch ((w', b') :: ps) (S n))) as L2.
    { rewrite !app_length. assert (1 <= length (stretch ((w', b') :: ps) (S n))).
      { cbn [stretch]. destruct w'; [done|]. destruct n; cbn; lia. }
      destruct b; [done|]. cbn [length]. lia. }
    unfold worth_matching. rewrite !bool_decide_eq_false_2; [done| |]; intros E; rewrite E in L2; cbn in L2; lia.
Qed.
Lemma well_cut_drop alpha ps : forall first i, well_cut alpha first ps ->
  well_cut alpha (match i with 0 => first | _ => false end) (drop i ps).
Proof.
  induction ps as [|[w b] ps IH]; intros first i H; [by destruct i|]. destruct i as [|i]; [done|].
  destruct H as (_ & _ & _ & _ & H). cbn [drop]. apply (IH false i) in H. by destruct i.
Qed.
Lemma well_cut_take alpha ps : forall first i, well_cut alpha first ps -> well_cut alpha first (take i ps).
Proof.
  induction ps as [|[w b] ps IH]; intros first i H; [by destruct i|]. destruct i as [|i]; [done|].
  destruct H as (Hw & Hb & Hf & Hl & H). cbn [take well_cut]. split; [done|]. split; [done|]. split; [done|].
  split; [|by apply IH]. intros Hne. apply Hl. by destruct ps, i.
Qed.

(** * Code point offsets *)
Lemma convert_spec t : forall u b r, convert_one (bytes2unicodepoints t u) b = Ok r <->
  exists pre post, t = pre ++ post /\ b = byte_len pre /\ r = u + length pre.
Proof.
  unfold convert_one. induction t as [|c t IH]; intros u b r; cbn [bytes2unicodepoints].
  - split.
    + destruct b as [|b]; cbn; [|by destruct b]. intros [= <-]. exists [], []. split; [done|]. split; [done|]. cbn. lia.
    + intros (pre & post & E & -> & ->). symmetry in E. apply app_nil in E as [-> ->]. change (byte_len []) with 0. cbn. f_equal. lia.
  - pose proof (utf8_len_pos c). destruct b as [|b].
    + cbn. split.
      * intros [= <-]. exists [], (c :: t). split; [done|]. split; [done|]. cbn. lia.
      * intros (pre & post & E & Eb & ->). symmetry in Eb. apply byte_len_0 in Eb as ->. cbn. f_equal. lia.
    + cbn [nth_error]. destruct (decide (b < utf8_len c - 1)) as [Lb|Lb].
      * rewrite nth_error_app1 by (rewrite replicate_length; lia). rewrite nth_error_lookup_eq, lookup_replicate_2 by lia.
        cbn. split; [done|]. intros (pre & post & E & Eb & _). destruct pre as [|d pre]; [done|].
        cbn in E. injection E as <- _. rewrite byte_len_cons in Eb. lia.
      * rewrite nth_error_app2 by (rewrite replicate_length; lia). rewrite replicate_length, IH.
        split; intros (pre & post & E & Eb & ->).
        -- exists (c :: pre), post. subst t. split; [done|]. rewrite byte_len_cons. cbn [length]. lia.
        -- destruct pre as [|d pre]; [done|]. cbn in E. injection E as <- ->. rewrite byte_len_cons in Eb.
           exists pre, post. split; [done|]. cbn [length]. lia.
Qed.
Lemma remap_one t m m' :
  (let* b := convert_one (bytes2unicodepoints t 0) (tm_begin m) in
   let* e := convert_one (bytes2unicodepoints t 0) (tm_end m) in Ok (set_offset m b e)) = Ok m' ->
  forall s, at_bytes t (tm_begin m) (tm_end m) s -> at_chars t (tm_begin m') (tm_end m') s /\ m' = set_offset m (tm_begin m') (tm_end m').
Proof.
  destruct (convert_one _ (tm_begin m)) as [b|] eqn:Eb; [|done].
  destruct (convert_one _ (tm_end m)) as [e|] eqn:Ee; [|done]. cbn [rbind]. intros [= <-] s (pre & post & Et & Lb & Le).
  apply convert_spec in Eb as (p1 & q1 & E1 & L1 & ->), Ee as (p2 & q2 & E2 & L2 & ->).
  cbn [tm_begin tm_end set_offset Nat.add]. split; [|done].
  destruct (byte_len_inj pre p1 (s ++ post) q1) as [<- <-]; [congruence|congruence|].
  destruct (byte_len_inj (pre ++ s) p2 post q2) as [<- <-]; [by rewrite <- app_assoc, <- Et|rewrite byte_len_app; lia|].
  unfold at_chars. rewrite Et, !app_length. split; [lia|]. rewrite drop_app_alt by done.
  replace (length pre + length s - length pre) with (length s) by lia. by rewrite take_app.
Qed.
Lemma remap_ok t ms : (forall m, m ∈ ms -> exists s, at_bytes t (tm_begin m) (tm_end m) s) ->
  exists ms', remap_offsets t ms = Ok ms' /\
    Forall2 (fun m m' => (forall s, at_bytes t (tm_begin m) (tm_end m) s -> at_chars t (tm_begin m') (tm_end m') s) /\
                         m' = set_offset m (tm_begin m') (tm_end m')) ms ms'.
Proof.
  unfold remap_offsets. induction ms as [|m ms IH]; intros H; [by exists []; repeat constructor|].
  destruct IH as (ms' & E & F); [intros x Hx; apply H; by right|].
  destruct (H m) as [s Hs]; [left|]. pose proof (fun m' => remap_one t m m') as R.
  cbn [rmapM]. pose proof Hs as (pre & post & Et & Lb & Le).
  assert (convert_one (bytes2unicodepoints t 0) (tm_begin m) = Ok (length pre)) as E1.
  { apply convert_spec. by exists pre, (s ++ post). }
  assert (convert_one (bytes2unicodepoints t 0) (tm_end m) = Ok (length (pre ++ s))) as E2.
  { apply convert_spec. exists (pre ++ s), post. rewrite byte_len_app, <- app_assoc. split; [done|]. split; [lia|done]. }
  rewrite E1, E2 in R |- *. cbn [rbind] in R |- *. rewrite E. cbn [rbind]. eexists. split; [done|].
  constructor; [|done]. split; [|done]. intros s' Hs'. by apply (R _ eq_refl s').
Qed.
Lemma remap_ok_inv t ms ms' : remap_offsets t ms = Ok ms' -> forall m, m ∈ ms ->
  exists p1 q1 p2 q2, t = p1 ++ q1 /\ tm_begin m = byte_len p1 /\ t = p2 ++ q2 /\ tm_end m = byte_len p2.
Proof.
  unfold remap_offsets. revert ms'. induction ms as [|x ms IH]; intros ms' E m Hm; [by inversion Hm|].
  cbn [rmapM] in E. destruct (convert_one _ (tm_begin x)) as [b|] eqn:Eb; [|done].
  destruct (convert_one _ (tm_end x)) as [e|] eqn:Ee; [|done]. cbn [rbind] in E.
  destruct (rmapM _ ms) as [r|] eqn:Er; [|done]. apply elem_of_cons in Hm as [ -> |Hm]; [|by eapply IH].
  apply convert_spec in Eb as (p1 & q1 & E1 & L1 & _), Ee as (p2 & q2 & E2 & L2 & _). by exists p1, q1, p2, q2.
Qed.

(** * Statements of C_Text.v *)
Lemma boundaries_at_bytes pre ps post i m : boundaries_at (byte_len pre) ps !! i = Some m ->
  at_bytes (pre ++ joined ps ++ post) (tm_begin m) (tm_end m) (tm_text m).
Proof.
  rewrite boundaries_at_lookup. intros (w & b & E & ->). cbn [tm_begin tm_end tm_text new_empty].
  exists (pre ++ joined (take i ps) ++ w), (joined (drop (S i) ps) ++ post). split.
  - rewrite <- (take_drop_middle ps i (w, b) E) at 1. rewrite joined_app, joined_cons, <- !app_assoc. done.
  - rewrite !byte_len_app. lia.
Qed.
Lemma boundaries_in_order alpha t bs : find_boundaries alpha t = Ok bs ->
  (forall i m, bs !! i = Some m -> at_bytes t (tm_begin m) (tm_end m) (tm_text m) /\
     Forall (fun c => alpha c = false) (tm_text m) /\ (S i < length bs -> tm_text m <> []) /\
     (S i = length bs -> tm_end m = byte_len t)) /\
  (forall i j m m', i < j -> bs !! i = Some m -> bs !! j = Some m' -> tm_end m < tm_begin m').
Proof.
  destruct (find_boundaries_cut alpha t) as (ps & H & ->). intros [= <-].
  pose proof H as (-> & _ & Hc). split.
  - intros i m E. pose proof (boundaries_at_bytes [] ps [] i m E) as B. rewrite app_nil_r in B. split; [done|].
    pose proof (boundary_between 0 ps i m E) as [_ He].
    rewrite boundaries_at_lookup in E. destruct E as (w & b & E & ->). cbn [tm_text new_empty].
    destruct (Hc i w b E) as (_ & Hb & _ & Hl). rewrite boundaries_at_length. split; [done|]. split; [done|].
    intros L. rewrite He, L. unfold start_of. by rewrite take_ge.
  - intros i j m m' L E E'. pose proof (boundary_between 0 ps i m E) as [_ ->].
    rewrite boundaries_at_lookup in E'. destruct E' as (w & b & E' & ->). cbn [tm_begin new_empty].
    destruct (Hc j w b E') as (_ & _ & Hw & _). assert (w <> []) as Hw0 by (apply Hw; lia).
    pose proof (start_mono 0 ps (S i) j ltac:(lia)) as Lm. unfold start_of in Lm |- *. rewrite byte_len_app.
    assert (byte_len w <> 0) by (intros E0; by apply byte_len_0 in E0). lia.
Qed.
Lemma well_cut_last alpha ps : forall first w b, well_cut alpha first (ps ++ [(w, b)]) -> ps <> [] ->
  forall c, last (joined ps) = Some c -> alpha c = false.
Proof.
  intros first w b H Hne c. destruct (exists_last Hne) as (qs & [w' b'] & ->).
  rewrite joined_app, joined_1.
  pose proof (proj1 (well_cut_lookup alpha _ first) H (length qs) w' b') as (_ & Hb & _ & Hl).
  { rewrite <- app_assoc. cbn. by rewrite lookup_app_r, Nat.sub_diag by lia. }
  rewrite !app_length in Hl. cbn in Hl. destruct (exists_last (Hl ltac:(lia))) as (b0 & d & ->).
  rewrite !app_assoc, last_snoc. intros [= <-]. apply Forall_app in Hb as [_ Hd]. by inversion Hd.
Qed.
Lemma boundaries_maximal alpha t bs i m : find_boundaries alpha t = Ok bs -> bs !! i = Some m ->
  exists pre post, t = pre ++ tm_text m ++ post /\ tm_begin m = byte_len pre /\
    (forall c, last pre = Some c -> alpha c = true) /\ (forall c, head post = Some c -> alpha c = true).
Proof.
  destruct (find_boundaries_cut alpha t) as (ps & H & ->). intros [= <-] E.
  apply segmentation_cut in H as (-> & _ & H).
  rewrite boundaries_at_lookup in E. destruct E as (w & b & E & ->). cbn [tm_begin tm_text new_empty].
  exists (joined (take i ps) ++ w), (joined (drop (S i) ps)). split.
  { rewrite <- (take_drop_middle ps i (w, b) E) at 1. rewrite joined_app, joined_cons, <- !app_assoc. done. }
  split; [done|]. pose proof (proj1 (well_cut_lookup alpha ps true) H i w b E) as (Hw & _ & Hne & _). split.
  - intros c. destruct i as [|i].
    + change (joined (take 0 ps)) with (@nil N). cbn [app]. destruct (decide (w = [])) as [->|Hw0]; [done|]. destruct (exists_last Hw0) as (w0 & d & ->).
      rewrite last_snoc. intros [= <-]. apply Forall_app in Hw as [_ Hd]. by inversion Hd.
    + destruct (exists_last (Hne ltac:(right; lia))) as (w0 & d & ->). rewrite app_assoc, last_snoc. intros [= <-].
      apply Forall_app in Hw as [_ Hd]. by inversion Hd.
  - intros c. apply (well_cut_drop alpha ps true (S i)) in H. by apply well_cut_head.
Qed.
Lemma utf8_len_ascii c : (c < 128)%N <-> utf8_len c = 1.
Proof. unfold utf8_len. destruct (N.ltb_spec c 128); [done|]. split; [intros; lia|]. repeat case_match; done. Qed.
Lemma classify_strength bs :
  length (classify_boundaries bs) = length bs /\
  forall i b, bs !! i = Some b ->
    (S i = length bs -> classify_boundaries bs !! i = Some Hard) /\
    (S i < length bs -> forall c, tm_text b = [c] -> (c < 128)%N ->
       classify_boundaries bs !! i = Some (if bool_decide (c ∈ [39; 45; 95]%N) then Weak else Normal)) /\
    (S i < length bs -> forall c, tm_text b = [c] -> (128 <= c)%N -> classify_boundaries bs !! i = Some Hard) /\
    (S i < length bs -> 2 <= length (tm_text b) -> classify_boundaries bs !! i = Some Hard).
Proof.
  split; [apply classify_length|]. intros i b E. rewrite classify_lookup, E. cbn [fmap option_fmap option_map].
  unfold classify_one. split; [|split; [|split]].
  - intros L. destruct (Nat.eqb_spec i (length bs - 1)); [done|lia].
  - intros L c Ec Hc. destruct (Nat.eqb_spec i (length bs - 1)); [lia|]. rewrite Ec, byte_len_1.
    rewrite (proj1 (utf8_len_ascii c) Hc). cbn [Nat.ltb Nat.leb]. f_equal.
    destruct (decide (c ∈ [39; 45; 95]%N)) as [Hin|Hin].
    + rewrite (bool_decide_eq_true_2 (c ∈ _)) by done. set_unfold in Hin. destruct Hin as [->|[->|[->|[]]]]; done.
    + rewrite (bool_decide_eq_false_2 (c ∈ _)) by done.
      rewrite !bool_decide_eq_false_2; [done| | |]; intros [= ->]; apply Hin; set_solver.
  - intros L c Ec Hc. destruct (Nat.eqb_spec i (length bs - 1)); [done|]. rewrite Ec, byte_len_1.
    pose proof (utf8_len_pos c). pose proof (utf8_len_ascii c). destruct (Nat.ltb_spec 1 (utf8_len c)); [done|]. exfalso.
    assert (utf8_len c = 1) as E1 by lia. apply utf8_len_ascii in E1. lia.
  - intros L L2. destruct (Nat.eqb_spec i (length bs - 1)); [done|].
    destruct (tm_text b) as [|c [|d r]]; [cbn in L2; lia|cbn in L2; lia|]. rewrite !byte_len_cons.
    pose proof (utf8_len_pos c). pose proof (utf8_len_pos d).
    destruct (Nat.ltb_spec 1 (utf8_len c + (utf8_len d + byte_len r))); [done|lia].
Qed.
Lemma filter_map_eq {A B} (f : A -> B) (p : B -> bool) (q : A -> bool) l : (forall x, In x l -> p (f x) = q x) ->
  List.filter p (map f l) = map f (List.filter q l).
Proof.
  intros H. induction l as [|x l IH]; [done|]. cbn. rewrite H by (by left). rewrite IH by (intros y Hy; apply H; by right).
  by destruct (q x).
Qed.
Lemma candidates_spec alpha pre ps post first n last :
  alpha 32%N = false -> well_cut alpha first ps ->
  boundaries_at (byte_len pre) ps !! (length ps - 1) = Some last ->
  find_match_ngrams (pre ++ joined ps ++ post) (boundaries_at (byte_len pre) ps) (S n) (byte_len pre) (Some (tm_begin last))
  = Ok (map (candidate (byte_len pre) ps (S n))
         (List.filter (fun i => negb (bool_decide (stretch (drop i ps) (S n) = []))) (seq 0 (length ps - n)))).
Proof.
  intros Hsp Hc Hl. rewrite find_match_ngrams_spec by done. f_equal. apply filter_map_eq.
  intros i Hi. apply in_seq in Hi. change (tm_text _) with (stretch (drop i ps) (S n)).
  destruct (stretch_words alpha (drop i ps) (match i with 0 => first | _ => false end) n) as [E|(-> & _ & b & ps' & E)].
  - by apply well_cut_drop.
  - done.
  - rewrite drop_length. lia.
  - rewrite E. unfold worth_matching in E. symmetry. by destruct (bool_decide (stretch (drop i ps) (S n) = [])).
  - rewrite E. done.
Qed.
Lemma candidate_at_bytes pre ps post n i : i + n < length ps ->
  at_bytes (pre ++ joined ps ++ post) (tm_begin (candidate (byte_len pre) ps (S n) i))
    (tm_end (candidate (byte_len pre) ps (S n) i)) (tm_text (candidate (byte_len pre) ps (S n) i)).
Proof.
  intros L. destruct (lookup_lt_is_Some_2 ps (i + n) L) as [[w b] E].
  destruct (candidate_ends pre post ps n i w b E) as (m & _ & Em & Es). rewrite <- Em. by apply slice_spec.
Qed.
Lemma candidates_whole alpha t ps n bs last :
  alpha 32%N = false -> segmentation alpha t ps -> (forall c, head t = Some c -> alpha c = true) -> t <> [] ->
  find_boundaries alpha t = Ok bs -> bs !! (length bs - 1) = Some last ->
  find_match_ngrams t bs (S n) 0 (Some (tm_begin last)) = Ok (map (candidate 0 ps (S n)) (seq 0 (length ps - n))).
Proof.
  intros Hsp Hs Hh Hne E Hl. rewrite (find_boundaries_spec alpha t ps Hs) in E. injection E as <-.
  rewrite boundaries_at_length in Hl. apply segmentation_cut in Hs as (-> & Hps & Hc).
  pose proof (candidates_spec alpha [] ps [] true n last Hsp Hc Hl) as C. cbn [app] in C. rewrite app_nil_r in C.
  change (byte_len []) with 0 in C. rewrite C. do 2 f_equal.
  assert (forall l, (forall i, In i l -> negb (bool_decide (stretch (drop i ps) (S n) = [])) = true) ->
    List.filter (fun i => negb (bool_decide (stretch (drop i ps) (S n) = []))) l = l) as Hall.
  { induction l as [|x l IH]; intros H; [done|]. cbn. rewrite H by (by left). f_equal. apply IH. intros i Hi. apply H. by right. }
  apply Hall. intros i Hi. apply in_seq in Hi.
  destruct (stretch_words alpha (drop i ps) (match i with 0 => true | _ => false end) n) as [W|(-> & Hi0 & b & ps' & Ed)].
  - by apply well_cut_drop.
  - done.
  - rewrite drop_length. lia.
  - unfold worth_matching in W. by destruct (bool_decide (stretch (drop i ps) (S n) = [])).
  - exfalso. destruct i; [|done]. rewrite drop_0 in Ed. subst ps. rewrite joined_cons in Hh, Hne. cbn [app] in Hh, Hne.
    destruct Hc as (_ & Hb & _ & Hl' & _). destruct b as [|c b].
    + destruct ps'; [by apply Hne|]. by destruct Hl'.
    + inversion Hb as [|? ? Hc' ?]; subst. specialize (Hh c eq_refl). congruence.
Qed.
Lemma remap_matches t ms : (forall m, m ∈ ms -> at_bytes t (tm_begin m) (tm_end m) (tm_text m)) ->
  exists ms', remap_offsets t ms = Ok ms' /\
    Forall2 (fun m m' => at_chars t (tm_begin m') (tm_end m') (tm_text m) /\
                         m' = set_offset m (tm_begin m') (tm_end m')) ms ms'.
Proof.
  intros H. destruct (remap_ok t ms) as (ms' & E & F); [intros m Hm; eexists; by apply H|]. exists ms'. split; [done|].
  clear E. induction F as [|m m' ms ms' [Ha Hb] F IH]; [constructor|]. constructor.
  - split; [|done]. apply Ha, H. left.
  - apply IH. intros x Hx. apply H. by right.
Qed.

Lemma boundaries_at_app pos ps qs :
  boundaries_at pos (ps ++ qs) = boundaries_at pos ps ++ boundaries_at (pos + byte_len (joined ps)) qs.
Proof.
  revert pos. induction ps as [|[w b] ps IH]; intros pos.
  - cbn. change (byte_len (joined [])) with 0. by rewrite Nat.add_0_r.
  - cbn [app boundaries_at]. rewrite IH, joined_cons, !byte_len_app. do 3 f_equal. lia.
Qed.
Lemma boundaries_part ps a k : a + k <= length ps ->
  take k (drop a (boundaries_at 0 ps)) = boundaries_at (byte_len (joined (take a ps))) (take k (drop a ps)).
Proof.
  intros L. rewrite <- (take_drop a ps) at 1. rewrite boundaries_at_app.
  rewrite drop_app_alt by (rewrite boundaries_at_length, take_length; lia). cbn [Nat.add].
  rewrite <- (take_drop k (drop a ps)) at 1. rewrite boundaries_at_app.
  rewrite take_app_alt by (rewrite boundaries_at_length, take_length, drop_length; lia). done.
Qed.
Lemma part_text ps a k : joined ps = joined (take a ps) ++ joined (take k (drop a ps)) ++ joined (drop k (drop a ps)).
Proof. by rewrite <- !joined_app, !take_drop. Qed.
Lemma candidates_part alpha t ps bs a k last n :
  alpha 32%N = false -> segmentation alpha t ps -> find_boundaries alpha t = Ok bs ->
  0 < k -> a + k <= length ps -> bs !! (a + k - 1) = Some last ->
  find_match_ngrams t (take k (drop a bs)) (S n) (byte_len (joined (take a ps))) (Some (tm_begin last))
  = Ok (map (candidate (byte_len (joined (take a ps))) (take k (drop a ps)) (S n))
         (List.filter (fun i => negb (bool_decide (stretch (drop i (take k (drop a ps))) (S n) = []))) (seq 0 (k - n)))).
Proof.
  intros Hsp Hs E Hk L Hl. rewrite (find_boundaries_spec alpha t ps Hs) in E. injection E as <-.
  apply segmentation_cut in Hs as (-> & _ & Hc). rewrite boundaries_part by done.
  assert (length (take k (drop a ps)) = k) as Hlen by (rewrite take_length, drop_length; lia).
  rewrite (part_text ps a k) at 1.
  rewrite (candidates_spec alpha _ _ _ (match a with 0 => true | _ => false end)); [by rewrite Hlen|done| |].
  - by apply well_cut_take, well_cut_drop.
  - rewrite <- boundaries_part by done. rewrite Hlen, lookup_take, lookup_drop by lia. rewrite <- Hl. f_equal. lia.
Qed.
