(** The dynamic programs of distance.rs compute the minimal number of edits. *)
From Coq Require Import Lia.
From stdpp Require Import gmap.
From Verif Require Import M_Base M_Anahash M_Iter M_Distance S_Distance P_Base P_Align.
From stdpp Require Import options.
#[local] Set Default Proof Using "Type*".

(** ** Reversed prefixes *)
Lemma rev_take_S {A} (l : list A) i a :
  l !! i = Some a -> reverse (take (S i) l) = a :: reverse (take i l).
Proof. intros H. rewrite (take_S_r _ _ a) by done. by rewrite reverse_app. Qed.

(** [last_occ l a k r]: [r] is one plus the last position below [k] where [l]
    has [a], zero if there is none. *)
Definition last_occ (l : list nat) (a k r : nat) : Prop :=
  (r = 0 /\ forall x, x < k -> l !! x <> Some a) \/
  (1 <= r <= k /\ l !! (r - 1) = Some a /\ forall x, r <= x < k -> l !! x <> Some a).

Lemma last_occ_S l a k r b :
  last_occ l a k r -> l !! k = Some b -> last_occ l a (S k) (if decide (b = a) then S k else r).
Proof.
  intros H Hb. destruct (decide (b = a)) as [->|Hn].
  - right. split_and!; [lia|lia|by replace (S k - 1) with k by lia|lia].
  - destruct H as [[-> H]|(H1 & H2 & H3)].
    + left. split; [done|]. intros x Hx. destruct (decide (x = k)) as [->|]; [congruence|apply H; lia].
    + right. split_and!; [lia|lia|done|]. intros x Hx.
      destruct (decide (x = k)) as [->|]; [congruence|apply H3; lia].
Qed.

Lemma last_occ_rev l a k r :
  last_occ l a k r -> k <= length l ->
  (r = 0 /\ a ∉ reverse (take k l)) \/
  (1 <= r <= k /\ exists u, reverse (take k l) = u ++ a :: reverse (take (r - 1) l) /\ a ∉ u /\ length u = k - r).
Proof.
  intros H Hk. destruct H as [[-> H]|(H1 & H2 & H3)].
  - left. split; [done|]. intros Hin. rewrite elem_of_reverse in Hin; apply elem_of_list_lookup in Hin as [x Hx].
    apply lookup_take_Some in Hx as [Hx Hlt]. by apply (H x).
  - right. split; [done|]. destruct r as [|r]; [lia|]. replace (S r - 1) with r in * by lia.
    revert Hk H1 H3. induction k as [|k IH]; intros Hk Hr Hno; [lia|].
    destruct (decide (k = r)) as [->|Hne].
    + exists []. rewrite (rev_take_S _ _ a) by done. split_and!; [done|apply not_elem_of_nil|cbn; lia].
    + destruct IH as (u & E & Hu & Hl); [lia|lia|intros x Hx; apply Hno; lia|].
      destruct (lookup_lt_is_Some_2 l k ltac:(lia)) as [b Hb].
      exists (b :: u). rewrite (rev_take_S _ _ b) by done. rewrite E. split_and!; [done| |cbn; lia].
      apply not_elem_of_cons. split; [|done]. intros ->. apply (Hno k); [lia|done].
Qed.

(** ** The matrix *)
Definition cell (m : matrix) (i j : nat) : option nat := m !! i ≫= (fun r => r !! j).

Lemma mget_ok m i j v : cell m i j = Some v -> mget m i j = Ok v.
Proof.
  unfold cell, mget. intros H. apply bind_Some in H as (r & Hr & Hv).
  rewrite (rindex_ok _ _ _ Hr). cbn. by apply rindex_ok.
Qed.

Lemma mset_ok m i j v w :
  cell m i j = Some w ->
  exists m', mset m i j v = Ok m' /\
    forall i' j', cell m' i' j' = if decide (i' = i /\ j' = j) then Some v else cell m i' j'.
Proof.
  unfold cell. intros H. apply bind_Some in H as (r & Hr & Hv).
  exists (<[i := <[j := v]> r]> m). split.
  - unfold mset. rewrite (rindex_ok _ _ _ Hr). cbn.
    rewrite rset_ok by (by eapply lookup_lt_Some). cbn. rewrite rset_ok by (by eapply lookup_lt_Some). done.
  - intros i' j'. destruct (decide (i' = i)) as [->|Hi].
    + rewrite list_lookup_insert by (by eapply lookup_lt_Some). rewrite Hr. cbn.
      destruct (decide (j' = j)) as [->|Hj].
      * rewrite list_lookup_insert by (by eapply lookup_lt_Some). rewrite decide_True by done. done.
      * rewrite list_lookup_insert_ne by done. rewrite decide_False by tauto. done.
    + rewrite list_lookup_insert_ne by done. rewrite decide_False by tauto. done.
Qed.

Definition dims (m : matrix) (n k : nat) : Prop :=
  forall i j, i < n -> j < k -> is_Some (cell m i j).

Lemma mset_dims m i j v n k :
  dims m n k -> i < n -> j < k ->
  exists m', mset m i j v = Ok m' /\ dims m' n k /\
    forall i' j', cell m' i' j' = if decide (i' = i /\ j' = j) then Some v else cell m i' j'.
Proof.
  intros Hd Hi Hj. destruct (Hd i j Hi Hj) as [w Hw].
  destruct (mset_ok m i j v w Hw) as (m' & E & Hc). exists m'. split_and!; [done| |done].
  intros i' j' Hi' Hj'. rewrite Hc. case_decide; [done|by apply Hd].
Qed.

Lemma dl_init_ok n k :
  exists m, dl_init n k = Ok m /\ dims m (n + 2) (k + 2) /\
    (forall j, j < k + 2 -> cell m 0 j = Some (k + n)) /\
    (forall i, i < n + 2 -> cell m i 0 = Some (k + n)) /\
    (forall i, i <= n -> cell m (i + 1) 1 = Some i) /\
    (forall j, j <= k -> cell m 1 (j + 1) = Some j).
Proof.
  unfold dl_init.
  assert (H0 : dims (replicate (n + 2) (replicate (k + 2) 0)) (n + 2) (k + 2)).
  { intros i j Hi Hj. unfold cell. rewrite lookup_replicate_2 by done. cbn.
    rewrite lookup_replicate_2 by done. done. }
  destruct (mset_dims _ 0 0 (k + n) _ _ H0 ltac:(lia) ltac:(lia)) as (m1 & -> & D1 & C1).
  cbn [rbind].
  destruct (rfoldl_seq
    (fun x m => dims m (n + 2) (k + 2) /\ cell m 0 0 = Some (k + n) /\
       forall i, i < x -> cell m (i + 1) 0 = Some (k + n) /\ cell m (i + 1) 1 = Some i)
    (fun mat i => let* mat := mset mat (i + 1) 0 (k + n) in mset mat (i + 1) 1 i) 0 (n + 1) m1) as (m2 & E2 & D2 & Z2 & C2).
  - split_and!; [done| |lia]. rewrite C1. rewrite decide_True by done. done.
  - intros i m Hi (D & Z & C).
    destruct (mset_dims m (i + 1) 0 (k + n) _ _ D ltac:(lia) ltac:(lia)) as (m' & -> & D' & C').
    cbn. destruct (mset_dims m' (i + 1) 1 i _ _ D' ltac:(lia) ltac:(lia)) as (m'' & -> & D'' & C'').
    exists m''. split_and!; [done|done| |].
    + rewrite C'', C'. rewrite !decide_False by lia. done.
    + intros x Hx. rewrite !C'', !C'. destruct (decide (x = i)) as [->|Hn].
      * split; repeat case_decide; try lia; done.
      * rewrite !decide_False by lia. apply C. lia.
  - rewrite E2. cbn [rbind].
    destruct (rfoldl_seq
      (fun x m => dims m (n + 2) (k + 2) /\ cell m 0 0 = Some (k + n) /\
         (forall i, i <= n -> cell m (i + 1) 0 = Some (k + n) /\ cell m (i + 1) 1 = Some i) /\
         forall j, j < x -> cell m 0 (j + 1) = Some (k + n) /\ cell m 1 (j + 1) = Some j)
      (fun mat i => let* mat := mset mat 0 (i + 1) (k + n) in mset mat 1 (i + 1) i) 0 (k + 1) m2) as (m3 & E3 & D3 & Z3 & C3 & R3).
    + split_and!; [done|done| |lia]. intros i Hi. apply C2. lia.
    + intros j m Hj (D & Z & C & R).
      destruct (mset_dims m 0 (j + 1) (k + n) _ _ D ltac:(lia) ltac:(lia)) as (m' & -> & D' & C').
      cbn. destruct (mset_dims m' 1 (j + 1) j _ _ D' ltac:(lia) ltac:(lia)) as (m'' & -> & D'' & C'').
      exists m''. split_and!; [done|done| | |].
      * rewrite C'', C'. rewrite !decide_False by lia. done.
      * intros i Hi. rewrite !C'', !C'. rewrite (decide_False (P := i + 1 = 1 /\ 0 = j + 1)) by lia.
        rewrite (decide_False (P := i + 1 = 0 /\ _)) by lia. split; [by apply C|].
        destruct (decide (i + 1 = 1 /\ 1 = j + 1)) as [[H1 H2]|H].
        -- f_equal. lia.
        -- rewrite decide_False by lia. by apply C.
      * intros x Hx. rewrite !C'', !C'. destruct (decide (x = j)) as [->|Hn].
        -- rewrite (decide_False (P := 0 = 1 /\ _)) by lia. rewrite decide_True by lia.
           rewrite decide_True by lia. done.
        -- rewrite !decide_False by lia. apply R. lia.
    + exists m3. split_and!; [done|done| | | |].
      * intros [|j] Hj; [done|]. replace (S j) with (j + 1) by lia. apply R3. lia.
      * intros [|i] Hi; [done|]. replace (S i) with (i + 1) by lia. apply C3. lia.
      * intros i Hi. by apply C3.
      * intros j Hj. apply R3. lia.
Qed.

(** ** Damerau-Levenshtein *)
Section damerau.
  Context (s t : list nat).
  Local Notation n := (length s).
  Local Notation k := (length t).

  Definition dist_at (sw : bool) (x y d : nat) : Prop :=
    aldist sw (reverse (take x s)) (reverse (take y t)) d.

  Lemma dist_at_bound sw x y d : dist_at sw x y d -> x <= n -> y <= k -> d <= x + y.
  Proof.
    intros H Hx Hy. apply aldist_le_max in H. rewrite !reverse_length, !take_length in H. lia.
  Qed.
  Lemma dist_at_0_l sw y : y <= k -> dist_at sw 0 y y.
  Proof.
    intros Hy. unfold dist_at. rewrite take_0, reverse_nil.
    pose proof (aldist_nil_l sw (reverse (take y t))) as H. rewrite reverse_length, take_length in H.
    replace (y `min` k) with y in H by lia. done.
  Qed.
  Lemma dist_at_0_r sw x : x <= n -> dist_at sw x 0 x.
  Proof.
    intros Hx. unfold dist_at. rewrite take_0, reverse_nil.
    pose proof (aldist_nil_r sw (reverse (take x s))) as H. rewrite reverse_length, take_length in H.
    replace (x `min` n) with x in H by lia. done.
  Qed.

  Definition good (m : matrix) (x y : nat) : Prop :=
    exists d, cell m (x + 1) (y + 1) = Some d /\ dist_at true x y d.

  (** the matrix while cell [(i, j)] (zero-based) is about to be computed *)
  Record minv (i j : nat) (m : matrix) : Prop := {
    mi_dims : dims m (n + 2) (k + 2);
    mi_row0 : forall y, y < k + 2 -> cell m 0 y = Some (k + n);
    mi_col0 : forall x, x < n + 2 -> cell m x 0 = Some (k + n);
    mi_good : forall x y, x <= n -> y <= k ->
      (x <= i \/ y = 0 \/ (x = i + 1 /\ y <= j)) -> good m x y;
  }.

  Lemma neq_cost_eqb a b : (if (a =? b)%nat then 0 else 1) = neq_cost a b.
  Proof.
    unfold neq_cost. destruct (Nat.eqb_spec a b); [by rewrite decide_True|by rewrite decide_False].
  Qed.

  Lemma dl_cell_ok cm i a m db j b :
    s !! i = Some a -> t !! j = Some b ->
    (forall c, last_occ s c i (default 0 (cm !! c))) ->
    minv i j m /\ last_occ t a j db ->
    exists st', dl_cell cm (i + 1) a (m, db) (j, b) = Ok st' /\
      minv i (S j) (st'.1) /\ last_occ t a (S j) (st'.2).
  Proof.
    intros Ha Hb Hcm [HI Hdb]. unfold dl_cell.
    pose proof (lookup_lt_Some _ _ _ Ha) as Hi. pose proof (lookup_lt_Some _ _ _ Hb) as Hj.
    destruct (mi_good _ _ _ HI (i + 1) j ltac:(lia) ltac:(lia) ltac:(lia)) as (d1 & C1 & A1).
    destruct (mi_good _ _ _ HI i (j + 1) ltac:(lia) ltac:(lia) ltac:(lia)) as (d2 & C2 & A2).
    destruct (mi_good _ _ _ HI i j ltac:(lia) ltac:(lia) ltac:(lia)) as (d3 & C3 & A3).
    specialize (Hcm b). set (last := default 0 (cm !! b)) in *. clearbody last.
    rewrite (mget_ok _ _ _ _ C1). cbn [rbind].
    rewrite (mget_ok _ _ _ _ C2). cbn [rbind].
    rewrite (mget_ok _ _ _ _ C3). cbn [rbind].
    pose proof (last_occ_rev _ _ _ _ Hcm ltac:(lia)) as Hls.
    pose proof (last_occ_rev _ _ _ _ Hdb ltac:(lia)) as Hdbs.
    assert (Hlast : last <= i) by (destruct Hls as [[-> _]|[? _]]; lia).
    assert (Hdbj : db <= j) by (destruct Hdbs as [[-> _]|[? _]]; lia).
    assert (Es : reverse (take (i + 1) s) = a :: reverse (take i s)).
    { rewrite Nat.add_1_r. by apply rev_take_S. }
    assert (Et : reverse (take (j + 1) t) = b :: reverse (take j t)).
    { rewrite Nat.add_1_r. by apply rev_take_S. }
    assert (Hval : exists d4, cell m last db = Some d4 /\
      dist_at true (i + 1) (j + 1)
        (min4 (d1 + 1) (d2 + 1) (d3 + neq_cost a b) (d4 + (i + 1 - last - 1) + 1 + (j + 1 - db - 1)))).
    { pose proof (dist_at_bound _ _ _ _ A1 ltac:(lia) ltac:(lia)) as B1.
      unfold min4. unfold dist_at in *. rewrite Es, Et in *.
      assert (Hno : (b ∉ reverse (take i s) \/ a ∉ reverse (take j t)) -> cell m last db = Some (k + n) ->
        exists d4, cell m last db = Some d4 /\ aldist true (a :: reverse (take i s)) (b :: reverse (take j t))
          (Nat.min (Nat.min (Nat.min (d1 + 1) (d2 + 1)) (d3 + neq_cost a b)) (d4 + (i + 1 - last - 1) + 1 + (j + 1 - db - 1)))).
      { intros Hn Hc. exists (k + n). split; [done|].
        pose proof (aldist_step_notr true a _ b _ d1 d2 d3 A1 A2 A3 ltac:(tauto)) as H.
        rewrite Nat.min_l; [done|]. lia. }
      destruct Hls as [[-> Hb0]|(Hl1 & u & Eu & Hbu & Hlu)].
      { apply Hno; [auto|]. apply (mi_row0 _ _ _ HI). lia. }
      destruct Hdbs as [[-> Ha0]|(Hd1 & v & Ev & Hav & Hlv)].
      { apply Hno; [auto|]. apply (mi_col0 _ _ _ HI). lia. }
      destruct (mi_good _ _ _ HI (last - 1) (db - 1) ltac:(lia) ltac:(lia) ltac:(lia)) as (d4 & C4 & A4).
      replace (last - 1 + 1) with last in C4 by lia. replace (db - 1 + 1) with db in C4 by lia.
      exists d4. split; [done|]. unfold dist_at in A4.
      rewrite Eu, Ev in *.
      replace (i + 1 - last - 1) with (length u) by lia. replace (j + 1 - db - 1) with (length v) by lia.
      apply aldist_step_tr; done. }
    destruct Hval as (d4 & C4 & A4).
    rewrite (mget_ok _ _ _ _ C4). cbn [rbind].
    rewrite (usub_ok (i + 1) last) by lia. cbn [rbind].
    rewrite (usub_ok (i + 1 - last) 1) by lia. cbn [rbind].
    rewrite (usub_ok (j + 1) db) by lia. cbn [rbind].
    rewrite (usub_ok (j + 1 - db) 1) by lia. cbn [rbind].
    rewrite neq_cost_eqb.
    set (val := min4 _ _ _ _) in *.
    destruct (mset_dims m (i + 1 + 1) (j + 1 + 1) val _ _ (mi_dims _ _ _ HI) ltac:(lia) ltac:(lia)) as (m' & -> & D' & C').
    cbn [rbind]. eexists. split; [reflexivity|]. cbn [fst snd]. split.
    - constructor.
      + done.
      + intros y Hy. rewrite C'. rewrite decide_False by lia. by apply (mi_row0 _ _ _ HI).
      + intros x Hx. rewrite C'. rewrite decide_False by lia. by apply (mi_col0 _ _ _ HI).
      + intros x y Hx Hy Hr. unfold good. destruct (decide (x = i + 1 /\ y = j + 1)) as [[-> ->]|Hne].
        * exists val. rewrite C'. rewrite decide_True by done. done.
        * destruct (mi_good _ _ _ HI x y Hx Hy) as (d & C & Ad); [lia|].
          exists d. rewrite C'. rewrite decide_False by lia. done.
    - pose proof (last_occ_S _ _ _ _ b Hdb Hb) as H. unfold neq_cost.
      destruct (decide (a = b)) as [->|Hab].
      + rewrite decide_True in H by done. cbn. by rewrite Nat.add_1_r.
      + rewrite decide_False in H by congruence. cbn. done.
  Qed.

  Lemma dl_row_ok m cm i a :
    s !! i = Some a -> n <= 255 ->
    minv i 0 m -> (forall c, last_occ s c i (default 0 (cm !! c))) ->
    exists st', dl_row t (m, cm) (i, a) = Ok st' /\
      minv (S i) 0 (st'.1) /\ (forall c, last_occ s c (S i) (default 0 (st'.2 !! c))).
  Proof.
    intros Ha Hn HI Hcm. unfold dl_row.
    destruct (rfoldl_enum (fun j (st : matrix * nat) => minv i j (st.1) /\ last_occ t a j (st.2))
      (dl_cell cm (i + 1) a) t (m, 0)) as ([m' db'] & E & HI' & _).
    - split; [done|]. left. split; [done|]. lia.
    - intros j b [m1 db1] Hb [H1 H2]. apply dl_cell_ok; done.
    - rewrite E. cbn [rbind fst]. eexists. split; [reflexivity|]. cbn [fst snd]. split.
      + destruct HI' as [D R C G]. constructor; try done.
        intros x y Hx Hy Hr. apply G; [done|done|]. lia.
      + pose proof (lookup_lt_Some _ _ _ Ha) as Hi. intros c.
        pose proof (last_occ_S _ _ _ _ a (Hcm c) Ha) as H.
        destruct (decide (a = c)) as [->|Hne].
        * rewrite lookup_insert. cbn. unfold as_u8. rewrite Nat.mod_small by lia. by rewrite Nat.add_1_r.
        * rewrite lookup_insert_ne by done. done.
  Qed.

  Lemma dl_matrix_ok :
    n <= 255 ->
    exists m d, (let* mat := dl_init n k in rfoldl (dl_row t) (mat, ∅) (enumerate s)) = Ok m /\
      mget (m.1) (n + 1) (k + 1) = Ok d /\ min_edits true s t d.
  Proof.
    intros Hn. destruct (dl_init_ok n k) as (m0 & E0 & D0 & R0 & C0 & X0 & Y0).
    rewrite E0. cbn [rbind].
    destruct (rfoldl_enum (fun i (st : matrix * gmap nat nat) =>
      minv i 0 (st.1) /\ (forall c, last_occ s c i (default 0 (st.2 !! c))))
      (dl_row t) s (m0, ∅)) as ([m cm] & E & HI & _).
    - split.
      + constructor; try done. intros x y Hx Hy Hr. unfold good.
        destruct (decide (y = 0)) as [->|Hy0].
        * exists x. split; [by apply X0|by apply dist_at_0_r].
        * assert (x = 0) as -> by lia. exists y. split; [by apply Y0|by apply dist_at_0_l].
      + intros c. cbn [snd]. rewrite lookup_empty. left. cbn. split; [done|lia].
    - intros i a [m cm] Ha [H1 H2]. apply dl_row_ok; done.
    - destruct (mi_good _ _ _ HI n k ltac:(lia) ltac:(lia) ltac:(lia)) as (d & C & A).
      exists (m, cm), d. split_and!; [done|by apply mget_ok|].
      unfold dist_at in A. rewrite !firstn_all in A. apply min_edits_rev, aldist_min_edits, A.
  Qed.
End damerau.

(** what a bounded distance function has to return *)
Lemma min_edits_len sw (s t : list nat) d :
  min_edits sw s t d -> length s - length t <= d /\ length t - length s <= d /\ d <= Nat.max (length s) (length t).
Proof.
  intros H. apply aldist_min_edits in H. pose proof (aldist_le_max _ _ _ _ H). destruct H as [H _].
  apply al_lower in H. lia.
Qed.

Lemma damerau_spec s t max :
  length s <= 255 -> max <= 255 ->
  exists d, min_edits true s t d /\
    damerau_levenshtein s t max = Ok (if (d <=? max)%nat then Some d else None).
Proof.
  intros Hs Hm. destruct (dl_matrix_ok s t Hs) as (m & d & E & Eg & Hd).
  exists d. split; [done|]. pose proof (min_edits_len _ _ _ _ Hd) as (L1 & L2 & U).
  unfold damerau_levenshtein.
  assert (Hu8 : forall x, x <= 255 -> as_u8 x = x) by (intros x Hx; apply Nat.mod_small; lia).
  destruct (Nat.eqb_spec (length s) 0) as [E0|N0].
  { assert (d = length t) as -> by lia. 
    destruct (Nat.ltb_spec max (length t)), (Nat.leb_spec (length t) max); try lia; rewrite ?Hu8 by lia; done. }
  destruct ((length t <? length s)%nat && (max <? length s - length t)%nat) eqn:B1.
  { apply andb_true_iff in B1 as [B1 B2]. apply Nat.ltb_lt in B1, B2.
    destruct (Nat.leb_spec d max); [lia|done]. }
  destruct (Nat.eqb_spec (length t) 0) as [E1|N1].
  { assert (d = length s) as -> by lia. 
    destruct (Nat.ltb_spec max (length s)), (Nat.leb_spec (length s) max); try lia; rewrite ?Hu8 by lia; done. }
  destruct ((length s <? length t)%nat && (max <? length t - length s)%nat) eqn:B2.
  { apply andb_true_iff in B2 as [B2 B3]. apply Nat.ltb_lt in B2, B3.
    destruct (Nat.leb_spec d max); [lia|done]. }
  destruct (dl_init (length s) (length t)) as [m0|]; [|done]. cbn [rbind] in *.
  rewrite E. cbn [rbind]. rewrite Eg. cbn [rbind].
  
  destruct (Nat.ltb_spec max d), (Nat.leb_spec d max); try lia; rewrite ?Hu8 by lia; done.
Qed.

(** ** Levenshtein *)
Section levenshtein.
  Context (a b : list nat).
  Local Notation n := (length a).
  Local Notation k := (length b).
  Local Notation D := (dist_at a b false).

  (** cache while row [j], column [i] is about to be computed *)
  Definition cache_ok (i j : nat) (cache : list nat) : Prop :=
    length cache = n /\
    (forall x, x < i -> exists d, cache !! x = Some d /\ D (x + 1) (j + 1) d) /\
    (forall x, i <= x < n -> exists d, cache !! x = Some d /\ D (x + 1) j d).

  Lemma lev_cell_ok cache da r i j ea eb :
    a !! i = Some ea -> b !! j = Some eb ->
    cache_ok i j cache -> D i j da -> (i = 0 /\ r = j \/ 0 < i /\ D i (j + 1) r) ->
    exists cache' da' r', lev_cell eb (cache, da, r) (i, ea) = Ok (cache', da', r') /\
      cache_ok (S i) j cache' /\ D (S i) j da' /\ D (S i) (j + 1) r'.
  Proof.
    intros Ha Hb (Hl & H1 & H2) Hda Hr.
    pose proof (lookup_lt_Some _ _ _ Ha) as Hi. pose proof (lookup_lt_Some _ _ _ Hb) as Hj.
    destruct (H2 i ltac:(lia)) as (da' & Hc & Hda').
    set (r' := Nat.min (Nat.min (da' + 1) ((if (i =? 0)%nat then j + 1 else r) + 1)) (da + neq_cost ea eb)).
    assert (Hr' : D (S i) (j + 1) r').
    { unfold dist_at in *. rewrite Nat.add_1_r in *.
      rewrite (rev_take_S a i ea) in * by done. rewrite (rev_take_S b j eb) in * by done.
      unfold r'. apply aldist_step_notr; [done| |done|auto].
      destruct (Nat.eqb_spec i 0) as [->|Hi0].
      - rewrite take_0, reverse_nil. rewrite <- (rev_take_S b j eb) by done.
        pose proof (aldist_nil_l false (reverse (take (S j) b))) as H.
        rewrite reverse_length, take_length in H. rewrite Nat.add_1_r. replace (S j `min` k) with (S j) in H by lia. done.
      - destruct Hr as [[? _]|[_ Hr]]; [lia|done]. }
    exists (<[i := r']> cache), da', r'. split_and!.
    - unfold lev_cell. rewrite (rindex_ok _ _ _ Hc). cbn [rbind].
      rewrite rset_ok by lia. cbn [rbind].
      assert (Eb : (if (ea =? eb)%nat then da else S da) = da + neq_cost ea eb).
      { unfold neq_cost. destruct (Nat.eqb_spec ea eb); [rewrite decide_True by done|rewrite decide_False by done]; lia. }
      rewrite Eb. pose proof (neq_cost_le ea eb) as Hnc.
      assert (Er : (if (r <? da')%nat then if (r <? da + neq_cost ea eb)%nat then S r else da + neq_cost ea eb
               else if (da' <? da + neq_cost ea eb)%nat then S da' else da + neq_cost ea eb) = r').
      { unfold r'. destruct (Nat.eqb_spec i 0) as [->|Hi0].
        - destruct Hr as [[_ ->]|[? _]]; [|lia].
          assert (da = j) as ->.
          { assert (Hj0 : D 0 j j) by (apply dist_at_0_l; lia). destruct Hda as [A1 A2], Hj0 as [A3 A4].
            specialize (A2 _ A3). specialize (A4 _ A1). lia. }
          destruct (Nat.ltb_spec j da'), (Nat.ltb_spec j (j + neq_cost ea eb)), (Nat.ltb_spec da' (j + neq_cost ea eb)); lia.
        - destruct (Nat.ltb_spec r da'), (Nat.ltb_spec r (da + neq_cost ea eb)), (Nat.ltb_spec da' (da + neq_cost ea eb)); lia. }
      rewrite Er. done.
    - unfold cache_ok. split_and!; [rewrite insert_length; done| |].
      + intros x Hx. destruct (decide (x = i)) as [->|Hne].
        * exists r'. rewrite list_lookup_insert by lia. rewrite (Nat.add_1_r i). done.
        * rewrite list_lookup_insert_ne by done. apply H1. lia.
      + intros x Hx. rewrite list_lookup_insert_ne by lia. apply H2. lia.
    - rewrite Nat.add_1_r in Hda'. done.
    - done.
  Qed.

  Lemma lev_row_ok cache r j eb :
    b !! j = Some eb -> 0 < n -> cache_ok 0 j cache ->
    exists cache' r', lev_row a (cache, r) (j, eb) = Ok (cache', r') /\
      cache_ok 0 (S j) cache' /\ D n (S j) r'.
  Proof.
    intros Hb Hn Hc. unfold lev_row. pose proof (lookup_lt_Some _ _ _ Hb) as Hj.
    destruct (rfoldl_enum (fun i (st : list nat * nat * nat) =>
        cache_ok i j (st.1.1) /\ D i j (st.1.2) /\ (i = 0 /\ st.2 = j \/ 0 < i /\ D i (j + 1) (st.2)))
      (lev_cell eb) a (cache, j, j)) as ([[c' d'] r'] & E & (Hl & H1 & H2) & Hd & Hr).
    - cbn. split_and!; [apply Hc|apply dist_at_0_l; lia|auto].
    - intros i ea [[c1 d1] r1] Ha (Q1 & Q2 & Q3). cbn in *.
      destruct (lev_cell_ok c1 d1 r1 i j ea eb Ha Hb Q1 Q2 Q3) as (c2 & d2 & r2 & E & W1 & W2 & W3).
      eexists. split; [exact E|]. cbn. split_and!; [apply W1|done|right; split; [lia|done]].
    - rewrite E. cbn in *. exists c', r'. split_and!; [done| |].
      + unfold cache_ok. split_and!; [done|lia|]. intros x Hx. rewrite Nat.add_1_r in H1. apply H1. lia.
      + destruct Hr as [[? _]|[_ Hr]]; [lia|]. by rewrite Nat.add_1_r in Hr.
  Qed.

  Lemma lev_loop_ok :
    0 < n -> 0 < k ->
    exists st, rfoldl (lev_row a) (seq 1 n, 0) (enumerate b) = Ok st /\ min_edits false a b (st.2).
  Proof.
    intros Hn Hk.
    destruct (rfoldl_enum (fun j (st : list nat * nat) => cache_ok 0 j (st.1) /\ (0 < j -> D n j (st.2)))
      (lev_row a) b (seq 1 n, 0)) as ([c r] & E & _ & Hr).
    - cbn. split; [|lia]. unfold cache_ok. split_and!; [apply seq_length|lia|]. intros x Hx. exists (x + 1).
      split; [|apply dist_at_0_r; lia]. apply lookup_seq. lia.
    - intros j eb [c1 r1] Hb [Q1 Q2]. cbn in *.
      destruct (lev_row_ok c1 r1 j eb Hb Hn Q1) as (c2 & r2 & E & W1 & W2).
      eexists. split; [exact E|]. cbn. auto.
    - exists (c, r). split; [done|]. cbn in *. specialize (Hr Hk). unfold dist_at in Hr.
      rewrite !firstn_all in Hr. apply min_edits_rev, aldist_min_edits, Hr.
  Qed.
End levenshtein.

Lemma levenshtein_spec a b max :
  max <= 255 ->
  exists d, min_edits false a b d /\
    levenshtein a b max = Ok (if (d <=? max)%nat then Some d else None).
Proof.
  intros Hm.
  assert (Hu8 : forall x, x <= 255 -> as_u8 x = x) by (intros x Hx; apply Nat.mod_small; lia).
  unfold levenshtein. destruct (decide (a = b)) as [->|Hab].
  { exists 0. split; [|done]. split; [constructor|lia]. }
  destruct (Nat.eqb_spec (length a) 0) as [E0|N0].
  { apply nil_length_inv in E0. subst a. exists (length b). split; [apply aldist_min_edits, aldist_nil_l|].
     destruct (Nat.ltb_spec max (length b)), (Nat.leb_spec (length b) max); try lia; rewrite ?Hu8 by lia; done. }
  destruct (Nat.eqb_spec (length b) 0) as [E1|N1].
  { apply nil_length_inv in E1. subst b. exists (length a). split; [apply aldist_min_edits, aldist_nil_r|].
    cbn [length].  rewrite Nat.sub_0_r.
    destruct (Nat.ltb_spec 0 (length a)); [|lia]. rewrite andb_true_l.
    destruct (Nat.ltb_spec max (length a)), (Nat.leb_spec (length a) max); try lia; rewrite ?Hu8 by lia; done. }
  destruct (lev_loop_ok a b ltac:(lia) ltac:(lia)) as (st & E & Hd).
  exists (st.2). split; [done|]. pose proof (min_edits_len _ _ _ _ Hd) as (L1 & L2 & U).
  destruct ((length b <? length a)%nat && (max <? length a - length b)%nat) eqn:B1.
  { apply andb_true_iff in B1 as [B1 B2]. apply Nat.ltb_lt in B1, B2.
    destruct (Nat.leb_spec (st.2) max); [lia|done]. }
  destruct ((length a <? length b)%nat && (max <? length b - length a)%nat) eqn:B2.
  { apply andb_true_iff in B2 as [B2 B3]. apply Nat.ltb_lt in B2, B3.
    destruct (Nat.leb_spec (st.2) max); [lia|done]. }
  rewrite E. cbn [rbind]. 
  destruct (Nat.ltb_spec max (st.2)), (Nat.leb_spec (st.2) max); try lia; rewrite ?Hu8 by lia; done.
Qed.
