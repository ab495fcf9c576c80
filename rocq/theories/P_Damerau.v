(** The edit-distance function never fails, whatever the lengths, and finds
    nothing to edit between equal strings. *)
From Coq Require Import Lia.
From stdpp Require Import gmap.
From Verif Require Import M_Base M_Anahash M_Iter M_Distance S_Distance P_Base P_Align P_Distance.
From stdpp Require Import options.

Section total.
  Context (s t : list nat).
  #[local] Set Default Proof Using "Type*".
  Local Notation n := (length s).
  Local Notation k := (length t).

  (** where both strings are the same, the diagonal is zero *)
  Definition diag (i j : nat) (m : matrix) : Prop :=
    s = t -> forall x, x <= n -> (x <= i \/ (x = i + 1 /\ x <= j)) -> cell m (x + 1) (x + 1) = Some 0.
  Definition tinv (i j : nat) (m : matrix) : Prop := dims m (n + 2) (k + 2) /\ diag i j m.

  Lemma dl_cell_total cm i a m db j b :
    s !! i = Some a -> t !! j = Some b -> (forall c, default 0 (cm !! c) <= i) -> db <= j -> tinv i j m ->
    exists st', dl_cell cm (i + 1) a (m, db) (j, b) = Ok st' /\ tinv i (S j) (st'.1) /\ st'.2 <= S j.
  Proof.
    intros Ha Hb Hcm Hdb [Hd Hg]. unfold dl_cell.
    pose proof (lookup_lt_Some _ _ _ Ha) as Hi. pose proof (lookup_lt_Some _ _ _ Hb) as Hj.
    specialize (Hcm b). set (last := default 0 (cm !! b)) in *. clearbody last.
    destruct (Hd (i + 1 + 1) (j + 1)) as [d1 C1]; [lia..|]. destruct (Hd (i + 1) (j + 1 + 1)) as [d2 C2]; [lia..|].
    destruct (Hd (i + 1) (j + 1)) as [d3 C3]; [lia..|]. destruct (Hd last db) as [d4 C4]; [lia..|].
    rewrite (mget_ok _ _ _ _ C1). cbn [rbind]. rewrite (mget_ok _ _ _ _ C2). cbn [rbind].
    rewrite (mget_ok _ _ _ _ C3). cbn [rbind]. rewrite (mget_ok _ _ _ _ C4). cbn [rbind].
    rewrite (usub_ok (i + 1) last) by lia. cbn [rbind]. rewrite (usub_ok (i + 1 - last) 1) by lia. cbn [rbind].
    rewrite (usub_ok (j + 1) db) by lia. cbn [rbind]. rewrite (usub_ok (j + 1 - db) 1) by lia. cbn [rbind].
    set (val := min4 _ _ _ _).
    destruct (mset_dims m (i + 1 + 1) (j + 1 + 1) val _ _ Hd ltac:(lia) ltac:(lia)) as (m' & -> & D' & C').
    cbn [rbind]. eexists. split; [reflexivity|]. cbn [fst snd]. split.
    - split; [done|]. intros Hst x Hx Hr. rewrite C'. destruct (decide (x + 1 = i + 1 + 1 /\ x + 1 = j + 1 + 1)) as [[E1 E2]|Hne].
      + f_equal. unfold val, min4. assert (j = i) as -> by lia. assert (b = a) as -> by congruence.
        rewrite Nat.eqb_refl. assert (d3 = 0) as -> by (pose proof (Hg Hst i ltac:(lia) ltac:(lia)); congruence).
        lia.
      + apply Hg; [done|done|]. lia.
    - destruct (if (a =? b)%nat then 0 else 1) as [|[]]; cbn; lia.
  Qed.

  Lemma dl_row_total m cm i a :
    s !! i = Some a -> tinv i 0 m -> (forall c, default 0 (cm !! c) <= i) ->
    exists st', dl_row t (m, cm) (i, a) = Ok st' /\ tinv (S i) 0 (st'.1) /\ (forall c, default 0 (st'.2 !! c) <= S i).
  Proof.
    intros Ha HI Hcm. unfold dl_row. pose proof (lookup_lt_Some _ _ _ Ha) as Hi.
    destruct (rfoldl_enum (fun j (st : matrix * nat) => tinv i j (st.1) /\ st.2 <= j)
      (dl_cell cm (i + 1) a) t (m, 0)) as ([m' db'] & E & [HD HG] & _).
    - split; [done|cbn; lia].
    - intros j b [m1 db1] Hb [H1 H2]. by apply dl_cell_total.
    - rewrite E. cbn [rbind fst]. eexists. split; [reflexivity|]. cbn [fst snd]. split; [split; [done|]|].
      + intros Hst x Hx Hr. apply HG; [done|done|]. assert (length s = length t) by congruence. cbn [fst] in *. lia.
      + intros c. destruct (decide (a = c)) as [->|Hne].
        * rewrite lookup_insert. cbn. unfold as_u8. pose proof (Nat.mod_le (i + 1) 256 ltac:(lia)). lia.
        * rewrite lookup_insert_ne by done. specialize (Hcm c). lia.
  Qed.

  Lemma dl_matrix_total :
    exists m d, (let* mat := dl_init n k in rfoldl (dl_row t) (mat, ∅) (enumerate s)) = Ok m /\
      mget (m.1) (n + 1) (k + 1) = Ok d /\ (s = t -> d = 0).
  Proof.
    destruct (dl_init_ok n k) as (m0 & E0 & D0 & R0 & C0 & X0 & Y0). rewrite E0. cbn [rbind].
    destruct (rfoldl_enum (fun i (st : matrix * gmap nat nat) =>
      tinv i 0 (st.1) /\ (forall c, default 0 (st.2 !! c) <= i)) (dl_row t) s (m0, ∅)) as ([m cm] & E & [HD HG] & _).
    - split.
      + split; [done|]. intros Hst x Hx Hr. assert (x = 0) as -> by lia. by apply X0.
      + intros c. cbn [snd]. rewrite lookup_empty. cbn. lia.
    - intros i a [m cm] Ha [H1 H2]. by apply dl_row_total.
    - destruct (HD (n + 1) (k + 1)) as [d Hd]; [lia..|]. exists (m, cm), d. split; [done|]. split; [by apply mget_ok|].
      intros Hst. specialize (HG Hst n ltac:(lia) ltac:(lia)). cbn [fst] in *. assert (length s = length t) as El by congruence. rewrite <- El in Hd. congruence.
  Qed.
End total.

Lemma damerau_total s t max : exists r, damerau_levenshtein s t max = Ok r.
Proof.
  unfold damerau_levenshtein. destruct (_ =? 0)%nat; [by eexists|]. destruct (_ && _); [by eexists|].
  destruct (_ =? 0)%nat; [by eexists|]. destruct (_ && _); [by eexists|].
  destruct (dl_matrix_total s t) as (m & d & E & Eg & _).
  destruct (dl_init (length s) (length t)) as [m0|]; [|done]. cbn [rbind] in *. rewrite E. cbn [rbind]. rewrite Eg. by eexists.
Qed.

Lemma damerau_refl s max : damerau_levenshtein s s max = Ok (Some 0).
Proof.
  unfold damerau_levenshtein. destruct (Nat.eqb_spec (length s) 0) as [->|N0].
  { destruct (Nat.ltb_spec max 0); [lia|done]. }
  destruct (Nat.ltb_spec (length s) (length s)); [lia|]. cbn [andb].
  destruct (dl_matrix_total s s) as (m & d & E & Eg & Hd).
  destruct (dl_init (length s) (length s)) as [m0|]; [|done]. cbn [rbind] in *. rewrite E. cbn [rbind]. rewrite Eg.
  cbn [rbind]. rewrite Hd by done. destruct (Nat.ltb_spec max 0); [lia|]. done.
Qed.

(** ** Renaming characters *)
Section rename.
  Context (g : nat -> nat) (Hg : forall x, g (g x) = x).
  #[local] Set Default Proof Using "Type*".
  Lemma map_back l : map g (map g l) = l.
  Proof. rewrite map_map. rewrite <- (map_id l) at 2. apply map_ext. exact Hg. Qed.
  Lemma edit1_map sw s t : edit1 sw s t -> edit1 sw (map g s) (map g t).
  Proof. intros []; rewrite !map_app; cbn; by constructor. Qed.
  Lemma edits_map sw n s t : edits sw n s t -> edits sw n (map g s) (map g t).
  Proof. induction 1; [constructor|]. econstructor; [done|]. by apply edit1_map. Qed.
  Lemma min_edits_map sw s t d : min_edits sw s t d -> min_edits sw (map g s) (map g t) d.
  Proof.
    intros [H1 H2]. split; [by apply edits_map|]. intros n Hn. apply H2.
    apply edits_map in Hn. by rewrite !map_back in Hn.
  Qed.
  Lemma min_edits_map_iff sw s t d : min_edits sw (map g s) (map g t) d <-> min_edits sw s t d.
  Proof.
    split; [|apply min_edits_map]. intros H%min_edits_map. by rewrite !map_back in H.
  Qed.
  Lemma substring_map w s : substring w s -> substring (map g w) (map g s).
  Proof. intros (p & q & ->). exists (map g p), (map g q). by rewrite !map_app. Qed.
  Lemma prefix_map w s : w `prefix_of` s -> map g w `prefix_of` map g s.
  Proof. intros (p & ->). exists (map g p). by rewrite !map_app. Qed.
  Lemma suffix_map w s : w `suffix_of` s -> map g w `suffix_of` map g s.
  Proof. intros (p & ->). exists (map g p). by rewrite !map_app. Qed.
End rename.
