(** Comparing texts by characters and by bytes is the same. *)
From Coq Require Import Lia ZifyN.
From Verif Require Import M_Base M_Utf8 M_Anahash M_Confusable P_Anahash.
From stdpp Require Import options.
Ltac Zify.zify_post_hook ::= Z.to_euclidean_division_equations.

Lemma utf8_length c : length (utf8 c) = utf8_len c.
Proof. unfold utf8, utf8_len. by repeat case_match. Qed.
Lemma bytes_length s : length (bytes s) = byte_len s.
Proof.
  unfold bytes, byte_len. induction s as [|c s IH]; [done|]. cbn. by rewrite app_length, utf8_length, IH.
Qed.
Lemma utf8_len_pos c : 1 <= utf8_len c <= 4.
Proof. unfold utf8_len. repeat case_match; lia. Qed.
Lemma bytes_app s t : bytes (s ++ t) = bytes s ++ bytes t.
Proof. unfold bytes. by rewrite map_app, concat_app. Qed.

Lemma utf8_split c c' r r' : scalar c -> scalar c' -> utf8 c ++ r = utf8 c' ++ r' -> c = c' /\ r = r'.
Proof.
  unfold scalar, utf8. intros Hc Hc'.
  destruct (N.ltb_spec c 128), (N.ltb_spec c' 128); cbn; [intros [= -> ->]; done| | |].
  1, 2: repeat case_match; cbn; intros [=]; exfalso; lia.
  destruct (N.ltb_spec c 2048), (N.ltb_spec c' 2048); cbn; [intros [= ? ? ->]; split; [lia|done]| | |].
  1, 2: repeat case_match; cbn; intros [=]; exfalso; lia.
  destruct (N.ltb_spec c 65536), (N.ltb_spec c' 65536); cbn; [intros [= ? ? ? ->]; split; [lia|done]| | |].
  1, 2: intros [=]; exfalso; lia.
  intros [= ? ? ? ? ->]; split; [lia|done].
Qed.
Lemma utf8_nonempty c : utf8 c <> [].
Proof. unfold utf8. by repeat case_match. Qed.

Lemma bytes_prefix s : forall t, Forall scalar s -> Forall scalar t -> (bytes s `prefix_of` bytes t <-> s `prefix_of` t).
Proof.
  induction s as [|c s IH]; intros t Hs Ht.
  - split; intros; apply prefix_nil.
  - inversion Hs as [|? ? Hc Hs']; subst. split.
    + intros [r E]. destruct t as [|c' t].
      { exfalso. apply (f_equal length) in E. rewrite app_length in E. cbn in E. rewrite app_length in E.
        pose proof (utf8_len_pos c). rewrite utf8_length in E. cbn in E. lia. }
      inversion Ht as [|? ? Hc' Ht']; subst. change (bytes (c' :: t)) with (utf8 c' ++ bytes t) in E.
      change (bytes (c :: s)) with (utf8 c ++ bytes s) in E. rewrite <- app_assoc in E.
      apply utf8_split in E as [-> E]; [|done|done]. apply prefix_cons, IH; [done|done|]. by exists r.
    + intros [r ->]. rewrite bytes_app. by apply prefix_app_r.
Qed.
Lemma bytes_inj s t : Forall scalar s -> Forall scalar t -> bytes s = bytes t -> s = t.
Proof.
  intros Hs Ht E. assert (s `prefix_of` t) as [r ->] by (apply bytes_prefix; [done|done|rewrite E; done]).
  destruct r as [|c r]; [by rewrite app_nil_r|]. exfalso. rewrite bytes_app in E. apply (f_equal length) in E.
  rewrite app_length in E. cbn in E. rewrite app_length, utf8_length in E. pose proof (utf8_len_pos c). lia.
Qed.
(** continuation bytes are recognisable, so endings of bytes are endings of characters *)
Definition starts (b : N) : Prop := (b < 128)%N \/ (192 <= b)%N.
Lemma utf8_shape c : scalar c -> exists b l, utf8 c = b :: l /\ starts b /\ Forall (fun x => ~ starts x) l.
Proof.
  unfold scalar, utf8, starts. intros Hc.
  destruct (N.ltb_spec c 128); [eexists _, _; split; [done|]; split; [lia|constructor]|].
  destruct (N.ltb_spec c 2048); [|destruct (N.ltb_spec c 65536)].
  all: eexists _, _; split; [done|]; split; [right; lia|]; repeat constructor; lia.
Qed.
Lemma drop_at_start s : Forall scalar s -> forall n, (exists b r, drop n (bytes s) = b :: r /\ starts b) \/ drop n (bytes s) = [] ->
  exists k, drop n (bytes s) = bytes (drop k s).
Proof.
  induction s as [|c s IH]; intros Hs n H; [exists 0; change (drop n [] = @nil N); apply drop_nil|].
  inversion Hs as [|? ? Hc Hs']; subst. change (bytes (c :: s)) with (utf8 c ++ bytes s) in *.
  destruct n as [|n]; [by exists 0|]. destruct (decide (utf8_len c <= S n)) as [Hn|Hn].
  - rewrite <- utf8_length in Hn. rewrite drop_app_ge in * by done. destruct (IH Hs' _ H) as [k E]. exists (S k). exact E.
  - exfalso. destruct (utf8_shape c Hc) as (b & l & E & _ & Hl). rewrite <- utf8_length in Hn. rewrite E in Hn, H. cbn in Hn, H.
    rewrite drop_app_le in H by lia.
    destruct (drop n l) as [|x r] eqn:Ed.
    { apply (f_equal length) in Ed. rewrite drop_length in Ed. cbn in Ed. lia. }
    destruct H as [(b' & r' & H & Hb)|H]; [|done]. cbn in H. injection H as <- _.
    rewrite Forall_forall in Hl. apply (Hl x); [|done]. apply elem_of_list_lookup. exists n.
    rewrite <- (Nat.add_0_r n), <- lookup_drop, Ed. done.
Qed.
Lemma bytes_suffix s t : Forall scalar s -> Forall scalar t -> (bytes s `suffix_of` bytes t <-> s `suffix_of` t).
Proof.
  intros Hs Ht. split; [|intros [r ->]; rewrite bytes_app; by apply suffix_app_r].
  intros [r E]. assert (drop (length r) (bytes t) = bytes s) as Ed by (rewrite E; by rewrite drop_app_alt).
  destruct (drop_at_start t Ht (length r)) as [k Ek].
  - rewrite Ed. destruct s as [|c s]; [by right|]. left. inversion Hs as [|? ? Hc Hs']; subst.
    destruct (utf8_shape c Hc) as (b & l & Eb & Hb & _). exists b, (l ++ bytes s). split; [|done].
    change (bytes (c :: s)) with (utf8 c ++ bytes s). by rewrite Eb.
  - rewrite Ed in Ek. apply bytes_inj in Ek as ->; [|done|by apply Forall_drop]. exists (take k t). by rewrite take_drop.
Qed.
Lemma is_suffix_spec s t : is_suffix s t = true <-> s `suffix_of` t.
Proof.
  unfold is_suffix. rewrite is_prefix_spec. split.
  - intros [r E]. exists (reverse r). apply (f_equal reverse) in E. by rewrite reverse_app, !reverse_involutive in E.
  - intros [r ->]. rewrite reverse_app. by apply prefix_app_r.
Qed.
Lemma bytes_starts_with s t : Forall scalar s -> Forall scalar t -> (is_prefix s t = true <-> bytes s `prefix_of` bytes t).
Proof. intros Hs Ht. rewrite bytes_prefix by done. apply is_prefix_spec. Qed.
Lemma bytes_ends_with s t : Forall scalar s -> Forall scalar t -> (is_suffix s t = true <-> bytes s `suffix_of` bytes t).
Proof. intros Hs Ht. rewrite bytes_suffix by done. apply is_suffix_spec. Qed.
