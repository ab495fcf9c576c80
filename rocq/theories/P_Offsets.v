(** Proofs about the offsets of matches as a Python program uses them. *)
From Coq Require String Ascii.
From Coq Require Import Lia.
From Verif Require Import M_Base M_Utf8 M_Float M_Types M_Model M_Search M_Text M_Values M_Matches M_Cli M_Python.
From Verif Require Import S_Text S_Matches S_Cli S_Offsets P_Base.
From Verif Require Import P_Utf8.
From Verif Require P_Text P_Matches P_Objects.
Import String.StringSyntax Ascii.AsciiSyntax.
From stdpp Require Import options.
#[local] Arguments lit s%string_scope.

(** * Dictionaries *)
Lemma item_det d k v v' : item d k v -> item d k v' -> v' = v.
Proof.
  intros (l & b & a & -> & -> & F) (l' & b' & a' & [= <-] & E & F'). revert b' E. induction b as [|y b IH]; intros [|y' b'] E; cbn [app] in E.
  - by injection E as -> _.
  - injection E as <- E. rewrite E in F. apply Forall_app in F as [_ F]. inversion F. by destruct H1.
  - injection E as -> E. rewrite <- E in F'. apply Forall_app in F' as [_ F']. inversion F'. by destruct H1.
  - injection E as _ E. by apply (IH b').
Qed.
Lemma item_at l1 k v l2 : Forall (fun x => x.1 <> k) l2 -> item (PyDict (l1 ++ (k, v) :: l2)) k v.
Proof. intros F. by exists (l1 ++ (k, v) :: l2), l1, l2. Qed.
Lemma located_det x s b e s' b' e' : located x s b e -> located x s' b' e' -> s' = s /\ b' = b /\ e' = e.
Proof.
  intros (H1 & o & H2 & H3 & H4) (G1 & o' & G2 & G3 & G4). pose proof (item_det _ _ _ _ H1 G1) as [= ->]. pose proof (item_det _ _ _ _ H2 G2) as ->.
  pose proof (item_det _ _ _ _ H3 G3) as [= ->]. by pose proof (item_det _ _ _ _ H4 G4) as [= ->].
Qed.
Lemma match_located m fw x d : match_dict m fw x = Ok d -> located d (tm_text x) (Z.of_nat (tm_begin x)) (Z.of_nat (tm_end x)).
Proof.
  unfold match_dict. intros H. apply rbind_ok in H as (ts & Et & H). apply rbind_ok in H as (vs & _ & [= <-]).
  assert (Forall (fun kv : str * pyval => kv.1 = name "tag" \/ kv.1 = name "seqnr") ts) as F.
  { destruct (tm_tag x); [injection Et as <-; constructor|]. cbv zeta in Et. apply rbind_ok in Et as (ns & _ & [= <-]). constructor; [by left|]. constructor; [by right|]. constructor. }
  assert (forall k, k <> name "tag" -> k <> name "seqnr" -> k <> name "variants" -> Forall (fun y : str * pyval => y.1 <> k) (ts ++ [(lit "variants", PyList vs)])) as G.
  { intros k K1 K2 K3. apply Forall_app. split; [|constructor; [by intros <-|constructor]]. eapply Forall_impl; [exact F|]. intros y [E|E] <-; congruence. }
  split.
  - apply (item_at []). constructor; [done|]. by apply G.
  - exists (PyDict [(name "begin", PyInt (Z.of_nat (tm_begin x))); (name "end", PyInt (Z.of_nat (tm_end x)))]). split; [|split].
    + apply (item_at [(lit "input", PyStr (tm_text x))]). by apply G.
    + apply (item_at []). by constructor.
    + apply (item_at [(name "begin", PyInt (Z.of_nat (tm_begin x)))]). constructor.
Qed.

(** * Slices *)
Lemma slice_nat {A} (x : list A) b e : b <= e <= length x -> py_slice x (Z.of_nat b) (Z.of_nat e) = take (e - b) (drop b x).
Proof.
  intros H. unfold py_slice, position. destruct (Z.ltb_spec (Z.of_nat b) 0), (Z.ltb_spec (Z.of_nat e) 0); try lia. rewrite !Nat2Z.id, !Nat.min_l by lia. done.
Qed.
Section located.
  Context (enc : str -> list N) (Henc : forall s, s <> [] -> enc s <> []) (t : str).
  Definition placed (x : tmatch) : Prop := tm_begin x <= tm_end x <= length (enc t) /\ take (tm_end x - tm_begin x) (drop (tm_begin x) (enc t)) = enc (tm_text x) /\ tm_text x <> [].
  Lemma placed_lt x : placed x -> tm_begin x < tm_end x.
  Proof using Henc.
    intros (H1 & H2 & H3). destruct (decide (tm_begin x < tm_end x)); [done|]. replace (tm_end x - tm_begin x) with 0 in H2 by lia. by destruct (Henc _ H3).
  Qed.
  Lemma sliced_of m fw ms ds : Forall placed ms -> Forall2 (fun x d => match_dict m fw x = Ok d) ms ds -> sliced enc t ds.
  Proof using Henc.
    intros F H. induction H as [|x d ms ds Hd _ IH]; [constructor|]. inversion F as [|? ? Hx F']; subst. constructor; [|by apply IH].
    exists (tm_text x), (Z.of_nat (tm_begin x)), (Z.of_nat (tm_end x)). pose proof (placed_lt _ Hx). destruct Hx as (H1 & H2 & H3). split; [by eapply match_located|].
    split; [done|]. split; [lia|]. split; [lia|]. by rewrite slice_nat.
  Qed.
  Lemma rebuilt_of m fw ms ds : Forall placed ms -> one_after_other ms -> Forall2 (fun x d => match_dict m fw x = Ok d) ms ds ->
    forall b, b <= length (enc t) -> (forall x, ms !! 0 = Some x -> b <= tm_begin x) -> rebuilt enc t (Z.of_nat b) ds (drop b (enc t)).
  Proof using Henc.
    intros F O H. induction H as [|x d ms ds Hd _ IH]; intros b Hb Hx.
    - replace (drop b (enc t)) with (py_slice (enc t) (Z.of_nat b) (Z.of_nat (length (enc t)))); [constructor|]. rewrite slice_nat by lia. apply take_ge. rewrite drop_length. lia.
    - inversion F as [|? ? Hp F']; subst. pose proof (Hx x eq_refl) as Hx'. destruct (Hp) as (H1 & H2 & H3).
      assert (drop b (enc t) = py_slice (enc t) (Z.of_nat b) (Z.of_nat (tm_begin x)) ++ enc (tm_text x) ++ drop (tm_end x) (enc t)) as ->.
      { rewrite slice_nat by lia. rewrite <- H2. replace (drop (tm_end x) (enc t)) with (drop (tm_end x - tm_begin x) (drop (tm_begin x) (enc t))) by (rewrite drop_drop; f_equal; lia).
        rewrite take_drop. replace (drop (tm_begin x) (enc t)) with (drop (tm_begin x - b) (drop b (enc t))) by (rewrite drop_drop; f_equal; lia). by rewrite take_drop. }
      econstructor; [by eapply match_located|lia|]. apply IH; [done| |lia|].
      + intros i j y z Hij Hi Hj. apply (O (S i) (S j)); [lia|done|done].
      + intros y Hy. pose proof (O 0 1 x y ltac:(lia) eq_refl Hy). lia.
  Qed.
End located.

(** * Characters and bytes *)
Definition encoding (p : search_parameters) : str -> list N := if p_unicodeoffsets p then fun s => s else bytes.
Lemma encoding_nonempty p s : s <> [] -> encoding p s <> [].
Proof.
  unfold encoding. destruct (p_unicodeoffsets p); [done|]. destruct s as [|c s]; [done|]. intros _ E. unfold bytes in E. cbn in E.
  apply app_eq_nil in E as [E _]. unfold utf8 in E. by repeat case_match.
Qed.
Lemma bytes_ascii t : Forall (fun c => (c < 128)%N) t -> bytes t = t.
Proof.
  intros F. unfold bytes. induction F as [|c t H _ IH]; [done|]. cbn. rewrite IH. unfold utf8. by rewrite (proj2 (N.ltb_lt _ _) H).
Qed.
Lemma ascii_bytes s : Forall (fun c => (c < 128)%N) (bytes s) -> Forall (fun c => (c < 128)%N) s.
Proof.
  induction s as [|c s IH]; [constructor|]. unfold bytes. cbn. rewrite Forall_app. intros [H1 H2]. constructor; [|by apply IH].
  unfold utf8 in H1. destruct (N.ltb_spec c 128); [done|]. exfalso. repeat case_match; inversion H1 as [|? ? K _]; lia.
Qed.
Lemma located_ascii t s b e : Forall (fun c => (c < 128)%N) t -> py_slice (bytes t) b e = bytes s -> bytes s = s.
Proof. intros F E. apply bytes_ascii, ascii_bytes. rewrite <- E, (bytes_ascii _ F). unfold py_slice. by apply Forall_take, Forall_drop. Qed.
Lemma sliced_ascii t ds : Forall (fun c => (c < 128)%N) t -> sliced bytes t ds -> sliced (fun s => s) t ds.
Proof.
  intros F S. eapply Forall_impl; [exact S|]. cbv beta. intros x (s & b & e & G1 & G2 & G3 & G4 & G5). exists s, b, e. pose proof (located_ascii t s b e F G5) as Es.
  rewrite (bytes_ascii _ F) in G4, G5. rewrite Es in G5. done.
Qed.
Lemma rebuilt_ascii t ds b u : Forall (fun c => (c < 128)%N) t -> sliced bytes t ds -> rebuilt bytes t b ds u -> rebuilt (fun s => s) t b ds u.
Proof.
  intros F S R. pose proof (bytes_ascii _ F) as Et. induction R as [b|b x xs s b' e' rest L Hb R IH].
  - pose proof (rebuilt_end (fun s => s) t b) as K. cbv beta in K. by rewrite Et.
  - inversion S as [|? ? Hx S']; subst. destruct Hx as (s1 & b1 & e1 & L1 & _ & _ & _ & G). destruct (located_det _ _ _ _ _ _ _ L L1) as (-> & -> & ->).
    rewrite (located_ascii _ _ _ _ F G), Et. apply (rebuilt_match (fun s => s) t b x xs s b' e' rest); [done|done|by apply IH].
Qed.
Section matches.
  Context (ln32 : f32 -> f32) (ln : f64 -> f64) (ws alpha : N -> bool) (solve : fst_graph -> nat -> list (list nat * f32)).
  Context (lookup : str -> res (list variant_result)) (m : model) (p : search_parameters) (fw : f32) (t : str) (d : pyval).
  Context (Ha : alpha 32%N = false) (Hs : solver_sound solve).
  Context (E : py_find_all_matches m fw (fun t => find_all_matches ln32 ln ws solve alpha lookup m t p) t = Ok d).
  Lemma match_offsets : exists ds, d = PyList ds /\ sliced (encoding p) t ds /\ rebuilt (encoding p) t 0 ds (encoding p t).
  Proof using Ha Hs E.
    unfold py_find_all_matches in E. apply rbind_ok in E as (ms & Em & E'). apply rbind_ok in E' as (ds & Ed & [= <-]). exists ds. split; [done|].
    assert (Forall2 (fun x d => match_dict m fw x = Ok d) ms ds) as F2 by (by apply (P_Objects.rmapM_iff (match_dict m fw) (fun x d => match_dict m fw x = Ok d))).
    assert (Forall (placed (encoding p) t) ms /\ one_after_other ms) as [F O].
    { unfold placed, encoding. destruct (p_unicodeoffsets p) eqn:Eu.
      - destruct (P_Matches.matches_in_place_chars _ _ _ _ _ _ _ _ _ _ Ha Hs Eu Em) as [H O]. split; [|done]. apply Forall_forall. intros x Hx. destruct (H x Hx) as [[H1 H2] H3]. done.
      - destruct (P_Matches.matches_in_place _ _ _ _ _ _ _ _ _ _ Ha Hs Eu Em) as [H O]. split; [|done]. apply Forall_forall. intros x Hx. destruct (H x Hx) as [H1 H2].
        split; [rewrite bytes_length; by eapply P_Text.at_bytes_range|]. split; [by apply P_Text.at_bytes_bytes|done]. }
    split; [eapply sliced_of; [apply encoding_nonempty|done|exact F2]|].
    apply (rebuilt_of (encoding p) (encoding_nonempty p) t m fw ms ds F O F2 0); [lia|intros; lia].
  Qed.
  Lemma character_offsets : p_unicodeoffsets p = true \/ Forall (fun c => (c < 128)%N) t ->
    exists ds, d = PyList ds /\ sliced (fun s => s) t ds /\ rebuilt (fun s => s) t 0 ds t.
  Proof using Ha Hs E.
    intros H. destruct match_offsets as (ds & -> & S & R). exists ds. split; [done|]. unfold encoding in *. destruct (p_unicodeoffsets p); [done|].
    destruct H as [[=]|H]. pose proof (bytes_ascii _ H) as Et. split.
    - by apply sliced_ascii.
    - apply rebuilt_ascii; [done|done|]. by rewrite Et in R.
  Qed.
  Lemma byte_offsets : p_unicodeoffsets p = false -> exists ds, d = PyList ds /\ sliced bytes t ds /\ rebuilt bytes t 0 ds (bytes t).
  Proof using Ha Hs E. intros H. destruct match_offsets as (ds & S). exists ds. unfold encoding in S. by rewrite H in S. Qed.
End matches.
