(** Properties C01-C05: hashing and normalising. *)
From Verif Require Import M_Base M_Anahash S_Anahash P_Primes P_Anahash.
From stdpp Require Import options.

(** a small alphabet: "a"/"A", "b", "ch", "c", "h" *)
Definition exA : alphabet := [[[97]; [65]]; [[98]]; [[99; 104]]; [[99]]; [[104]]]%N.
Example exA_ok : alphabet_ok exA.
Proof.
  split; [cbn; lia|]. intros line e Hl He ->. revert Hl He. unfold exA.
  rewrite !elem_of_cons, elem_of_nil. intros H.
  repeat (destruct H as [->|H]); try done; rewrite ?elem_of_cons, ?elem_of_nil; intros H; by destruct_or?.
Qed.

(** every text has exactly one reading *)
Theorem C01_reading_total_unique A t :
  alphabet_ok A -> exists ks, reads A t ks /\ forall ks', reads A t ks' -> ks' = ks.
Proof. exact (reads_total_unique A t). Qed.
Print Assumptions C01_reading_total_unique.

Theorem C01_hash_identifies_anagrams A t1 t2 k1 k2 :
  alphabet_ok A -> reads A t1 k1 -> reads A t2 k2 ->
  exists h1 h2, anahash A t1 = Ok h1 /\ anahash A t2 = Ok h2 /\ (h1 = h2 <-> k1 ≡ₚ k2).
Proof. exact (hash_eq_iff A t1 t2 k1 k2). Qed.
Print Assumptions C01_hash_identifies_anagrams.

(** "chAb" and "bcha" are anagrams, "chab" and "chbb" are not; "?" is unknown *)
Example C01_ex :
  anahash exA [99; 104; 65; 98]%N = Ok 30%N /\ anahash exA [98; 99; 104; 97]%N = Ok 30%N /\
  anahash exA [99; 104; 98; 98]%N = Ok 45%N /\ anahash exA [63; 104]%N = Ok 143%N.
Proof. vm_compute. done. Qed.

Theorem C02_bag_operations a b :
  Forall (fun k => k < 168) a -> Forall (fun k => k < 168) b ->
  exists ha hb, bag_hash a = Ok ha /\ bag_hash b = Ok hb /\
    (ana_contains ha hb = true <-> b ⊆+ a) /\
    (forall r, ana_delete ha hb = Some r <-> exists c, a ≡ₚ b ++ c /\ bag_hash c = Ok r) /\
    bag_hash (a ++ b) = Ok (ana_insert ha hb) /\
    ana_delete (ana_insert ha hb) hb = Some ha.
Proof. exact (bag_ops a b). Qed.
Print Assumptions C02_bag_operations.

Theorem C02_insert_comm_assoc a b c :
  (0 < a)%N -> (0 < b)%N -> (0 < c)%N ->
  ana_insert a b = ana_insert b a /\
  ana_insert (ana_insert a b) c = ana_insert a (ana_insert b c).
Proof. exact (insert_comm_assoc a b c). Qed.
Print Assumptions C02_insert_comm_assoc.

Example C02_ex :
  bag_hash [0; 3; 3; 7] = Ok 1862%N /\ bag_hash [3; 7] = Ok 133%N /\
  ana_delete 1862 133 = Some 14%N /\ bag_hash [0; 3] = Ok 14%N /\ ana_delete 1862 343 = None.
Proof. vm_compute. done. Qed.

Theorem C03_normal_form_and_hash_agree A t :
  alphabet_ok A ->
  exists n h, normalize_to_alphabet A t = Ok n /\ anahash A t = Ok h /\
    bag_hash (map (unk_to_hash_index A) n) = Ok h.
Proof. exact (norm_hash_agree A t). Qed.
Print Assumptions C03_normal_form_and_hash_agree.

Theorem C03_same_hash_iff_same_normal_bag A t1 t2 n1 n2 h1 h2 :
  alphabet_ok A ->
  normalize_to_alphabet A t1 = Ok n1 -> normalize_to_alphabet A t2 = Ok n2 ->
  anahash A t1 = Ok h1 -> anahash A t2 = Ok h2 ->
  (h1 = h2 <-> n1 ≡ₚ n2).
Proof. exact (norm_perm_iff_hash A t1 t2 n1 n2 h1 h2). Qed.
Print Assumptions C03_same_hash_iff_same_normal_bag.

Example C03_ex :
  normalize_to_alphabet exA [99; 104; 65; 63]%N = Ok [2; 0; 6] /\
  anahash exA [99; 104; 65; 63]%N = Ok 130%N /\
  bag_hash (map (unk_to_hash_index exA) [2; 0; 6]) = Ok 130%N.
Proof. vm_compute. done. Qed.

Theorem C04_hashing_total A t :
  alphabet_ok A -> (exists h, anahash A t = Ok h) /\ (exists n, normalize_to_alphabet A t = Ok n).
Proof. exact (hash_total A t). Qed.
Print Assumptions C04_hashing_total.

(** beyond 167 lines: an unknown character makes hashing fail ... *)
Theorem C04_larger_alphabet_unknown_fails A c t :
  168 <= length A <= 255 -> no_entry A (c :: t) -> anahash A (c :: t) = Panic IndexOutOfBounds.
Proof. exact (hash_unknown_panics A c t). Qed.
Print Assumptions C04_larger_alphabet_unknown_fails.

(** ... and so does a character on a line beyond the prime table *)
Theorem C04_larger_alphabet_entry_fails A t i e :
  168 <= i <= 255 -> t <> [] -> first_entry A t i e -> anahash A t = Panic IndexOutOfBounds.
Proof. exact (hash_entry_panics A t i e). Qed.
Print Assumptions C04_larger_alphabet_entry_fails.

(** 168 one-character lines: the last listed character still hashes, an unlisted one fails *)
Example C04_ex :
  let A := map (fun k => [[N.of_nat k]]) (seq 1000 168) in
  anahash A [1167%N] = Ok 997%N /\ anahash A [97%N] = Panic IndexOutOfBounds.
Proof. vm_compute. done. Qed.

Theorem C05_alphabet_lines_are_classes A s c d t :
  alphabet_ok A -> single_chars A -> indistinct A c d ->
  anahash A (s ++ c :: t) = anahash A (s ++ d :: t) /\
  normalize_to_alphabet A (s ++ c :: t) = normalize_to_alphabet A (s ++ d :: t).
Proof. exact (indistinct_same A s c d t). Qed.
Print Assumptions C05_alphabet_lines_are_classes.

Example C05_ex :
  let A := [[[97]; [65]]; [[98]]]%N in
  single_chars A /\ indistinct A 97 65 /\ indistinct A 63 64 /\
  anahash A [98; 97; 63]%N = Ok 30%N /\ anahash A [98; 65; 64]%N = Ok 30%N.
Proof.
  split_and!.
  - intros line e. rewrite !elem_of_cons, elem_of_nil. intros H.
    destruct_or? H; subst; rewrite ?elem_of_cons, ?elem_of_nil; intros He; destruct_or? He; subst; eauto.
  - left. exists 0. split; (split; [exists [[97]; [65]]%N; split; [done|]; rewrite !elem_of_cons; auto|lia]).
  - right. split; intros line; rewrite !elem_of_cons, elem_of_nil; intros H He;
      destruct_or? H; subst; rewrite ?elem_of_cons, ?elem_of_nil in He; destruct_or? He; done.
  - vm_compute. done.
  - vm_compute. done.
Qed.
