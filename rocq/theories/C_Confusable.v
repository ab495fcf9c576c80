(** Properties C40, C41, C60 (confusables) and C61 (characters and bytes). *)
From Verif Require Import M_Base M_Utf8 M_Anahash M_Iter M_Distance M_Float M_Types M_Model M_Confusable M_ConfList M_Search.
From Verif Require Import S_Model S_Search S_Confusable P_Utf8 P_Score P_Confusable C_Anahash C_Model.
From stdpp Require Import options.

(** ** C40 *)
Theorem C40_found_occurs c script : found_in c script = true -> exists i, occurs_at c script i.
Proof. exact (found_sound c script). Qed.
Print Assumptions C40_found_occurs.
(** an occurrence is found unless an earlier attempt (a partial occurrence) runs into it *)
Theorem C40_occurs_found c script i : occurs_at c script i ->
  (forall s, s < i -> fits_upto (cf_editscript c) script s (Nat.min (length (cf_editscript c)) (i - s)) ->
     cf_strictend c = false /\ s + length (cf_editscript c) <= i) ->
  found_in c script = true.
Proof. exact (found_complete c script i). Qed.
Print Assumptions C40_occurs_found.
(** so for patterns anchored at the beginning, and for short ones, found means occurs *)
Theorem C40_anchored c script : cf_strictbegin c = true -> (found_in c script = true <-> occurs_at c script 0).
Proof. exact (found_anchored c script). Qed.
Print Assumptions C40_anchored.
Theorem C40_short c script : cf_strictend c = false -> length (cf_editscript c) <= 2 -> alternating script ->
  (found_in c script = true <-> exists i, occurs_at c script i).
Proof. exact (found_short c script). Qed.
Print Assumptions C40_short.

(** keep "a", delete "b", insert "c" *)
Definition exPat : list edit_instruction := [Identity [97]; Deletion [98]; Insertion [99]]%N.
(** keep "a", delete "b", keep "a", delete "b", insert "c": the second "a" ends
    the first attempt and is not tried as a new beginning *)
Definition exScript : list edit_instruction := [Identity [97]; Deletion [98]; Identity [97]; Deletion [98]; Insertion [99]]%N.
Ltac solve_fits := split; [done|]; eexists _, _; split; [apply elem_of_list_singleton; done|]; split; [unfold plain; auto|]; cbn; try done.
Theorem C40_occurs_found_refuted :
  exists c script, alternating script /\ occurs_at c script 2 /\ found_in c script = false.
Proof.
  exists (Confusable exPat f1 false false), exScript. split; [|split; [|by vm_compute]].
  - intros [|[|[|[|[|i]]]]] a b; cbn; intros [= <-]; intros [= <-]; done.
  - split; [done|]. split; [|done]. intros [|[|[|j]]] e Hj; cbn; intros [= <-].
    all: eexists; split; [done|]; solve_fits.
Qed.
Print Assumptions C40_occurs_found_refuted.
(** anchored at the end: the first occurrence decides, although the pattern also occurs at the end *)
Theorem C40_end_anchor_refuted :
  exists c script, length (cf_editscript c) = 1 /\ occurs_at c script 2 /\ found_in c script = false.
Proof.
  exists (Confusable [Deletion [98]%N] f1 false true), [Deletion [98]; Identity [97]; Deletion [98]]%N.
  split; [done|]. split; [|by vm_compute]. split; [done|]. split; [|done].
  intros [|j] e Hj; cbn; intros [= <-]. eexists; split; [done|]. solve_fits.
Qed.
Print Assumptions C40_end_anchor_refuted.
(** an insertion at the end of a pattern is compared with the end of the
    inserted text, not with its beginning next to the kept text *)
Theorem C40_inner_side_refuted :
  exists c, cf_editscript c = [Identity [97]; Insertion [98]]%N /\
    found_in c [Identity [97]; Insertion [99; 98]]%N = true /\ found_in c [Identity [97]; Insertion [98; 99]]%N = false.
Proof. exists (Confusable [Identity [97]; Insertion [98]]%N f1 false false). by vm_compute. Qed.
Print Assumptions C40_inner_side_refuted.
Example C40_ex :
  found_in (Confusable exPat f1 false false) [Insertion [97]; Identity [98; 97]; Deletion [98]; Insertion [99]]%N = true /\
  found_in (Confusable exPat f1 true false) [Insertion [97]; Identity [98; 97]; Deletion [98]; Insertion [99]]%N = false /\
  found_in (Confusable exPat f1 true true) [Identity [98; 97]; Deletion [98]; Insertion [99]]%N = true.
Proof. by vm_compute. Qed.

(** ** C41 *)
Theorem C41_weights_multiply ses m input id v cs : m_decoder m !! id = Some v ->
  selects (fun c => found_in c (ses input (vv_text v)) = true) (m_confusables m) cs ->
  product_of (map cf_weight cs) (confusable_weight ses m input id).
Proof. exact (weight_product ses m input id v cs). Qed.
Print Assumptions C41_weights_multiply.
Theorem C41_rescoring ses m l input :
  Forall2 (fun r r' => vr_id r' = vr_id r /\ vr_freq r' = vr_freq r /\ vr_via r' = vr_via r /\
    vr_dist r' = fmul (vr_dist r) (confusable_weight ses m input (vr_id r))) l (rescore_confusables ses m l input).
Proof. exact (rescored ses m l input). Qed.
Print Assumptions C41_rescoring.
(** scores stay as they are if no pattern is found *)
Theorem C41_nothing_found ses m l input :
  Forall (fun r => unit_score (vr_dist r) /\ forall v c, m_decoder m !! vr_id r = Some v -> c ∈ m_confusables m ->
    found_in c (ses input (vv_text v)) = false) l ->
  rescore_confusables ses m l input = l.
Proof. exact (nothing_found ses m l input). Qed.
Print Assumptions C41_nothing_found.
(** two of three patterns are found: 2 * 1/2 *)
Example C41_ex :
  let m := with_confusables (new_with_alphabet exA w1) [Confusable [Deletion [98]%N] f2 false false; Confusable [Insertion [98]%N] f2 false false;
    Confusable [Identity [97]%N; Deletion [98]%N] (fdiv f1 f2) true false] false in
  m_confusables m <> [] /\ is_Some (m_decoder m !! 0) /\
  confusable_weight (fun _ _ => [Identity [97]; Deletion [98]]%N) m [97]%N 0 = f1.
Proof. vm_compute. split; [done|]. split; [by eexists|done]. Qed.

(** ** C60 *)
Theorem C60_confusable_list parse_script parse_f64 lines m m' :
  read_confusablelist parse_script parse_f64 m lines = Ok (m', true) <->
  exists ls cs, selects (fun l => l <> []) lines ls /\ Forall2 (line_confusable parse_script parse_f64) ls cs /\
    m' = with_confusables m (m_confusables m ++ cs) (m_confusables_before_pruning m).
Proof. exact (read_spec parse_script parse_f64 lines m m'). Qed.
Print Assumptions C60_confusable_list.
(** a pattern that begins (or ends) with a character outside ASCII, or is
    empty, makes the loading fail; "é" *)
Theorem C60_non_ascii_fails parse_script w :
  confusable_new parse_script [233; 97]%N w = Panic ExpectNone /\ confusable_new parse_script [97; 233]%N w = Panic ExpectNone /\
  confusable_new parse_script [] w = Panic ExpectNone.
Proof. done. Qed.
Print Assumptions C60_non_ascii_fails.
(** "^x$", nothing, "x<tab>w" *)
Example C60_ex :
  rmap (fun r => (map (fun c => (cf_weight c, cf_strictbegin c, cf_strictend c)) (m_confusables r.1), r.2))
    (read_confusablelist (fun s => if decide (s = [120]%N) then Some [] else None) (fun s => if decide (s = [119]%N) then Some f2 else None)
       (new_with_alphabet exA w1) [[94; 120; 36]; []; [120; 9; 119]]%N) =
  Ok ([(f1, true, true); (f2, false, false)], true).
Proof. by vm_compute. Qed.

(** ** C61 *)
Theorem C61_prefixes_of_bytes s t : Forall scalar s -> Forall scalar t -> (is_prefix s t = true <-> bytes s `prefix_of` bytes t).
Proof. exact (bytes_starts_with s t). Qed.
Print Assumptions C61_prefixes_of_bytes.
Theorem C61_suffixes_of_bytes s t : Forall scalar s -> Forall scalar t -> (is_suffix s t = true <-> bytes s `suffix_of` bytes t).
Proof. exact (bytes_ends_with s t). Qed.
Print Assumptions C61_suffixes_of_bytes.
Theorem C61_equal_bytes s t : Forall scalar s -> Forall scalar t -> bytes s = bytes t -> s = t.
Proof. exact (bytes_inj s t). Qed.
Print Assumptions C61_equal_bytes.
Theorem C61_byte_length s : length (bytes s) = byte_len s.
Proof. exact (bytes_length s). Qed.
Print Assumptions C61_byte_length.
(** "aé€" and an emoji *)
Example C61_ex : bytes [97; 233; 8364; 128512]%N = [97; 195; 169; 226; 130; 172; 240; 159; 152; 128]%N /\
  Forall scalar [97; 233; 8364; 128512]%N.
Proof. split; [by vm_compute|]. repeat constructor; by vm_compute. Qed.
