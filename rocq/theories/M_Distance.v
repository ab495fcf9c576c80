(** Model of src/distance.rs.  Normalised characters ([u8]) are [nat]; matrix
    cells ([usize]) are [nat] (no overflow: they are bounded by the lengths). *)
From stdpp Require Import gmap.
From Verif Require Import M_Base M_Anahash M_Iter.
From stdpp Require Import options.

Notation norm := (list nat).

(** [a - b] on [usize] *)
Definition usub (a b : nat) : res nat := if (b <=? a)%nat then Ok (a - b) else Panic Overflow.

(** [cache[i] = v] *)
Definition rset {A} (l : list A) (i : nat) (v : A) : res (list A) :=
  if (i <? length l)%nat then Ok (<[i := v]> l) else Panic IndexOutOfBounds.

(** src/distance.rs:54-75: one step of the inner loop.  The state is
    [(cache, distance_a, result)]. *)
Definition lev_cell (elem_b : nat) (st : list nat * nat * nat) (ia : nat * nat)
    : res (list nat * nat * nat) :=
  let '(cache, distance_a, result) := st in
  let '(index_a, elem_a) := ia in
  let distance_b := if (elem_a =? elem_b)%nat then distance_a else S distance_a in
  let* distance_a := rindex cache index_a in
  let result :=
    if (result <? distance_a)%nat then
      if (result <? distance_b)%nat then S result else distance_b
    else if (distance_a <? distance_b)%nat then S distance_a else distance_b in
  let* cache := rset cache index_a result in
  Ok (cache, distance_a, result).

(** [v.iter().enumerate()] *)
Definition enumerate {A} (l : list A) : list (nat * A) := zip (seq 0 (length l)) l.

(** src/distance.rs:50-76: the outer loop; the state is [(cache, result)]. *)
Definition lev_row (a : norm) (st : list nat * nat) (ib : nat * nat) : res (list nat * nat) :=
  let '(cache, _) := st in
  let '(index_b, elem_b) := ib in
  let* st := rfoldl (lev_cell elem_b) (cache, index_b, index_b) (enumerate a) in
  let '(cache, _, result) := st in
  Ok (cache, result).

(** src/distance.rs:7-83 [levenshtein] *)
Definition levenshtein (a b : norm) (max_distance : nat) : res (option nat) :=
  if decide (a = b) then Ok (Some 0)
  else
    let length_a := length a in
    let length_b := length b in
    if (length_a =? 0)%nat then
      Ok (if (max_distance <? length_b)%nat then None else Some (as_u8 length_b))
    else if (length_b <? length_a)%nat && (max_distance <? length_a - length_b)%nat then Ok None
    else if (length_b =? 0)%nat then
      Ok (if (max_distance <? length_a)%nat then None else Some (as_u8 length_a))
    else if (length_a <? length_b)%nat && (max_distance <? length_b - length_a)%nat then Ok None
    else
      let* st := rfoldl (lev_row a) (seq 1 length_a, 0) (enumerate b) in
      let result := st.2 in
      Ok (if (max_distance <? result)%nat then None else Some (as_u8 result)).

(** matrix access [mat[i][j]] and update [mat[i][j] = v] *)
Notation matrix := (list (list nat)).
Definition mget (m : matrix) (i j : nat) : res nat := let* r := rindex m i in rindex r j.
Definition mset (m : matrix) (i j v : nat) : res matrix :=
  let* r := rindex m i in
  let* r' := rset r j v in
  rset m i r'.

(** src/distance.rs:234-236 [min4] *)
Definition min4 (a b c d : nat) : nat := Nat.min (Nat.min (Nat.min a b) c) d.

(** src/distance.rs:131-141: the initial matrix *)
Definition dl_init (len_s len_t : nat) : res matrix :=
  let ub := len_t + len_s in
  let mat := replicate (len_s + 2) (replicate (len_t + 2) 0) in
  let* mat := mset mat 0 0 ub in
  let* mat := rfoldl (fun mat i =>
    let* mat := mset mat (i + 1) 0 ub in
    mset mat (i + 1) 1 i) mat (seq 0 (len_s + 1)) in
  rfoldl (fun mat i =>
    let* mat := mset mat 0 (i + 1) ub in
    mset mat 1 (i + 1) i) mat (seq 0 (len_t + 1)).

(** src/distance.rs:149-166: one cell; the state is [(mat, db)] and [i], [j]
    are already the incremented indices. *)
Definition dl_cell (char_map : gmap nat nat) (i s_char : nat) (st : matrix * nat) (jt : nat * nat)
    : res (matrix * nat) :=
  let '(mat, db) := st in
  let '(j, t_char) := jt in
  let j := j + 1 in
  let last := default 0 (char_map !! t_char) in
  let cost := if (s_char =? t_char)%nat then 0 else 1 in
  let* x1 := mget mat (i + 1) j in
  let* x2 := mget mat i (j + 1) in
  let* x3 := mget mat i j in
  let* x4 := mget mat last db in
  let* di := usub i last in
  let* di := usub di 1 in
  let* dj := usub j db in
  let* dj := usub dj 1 in
  let* mat := mset mat (i + 1) (j + 1) (min4 (x1 + 1) (x2 + 1) (x3 + cost) (x4 + di + 1 + dj)) in
  Ok (mat, if (cost =? 0)%nat then j else db).

(** src/distance.rs:145-169: one row; the state is [(mat, char_map)]. *)
Definition dl_row (t : norm) (st : matrix * gmap nat nat) (is_ : nat * nat)
    : res (matrix * gmap nat nat) :=
  let '(mat, char_map) := st in
  let '(i, s_char) := is_ in
  let i := i + 1 in
  let* st := rfoldl (dl_cell char_map i s_char) (mat, 0) (enumerate t) in
  Ok (st.1, <[s_char := as_u8 i]> char_map).

(** src/distance.rs:101-178 [damerau_levenshtein] *)
Definition damerau_levenshtein (s t : norm) (max_distance : nat) : res (option nat) :=
  let len_s := length s in
  let len_t := length t in
  if (len_s =? 0)%nat then
    Ok (if (max_distance <? len_t)%nat then None else Some (as_u8 len_t))
  else if (len_t <? len_s)%nat && (max_distance <? len_s - len_t)%nat then Ok None
  else if (len_t =? 0)%nat then
    Ok (if (max_distance <? len_s)%nat then None else Some (as_u8 len_s))
  else if (len_s <? len_t)%nat && (max_distance <? len_t - len_s)%nat then Ok None
  else
    let* mat := dl_init len_s len_t in
    let* st := rfoldl (dl_row t) (mat, ∅) (enumerate s) in
    let* result := mget (st.1) (len_s + 1) (len_t + 1) in
    Ok (if (max_distance <? result)%nat then None else Some (as_u8 result)).

(** src/distance.rs:190-195: the inner [while] loop; [fuel] bounds the number
    of iterations (never reached: [tmp_i] stays below the length). *)
Fixpoint lcs_extend (fuel : nat) (s1 s2 : norm) (tmp_lcs : N) (tmp_i tmp_j : nat) : res N :=
  match fuel with
  | O => Panic OutOfFuel
  | S fuel =>
      if (tmp_i <? length s1)%nat && (tmp_j <? length s2)%nat then
        let* x := rindex s1 tmp_i in
        let* y := rindex s2 tmp_j in
        if (x =? y)%nat then
          let* tmp_lcs := u16_succ tmp_lcs in
          lcs_extend fuel s1 s2 tmp_lcs (tmp_i + 1) (tmp_j + 1)
        else Ok tmp_lcs
      else Ok tmp_lcs
  end.

(** src/distance.rs:181-205 [longest_common_substring_length] *)
Definition lcs_length (s1 s2 : norm) : res N :=
  rfoldl (fun lcs i =>
    rfoldl (fun lcs j =>
      let* x := rindex s1 i in
      let* y := rindex s2 j in
      if (x =? y)%nat then
        let* tmp_lcs := lcs_extend (S (length s1)) s1 s2 1%N (i + 1) (j + 1) in
        Ok (if (lcs <? tmp_lcs)%N then tmp_lcs else lcs)
      else Ok lcs) lcs (seq 0 (length s2))) 0%N (seq 0 (length s1)).

(** src/distance.rs:208-218 [common_prefix_length]; [idx] are the remaining
    loop indices, [break] returns. *)
Fixpoint prefix_loop (s1 s2 : norm) (prefixlen : N) (idx : list nat) : res N :=
  match idx with
  | [] => Ok prefixlen
  | i :: idx =>
      let* x := rindex s1 i in
      let* y := rindex s2 i in
      if (x =? y)%nat then
        let* prefixlen := u16_succ prefixlen in
        prefix_loop s1 s2 prefixlen idx
      else Ok prefixlen
  end.
Definition common_prefix_length (s1 s2 : norm) : res N :=
  prefix_loop s1 s2 0%N (seq 0 (Nat.min (length s1) (length s2))).

(** src/distance.rs:221-231 [common_suffix_length] *)
Fixpoint suffix_loop (s1 s2 : norm) (suffixlen : N) (idx : list nat) : res N :=
  match idx with
  | [] => Ok suffixlen
  | i :: idx =>
      let* k1 := usub (length s1) i in
      let* k1 := usub k1 1 in
      let* k2 := usub (length s2) i in
      let* k2 := usub k2 1 in
      let* x := rindex s1 k1 in
      let* y := rindex s2 k2 in
      if (x =? y)%nat then
        let* suffixlen := u16_succ suffixlen in
        suffix_loop s1 s2 suffixlen idx
      else Ok suffixlen
  end.
Definition common_suffix_length (s1 s2 : norm) : res N :=
  suffix_loop s1 s2 0%N (seq 0 (Nat.min (length s1) (length s2))).
