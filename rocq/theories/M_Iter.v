(** Model of src/iterators.rs and of the iterator functions of src/anahash.rs. *)
From Verif Require Import M_Base M_Anahash.
From stdpp Require Import options.

(** src/iterators.rs:38-42 [DeletionResult { value, charindex }] *)
Notation deletion := (N * nat)%type.

(** src/iterators.rs:51-70 [DeletionIterator::next], iterated to exhaustion.
    [k] is [alphabet_size - iteration]; the character index tried is [k - 1]. *)
Fixpoint deletions_from (value : N) (k : nat) : res (list deletion) :=
  match k with
  | O => Ok []
  | S charindex =>
      if (value =? 1)%N then Ok []
      else
        let* c := character charindex in
        match ana_delete value c with
        | Some result =>
            let* rest := deletions_from value charindex in
            Ok ((result, charindex) :: rest)
        | None => deletions_from value charindex
        end
  end.

(** src/anahash.rs:207-209 [iter_parents] *)
Definition iter_parents (value : N) (alphabet_size : nat) : res (list deletion) :=
  deletions_from value alphabet_size.

(** The first item of the same iterator (src/iterators.rs:201, one call of
    [next]). *)
Fixpoint first_deletion_from (value : N) (k : nat) : res (option deletion) :=
  match k with
  | O => Ok None
  | S charindex =>
      if (value =? 1)%N then Ok None
      else
        let* c := character charindex in
        match ana_delete value c with
        | Some result => Ok (Some (result, charindex))
        | None => first_deletion_from value charindex
        end
  end.

(** src/iterators.rs:95-114 [RecurseDeletionIterator].  The queue holds
    [(DeletionResult, depth)]; [visited] is the (internal or external) set of
    visited values, here a list used as a set. *)
Record rditer := RDIter {
  rd_queue : list (deletion * nat);
  rd_alphabet_size : nat;
  rd_singlebeam : bool;
  rd_breadthfirst : bool;
  rd_mindepth : nat;
  rd_maxdepth : option nat;
  rd_empty_leaves : bool;
  rd_unique : bool;
  rd_visited : list N;
}.

(** src/iterators.rs:115-147 [RecurseDeletionIterator::new] *)
Definition rditer_new (value : N) (alphabet_size : nat) (singlebeam : bool)
    (mindepth maxdepth : option nat) (breadthfirst unique empty_leaves : bool)
    (external_visited : list N) : rditer :=
  {| rd_queue := [((value, 0), 0)];
     rd_alphabet_size := alphabet_size;
     rd_singlebeam := singlebeam;
     rd_breadthfirst := breadthfirst;
     rd_mindepth := default 1 mindepth;
     rd_maxdepth := maxdepth;
     rd_empty_leaves := empty_leaves;
     rd_unique := unique;
     rd_visited := external_visited |}.

(** src/iterators.rs:72-93 [VisitedMap::contains] *)
Definition visited_contains (visited : list N) (v : N) : bool := existsb (N.eqb v) visited.

(** [VisitedMap::insert] (a set: no second copy) *)
Definition visited_insert (visited : list N) (v : N) : list N :=
  if visited_contains visited v then visited else v :: visited.

Definition set_queue (it : rditer) (q : list (deletion * nat)) : rditer :=
  {| rd_queue := q;
     rd_alphabet_size := rd_alphabet_size it;
     rd_singlebeam := rd_singlebeam it;
     rd_breadthfirst := rd_breadthfirst it;
     rd_mindepth := rd_mindepth it;
     rd_maxdepth := rd_maxdepth it;
     rd_empty_leaves := rd_empty_leaves it;
     rd_unique := rd_unique it;
     rd_visited := rd_visited it |}.

Definition set_visited (it : rditer) (vs : list N) : rditer :=
  {| rd_queue := rd_queue it;
     rd_alphabet_size := rd_alphabet_size it;
     rd_singlebeam := rd_singlebeam it;
     rd_breadthfirst := rd_breadthfirst it;
     rd_mindepth := rd_mindepth it;
     rd_maxdepth := rd_maxdepth it;
     rd_empty_leaves := rd_empty_leaves it;
     rd_unique := rd_unique it;
     rd_visited := vs |}.

(** One pass through [next] up to the point where it returns or calls itself
    again: finished, recurse with a new state, or yield an item. *)
Inductive rdstep :=
| RDone
| RAgain (it : rditer)
| RYield (item : deletion * nat) (it : rditer).

(** [self.maxdepth.is_none() || depth < self.maxdepth.expect(..)] *)
Definition may_expand (it : rditer) (depth : nat) : bool :=
  match rd_maxdepth it with None => true | Some m => (depth <? m)%nat end.

(** src/iterators.rs:176-185, 222-231: yield the node or not. *)
Definition rd_emit (it : rditer) (node : deletion) (depth : nat) : rdstep :=
  if (depth <? rd_mindepth it)%nat || (negb (rd_empty_leaves it) && ana_is_empty (node.1))
  then RAgain it
  else
    RYield (node, depth)
      (if rd_unique it then set_visited it (visited_insert (rd_visited it) (node.1)) else it).

(** children, filtered by the visited set if unique, tagged with depth+1 *)
Definition rd_children (it : rditer) (cs : list deletion) (depth : nat) : list (deletion * nat) :=
  map (fun c => (c, S depth))
    (if rd_unique it
     then List.filter (fun c => negb (visited_contains (rd_visited it) c.1)) cs
     else cs).

(** src/iterators.rs:154-188 breadth-first branch (pop from the front, extend
    at the back) *)
Definition bfs_step (it : rditer) : res rdstep :=
  match rd_queue it with
  | [] => Ok RDone
  | (node, depth) :: q =>
      let it := set_queue it q in
      if rd_unique it && visited_contains (rd_visited it) (node.1) then Ok (RAgain it)
      else
        let* it :=
          if may_expand it depth then
            let* cs := deletions_from (node.1) (rd_alphabet_size it) in
            Ok (set_queue it (q ++ rd_children it cs depth))
          else Ok it in
        Ok (rd_emit it node depth)
  end.

(** src/iterators.rs:188-235 depth-first branch.  The queue is popped and
    extended at its back; we keep it reversed, so the back is the head:
    pushing [x1,..,xn] in that order puts [xn] at the head. *)
Definition dfs_step (it : rditer) : res rdstep :=
  match rd_queue it with
  | [] => Ok RDone
  | (node, depth) :: q =>
      let it := set_queue it q in
      if may_expand it depth then
        if rd_unique it && visited_contains (rd_visited it) (node.1) then Ok (RAgain it)
        else if rd_singlebeam it then
          let* oc := first_deletion_from (node.1) (rd_alphabet_size it) in
          let it := match oc with
                    | Some child => set_queue it ((child, S depth) :: q)
                    | None => it
                    end in
          Ok (rd_emit it node depth)
        else
          let* cs := deletions_from (node.1) (rd_alphabet_size it) in
          (* pushed in reverse order: the first child ends up on top *)
          Ok (rd_emit (set_queue it (rd_children it cs depth ++ q)) node depth)
      else Ok (rd_emit it node depth)
  end.

Definition rd_step (it : rditer) : res rdstep :=
  if rd_breadthfirst it then bfs_step it else dfs_step it.

(** Drain the iterator ([for x in iterator]/[collect]); [fuel] bounds the number
    of passes.  Also returns the final visited set (for external caches). *)
Fixpoint rd_run (fuel : nat) (it : rditer) : res (list (deletion * nat) * list N) :=
  match fuel with
  | O => Panic OutOfFuel
  | S fuel =>
      let* s := rd_step it in
      match s with
      | RDone => Ok ([], rd_visited it)
      | RAgain it' => rd_run fuel it'
      | RYield item it' =>
          let* r := rd_run fuel it' in
          Ok (item :: r.1, r.2)
      end
  end.

Definition rd_collect (fuel : nat) (it : rditer) : res (list (deletion * nat)) :=
  rmap fst (rd_run fuel it).

(** src/anahash.rs:192-204 [iter] *)
Definition ana_iter (value : N) (alphabet_size : nat) : rditer :=
  rditer_new value alphabet_size true None None false false true [].

(** src/anahash.rs:264-282 [SearchParams] and its default *)
Record search_params := SearchParams {
  sp_min_distance : option nat;
  sp_max_distance : option nat;
  sp_breadthfirst : bool;
  sp_allow_duplicates : bool;
  sp_allow_empty_leaves : bool;
}.
Definition search_params_default : search_params :=
  {| sp_min_distance := None; sp_max_distance := None; sp_breadthfirst := false;
     sp_allow_duplicates := true; sp_allow_empty_leaves := true |}.

(** src/anahash.rs:212-228 [iter_recursive] *)
Definition iter_recursive (value : N) (alphabet_size : nat) (p : search_params) : rditer :=
  rditer_new value alphabet_size false (sp_min_distance p) (sp_max_distance p)
    (sp_breadthfirst p) (negb (sp_allow_duplicates p)) (sp_allow_empty_leaves p) [].

(** src/anahash.rs:231-248 [iter_recursive_external_cache] *)
Definition iter_recursive_external_cache (value : N) (alphabet_size : nat)
    (p : search_params) (cache : list N) : rditer :=
  rditer_new value alphabet_size false (sp_min_distance p) (sp_max_distance p)
    (sp_breadthfirst p) (negb (sp_allow_duplicates p)) (sp_allow_empty_leaves p) cache.

(** Number of passes sufficient to drain a single-beam iterator: the value
    halves at least at every deletion, so the bit length bounds the depth. *)
Definition iter_fuel (value : N) : nat := S (S (N.to_nat (N.log2 value))).

(** src/anahash.rs:108-110 [char_count]: [iter(..).count() as u16] *)
Definition char_count (value : N) (alphabet_size : nat) : res N :=
  let* l := rd_collect (iter_fuel value) (ana_iter value alphabet_size) in
  Ok (as_u16 (N.of_nat (length l))).

(** src/anahash.rs:126-136 [alphabet_upper_bound]; [count] is a [u16] counter *)
Definition u16_succ (n : N) : res N := if (n <? 65535)%N then Ok (n + 1)%N else Panic Overflow.

Definition alphabet_upper_bound (value : N) (alphabet_size : nat) : res (nat * N) :=
  let* l := rd_collect (iter_fuel value) (ana_iter value alphabet_size) in
  rfoldl (fun acc item =>
    let* count := u16_succ (acc.2) in
    let charindex := (item.1).2 in
    Ok (if (acc.1 <? charindex)%nat then charindex else acc.1, count)) (0, 0%N) l.

(** src/anahash.rs:113-119 [count_matches]; does not terminate in the code for
    [value = 1] (and self > 0), here out of fuel. *)
Fixpoint count_matches (fuel : nat) (self value : N) : res nat :=
  match fuel with
  | O => Panic OutOfFuel
  | S fuel =>
      match ana_delete self value with
      | Some result => let* n := count_matches fuel result value in Ok (S n)
      | None => Ok 0
      end
  end.
