(** Parallel lookups: [batch.par_iter().map(f).collect()] of the library rayon
    (src/bin/analiticcl.rs:449-452, src/lib.rs:1083-1092, 1874-1896).

    A task is a computation in many steps with its own local state [L]; what the
    tasks share (the model, behind [&self]) is never written, so a step depends
    on the local state alone.  The worker threads perform steps of any tasks in
    any order.  [collect] puts the results in the order of the inputs; a panic
    of a task becomes the panic of the whole. *)
From Verif Require Import M_Base.
From stdpp Require Import options.

Section pool.
  Context {L B : Type} (step : L -> L + res B).

  Inductive task :=
  | Running (l : L)
  | Finished (r : res B).

  Definition advance (l : L) : task :=
    match step l with inl l' => Running l' | inr r => Finished r end.

  (** some worker performs a step of some task *)
  Inductive pool_step : list task -> list task -> Prop :=
  | pool_step_at ts i l : ts !! i = Some (Running l) -> pool_step ts (<[i := advance l]> ts).

  (** what the caller gets *)
  Inductive collected : list task -> res (list B) -> Prop :=
  | collected_all bs : collected (map (fun b => Finished (Ok b)) bs) (Ok bs)
  | collected_panic ts p : Finished (Panic p) ∈ ts -> collected ts (Panic p).
End pool.
Arguments task : clear implicits.
Arguments Running {_ _} l.
Arguments Finished {_ _} r.
