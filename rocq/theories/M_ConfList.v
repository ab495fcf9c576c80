(** Loading confusables: [Confusable::new] (src/confusables.rs:14-44) and
    [read_confusablelist], [add_to_confusables] (src/lib.rs:414-451). *)
From Verif Require Import M_Base M_Utf8 M_Anahash M_Float M_Types M_Model M_Confusable.
From stdpp Require Import options.

Section conflist.
  (** sesdiff's [EditScript::from_str] ([None] is [Err]) and Rust's
      [str::parse::<f64>] *)
  Context (parse_script : str -> option (list edit_instruction)) (parse_f64 : str -> option f64).

  (** [s.get(0..1).expect(..)]: panics on the empty text and if the first
      character takes more than one byte *)
  Definition first_byte (s : str) : res N :=
    match s with c :: _ => if (utf8_len c =? 1)%nat then Ok c else Panic ExpectNone | [] => Panic ExpectNone end.
  (** [s.get((l - 1)..).expect(..)] likewise *)
  Definition last_byte (s : str) : res N :=
    match last s with Some c => if (utf8_len c =? 1)%nat then Ok c else Panic ExpectNone | None => Panic ExpectNone end.

  (** src/confusables.rs:14-44 [Confusable::new]; [None] is the [Err] result *)
  Definition confusable_new (text : str) (weight : f64) : res (option confusable) :=
    let* b := first_byte text in
    let* e := last_byte text in
    let strictbegin := (b =? 94)%N in
    let strictend := (e =? 36)%N in
    let l := length text in
    let body :=
      if strictbegin && strictend then drop 1 (take (l - 1) text)
      else if strictbegin then drop 1 text
      else if strictend then take (l - 1) text
      else text in
    Ok (match parse_script body with
        | Some script => Some (Confusable script weight strictbegin strictend)
        | None => None
        end).

  (** src/lib.rs:444-451 [add_to_confusables]; the flag is [Ok]/[Err] *)
  Definition add_to_confusables (m : model) (text : str) (weight : f64) : res (model * bool) :=
    let* c := confusable_new text weight in
    Ok (match c with
        | Some c => (with_confusables m (m_confusables m ++ [c]) (m_confusables_before_pruning m), true)
        | None => (m, false)
        end).

  (** src/lib.rs:414-441 [read_confusablelist] on the lines of the file (lines
      that are not valid UTF-8 are skipped by the code and not modelled); the
      first [Err] ends the loop *)
  Definition read_confusablelist (m : model) (lines : list str) : res (model * bool) :=
    rfoldl (fun st line =>
      if (st.2 : bool) then
        match line with
        | [] => Ok st
        | _ =>
            let fields := split_on 9 line in
            let* weight := match fields with _ :: s :: _ => rexpect (parse_f64 s) | _ => Ok f1 end in
            let* text := rexpect (fields !! 0) in
            add_to_confusables st.1 text weight
        end
      else Ok st) (m, true) lines.
End conflist.
