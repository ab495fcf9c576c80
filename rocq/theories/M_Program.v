(** The command line tool as a whole: src/bin/analiticcl.rs:900-1330 and
    484-557.

    A run is given by what was typed, the files and the standard input.  A file
    is the list of its lines; [None] is a line that is not valid UTF-8 (the
    readers of resources skip such lines).  Simplifications: all resources are
    opened before the first is loaded (only which failure comes first depends on
    it); standard input that was read once is empty afterwards; the progress
    display and all messages, which go to another stream, are left out; hash maps
    are iterated in the same order every time (by C13, C18 and C71 the order
    does not matter, except to the [index] command). *)
From Coq Require String Ascii.
From Verif Require Import M_Base M_Anahash M_Iter M_Float M_Types M_Model M_Confusable M_ConfList M_Rules M_Search M_Text M_Values.
From Verif Require Import M_Matches M_Learn M_Cli M_Main M_Options.
Import String.StringSyntax Ascii.AsciiSyntax.
From stdpp Require Import options.

(** what was typed: the option "debug" before the command, the command, the rest *)
Record invocation := Invocation { iv_debug : option str; iv_command : option command; iv_typed : list typed }.

(** how a run ends, and what it wrote to standard output *)
Inductive ending := Ended | Exited (code : N) | Panicked (p : panic).
Record outcome := Outcome { oc_out : str; oc_end : ending }.
Definition of_printed (x : printed) : outcome :=
  Outcome (p_out x) (match p_stop x with Some p => Panicked p | None => Ended end).
Definition exit (code : N) : outcome := Outcome [] (Exited code).
Definition ores {A} (x : res A) (f : A -> outcome) : outcome :=
  match x with Ok a => f a | Panic p => Outcome [] (Panicked p) end.

(** src/bin/analiticcl.rs:1007-1024: one line of [testinput] *)
Definition test_line (A : alphabet) (input : str) : printed :=
  pres (let* av := anahash A input in
        let* norm := normalize_to_alphabet A input in
        let* n := alphabet_size A in
        let* c := character (n - 1) in
        Ok (if ana_contains av c then []
            else lit "OK: " ++ input ++ tab ++ show av ++ tab ++ lit "[" ++ join (lit ", ") (map (fun k => show (N.of_nat k)) norm) ++ lit "]" ++ newline))
    put.

Section program.
  (** number formats, Unicode tables, logarithms, edit scripts, shortest paths *)
  Context (parse_f64 : str -> option f64) (parse_f32 : str -> option f32) (fmt : f64 -> str).
  Context (ws lower alpha : N -> bool) (ln32 : f32 -> f32) (ln : f64 -> f64).
  Context (parse_script : str -> option (list edit_instruction)) (script : str -> str -> list edit_instruction).
  Context (solve : fst_graph -> nat -> list (list nat * f32)).
  (** the orders of iteration of hash maps *)
  Context (order : list (N * node) -> list (N * node)) (order' : list (str * vocab_id) -> list (str * vocab_id)).
  Context (order'' : list (nat * list N) -> list (nat * list N)).
  (** the files, the standard input, and the number of steps for lookups *)
  Context (fs : str -> option (list (option str))) (stdin : list (option str)) (fuel : nat).

  (** [File::open(..)] *)
  Definition open (name : str) : res (list (option str)) := rexpect (fs name).
  Definition resource_file (name : str) : res file := let* ls := open name in Ok (File name (omap id ls)).

  (** src/lib.rs:972-1027, 1790-1955 in the model [m] *)
  Definition lookup_in (m : model) (p : search_parameters) (q : str) : res (list variant_result) :=
    find_variants lower script fuel order'' m q p.
  Definition search_in (m : model) (p : search_parameters) (t : str) : res (list tmatch) :=
    find_all_matches ln32 ln ws solve alpha (lookup_in m p) m t p.

  (** src/bin/analiticcl.rs:501-543: the iterations of learning.  In both cases
      [learn_variants] gets all lines; the texts put together in lines 519-540
      are not used. *)
  Fixpoint learn_iterations (k : nat) (p : search_parameters) (strict : bool) (lines : list str) (m : model) : res model :=
    match k with
    | O => Ok m
    | S k =>
        let* (m', count) := learn_variants (lookup_in m p) (search_in m p) order order' m strict true lines in
        if (count : nat) =? 0 then Ok m' else learn_iterations k p strict lines m'
    end.
  (** src/bin/analiticcl.rs:496-500: lines up to the first unreadable one *)
  Fixpoint readable (lines : list (option str)) : list str :=
    match lines with Some l :: lines' => l :: readable lines' | _ => [] end.

  Section run.
    Context (c : command) (ts : list typed).
    #[local] Notation present n := (is_present c ts (lit n)).
    #[local] Notation values n := (values_of c ts (lit n)).

    (** src/bin/analiticcl.rs:1027-1051, 1070-1108: the files of an option *)
    Definition files_of (vs : list (nat * str)) : res (list (nat * file)) :=
      rmapM (fun v : nat * str => let* f := resource_file v.2 in Ok (v.1, f)) vs.
    (** src/bin/analiticcl.rs:966-1112, 1188-1190 *)
    Definition loaded_model : res model :=
      let* w := tool_weights parse_f64 c ts in
      let* alphabet := rexpect (value_of c ts (lit "alphabet")) in
      let* alphabet := open alphabet in
      let* lexicons := files_of (values "lexicon") in
      let* variants := files_of (values "variants") in
      let* errors := files_of (values "errors") in
      let* lms := files_of (values "lm") in
      let* confusables := files_of (values "confusables") in
      let* rules := files_of (values "contextrules") in
      startup ws parse_f64 parse_f32 parse_script order order' alphabet w lexicons variants errors
        (map snd lms) (map snd confusables) (map snd rules) (present "early-confusables").

    (** src/bin/analiticcl.rs:1225-1229 *)
    Definition input_files : list str := match omap file_name ts with [] => [lit "-"] | l => l end.
    (** src/bin/analiticcl.rs:1232 *)
    Definition is_stdin (name : str) : bool := bool_decide (name ∈ [lit "-"; lit "STDIN"; lit "stdin"]).

    (** src/bin/analiticcl.rs:1230-1323: one file after the other; 545-549 the
        learned variants.  With "multi-output" standard output gets the words
        only; the files that are written are M_Multi's. *)
    Fixpoint over_files (P : tool_parameters) (m : model) (input : list (option str)) (names : list str) : printed :=
      match names with
      | [] => put []
      | name :: names' =>
          let p := tp_search P in
          let lexmatch := present "output-lexmatch" in
          let json := present "json" in
          let rest := if is_stdin name then [] else input in
          pres (if is_stdin name then Ok input else open name) (fun lines =>
            match c with
            | Learn =>
                pres (let* k := parsed parse_small (value_of c ts (lit "iterations")) in
                      learn_iterations k p (present "strict") (readable lines) m) (fun m' =>
                  pthen (if present "multi-output" then
                      put (if json then lit "{" ++ newline else []) ;;
                      pall (map (fun v => match references v with
                        | [] => put []
                        | _ => put (if json then lit "    """ ++ escape (vv_text v) ++ lit """: [ " ++ newline ++ lit "    ]" ++ newline
                                    else vv_text v ++ newline)
                        end) (m_decoder m')) ;;
                      put (if json then lit "}" ++ newline else [])
                    else if json then learned_json fmt m' else learned_tsv fmt m')
                  (over_files P m' rest names'))
            | Search =>
                pthen (process_search fmt m lexmatch (p_freq_weight p) (search_in m p) json
                  (negb (present "retain-linebreaks")) (present "per-line") MAX_BATCHSIZE_SEARCH lines)
                (over_files P m rest names')
            | _ =>
                pthen (if tp_single_thread P then process fmt m lexmatch (p_freq_weight p) (lookup_in m p) json lines
                       else process_par fmt m lexmatch (p_freq_weight p) (lookup_in m p) json (N.to_nat MAX_BATCHSIZE) lines)
                (over_files P m rest names')
            end)
      end.

    (** src/bin/analiticcl.rs:966-1330, for a command line that clap accepted *)
    Definition run (debug : option str) : outcome :=
      match c with
      | TestInput =>
          ores (let* _ := tool_weights parse_f64 c ts in
                let* alphabet := rexpect (value_of c ts (lit "alphabet")) in
                let* _ := rexpect (parse_u8 (default (lit "0") debug)) in
                open alphabet) (fun alphabet =>
            let A := read_alphabet ws alphabet in
            let x := pall (map (test_line A) (omap id stdin)) in
            Outcome (p_out x) (match p_stop x with Some p => Panicked p | None => Exited 0 end))
      | _ =>
          ores (let* _ := rexpect (parse_u8 (default (lit "0") debug)) in loaded_model) (fun m =>
          ores (tool_params parse_f64 parse_f32 c ts) (fun P =>
          if cutoff_refused (tp_search P) then exit 2
          else
            of_printed (match c with
              | Index => index_output order m
              | _ =>
                  let json := present "json" in
                  put (if json then lit "[" ++ newline else []) ;;
                  over_files P m stdin input_files ;;
                  put (if json then lit "]" ++ newline else [])
              end)))
      end.
  End run.

  (** src/bin/analiticcl.rs:900-1330 [main] *)
  Definition program (iv : invocation) : outcome :=
    match iv_command iv with
    | None => exit 2
    | Some c => if accepted c (iv_typed iv) then run c (iv_typed iv) (iv_debug iv) else exit 1
    end.
End program.
