(** The options of the command line tool: src/bin/analiticcl.rs:656-895 (their
    definitions), 900-952 (the commands) and 966-993, 1113-1180 (how their values
    are used).

    The library clap (2.34) is modelled by the part that matters here.  It has
    split the command line into options, flags and file names (abbreviations such
    as [-u] and [--option=value] have been resolved); options and flags are typed
    by their [long] name, the program asks for them by the name of their
    definition.  [--help] and [--version] are not modelled. *)
From Coq Require String Ascii.
From Verif Require Import M_Base M_Anahash M_Float M_Types M_Model M_Values M_Cli.
Import String.StringSyntax Ascii.AsciiSyntax.
From stdpp Require Import options.

(** clap's [Arg]: the parts that are used; "files" is kept apart *)
Record arg := Arg { a_name : str; a_long : str; a_takes_value : bool; a_multiple : bool; a_default : option str }.
(** an option that may be repeated; a flag; an option with and without default *)
Definition many (name : String.string) : arg := Arg (lit name) (lit name) true true None.
Definition switch (name : String.string) : arg := Arg (lit name) (lit name) false false None.
Definition setting (name default : String.string) : arg := Arg (lit name) (lit name) true false (Some (lit default)).
Definition plain (name : String.string) : arg := Arg (lit name) (lit name) true false None.
Arguments many name%string_scope.
Arguments switch name%string_scope.
Arguments setting (name default)%string_scope.
Arguments plain name%string_scope.

(** src/bin/analiticcl.rs:656-828 [common_arguments]; 815-820 is the only one whose
    name differs from its [long] name *)
Definition common_arguments : list arg := [
  many "lexicon"; many "variants"; many "errors"; plain "alphabet"; many "confusables"; switch "early-confusables";
  many "contextrules"; switch "output-lexmatch"; switch "json"; switch "progress"; switch "stop-exact";
  setting "score-threshold" "0.25"; setting "cutoff-threshold" "2.0"; plain "freq-ranking";
  switch "single-thread"; switch "interactive";
  setting "weight-ld" "0.5"; setting "weight-lcs" "0.125"; setting "weight-prefix" "0.125"; setting "weight-suffix" "0.125";
  setting "weight-case" "0.125"; setting "max-anagram-distance" "3"; setting "max-edit-distance" "2"; setting "max-matches" "10";
  Arg (lit "unicodeoffsets") (lit "unicode-offsets") false false None ].
(** src/bin/analiticcl.rs:830-895 [search_arguments] *)
Definition search_arguments : list arg := [
  switch "per-line"; switch "retain-linebreaks"; setting "max-ngram-order" "3"; setting "max-seq" "250"; many "lm";
  setting "lm-order" "3"; setting "weight-lm" "1.0"; setting "weight-variant-model" "3.0"; setting "weight-contextrules" "1.0";
  setting "weight-context" "0.0"; switch "allow-overlap" ].
(** src/bin/analiticcl.rs:930-942 *)
Definition learn_arguments : list arg := [ setting "iterations" "1"; switch "multi-output"; switch "strict" ].

(** src/bin/analiticcl.rs:905-943: the commands *)
Inductive command := Query | Index | TestInput | Search | Learn.
Definition arguments (c : command) : list arg :=
  match c with
  | Query | Index | TestInput => common_arguments
  | Search => common_arguments ++ search_arguments
  | Learn => common_arguments ++ learn_arguments ++ search_arguments
  end.

(** what is typed after the command *)
Inductive typed := TFlag (long : str) | TOption (long value : str) | TFile (name : str).

(** the occurrences of an option or flag, with their positions *)
Definition occurrence (long : str) (t : typed) : option str :=
  match t with
  | TFlag l => if bool_decide (l = long) then Some [] else None
  | TOption l v => if bool_decide (l = long) then Some v else None
  | TFile _ => None
  end.
Definition occurrences (long : str) (ts : list typed) : list (nat * str) :=
  omap (fun x : nat * typed => option_map (pair x.1) (occurrence long x.2)) (imap pair ts).
Definition file_name (t : typed) : option str := match t with TFile n => Some n | _ => None end.

(** clap's [get_matches]: whether it accepts what was typed (it ends the program
    otherwise): known options with values and known flags without, repeated only
    if they may be; "alphabet" is required (689-696), "lexicon" is required unless
    "variants" is given (658-665) *)
Definition known (c : command) (t : typed) : bool :=
  match t with
  | TFlag l => existsb (fun a => bool_decide (a_long a = l) && negb (a_takes_value a)) (arguments c)
  | TOption l _ => existsb (fun a => bool_decide (a_long a = l) && a_takes_value a) (arguments c)
  | TFile _ => true
  end.
Definition accepted (c : command) (ts : list typed) : bool :=
  forallb (known c) ts &&
  forallb (fun a => a_multiple a || (length (occurrences (a_long a) ts) <=? 1)) (arguments c) &&
  negb (bool_decide (occurrences (lit "alphabet") ts = [])) &&
  (negb (bool_decide (occurrences (lit "lexicon") ts = [])) || negb (bool_decide (occurrences (lit "variants") ts = []))).

Section matches.
  (** clap's [ArgMatches] of the command *)
  Context (c : command) (ts : list typed).
  Definition definition_of (name : str) : option arg := List.find (fun a => bool_decide (a_name a = name)) (arguments c).
  (** [values_of] with [indices_of]; no definition: nothing *)
  Definition values_of (name : str) : list (nat * str) :=
    match definition_of name with Some a => occurrences (a_long a) ts | None => [] end.
  (** [is_present]: also if there is a default *)
  Definition is_present (name : str) : bool :=
    match definition_of name with
    | Some a => negb (bool_decide (occurrences (a_long a) ts = [])) || (match a_default a with Some _ => true | None => false end)
    | None => false
    end.
  (** [value_of]: the first value or else the default *)
  Definition value_of (name : str) : option str :=
    match definition_of name with
    | Some a => match occurrences (a_long a) ts with (_, v) :: _ => Some v | [] => a_default a end
    | None => None
    end.
End matches.

(** src/types.rs:110-166 [SearchParameters]: the parts that are used by the
    library (M_Types.v), and those that only the tool uses or nobody *)
Record tool_parameters := ToolParameters {
  tp_search : search_parameters;
  tp_single_thread : bool;
  tp_consolidate_matches : bool;
  tp_lm_order : nat;
  tp_context_weight : f32;
}.

Section values.
  Context (parse_f64 : str -> option f64) (parse_f32 : str -> option f32).
  Context (c : command) (ts : list typed).
  #[local] Notation value n := (value_of c ts (lit n)).
  #[local] Notation present n := (is_present c ts (lit n)).

  (** [args.value_of(name).unwrap().parse::<T>().expect(..)] *)
  Definition parsed {A} (parse : str -> option A) (v : option str) : res A := let* s := rexpect v in rexpect (parse s).
  (** [if args.is_present(name) { .. } else { d }] *)
  Definition parsed_or {A} (parse : str -> option A) (there : bool) (v : option str) (d : A) : res A :=
    if there then parsed parse v else Ok d.
  (** [parse::<usize>()], [parse::<u8>()] *)
  Definition parse_usize (s : str) : option nat := option_map N.to_nat (parse_uint 18446744073709551615 s).
  Definition parse_small (s : str) : option nat := option_map N.to_nat (parse_u8 s).

  (** src/bin/analiticcl.rs:966-992 *)
  Definition tool_weights : res weights :=
    let* ld := parsed parse_f64 (value "weight-ld") in
    let* lcs := parsed parse_f64 (value "weight-lcs") in
    let* prefix := parsed parse_f64 (value "weight-prefix") in
    let* suffix := parsed parse_f64 (value "weight-suffix") in
    let* case := parsed parse_f64 (value "weight-case") in
    Ok (Weights ld lcs prefix suffix case).

  (** src/bin/analiticcl.rs:1121-1178 *)
  Definition tool_params : res tool_parameters :=
    let* ana := parsed (threshold_from_str parse_f32) (value "max-anagram-distance") in
    let* edit := parsed (threshold_from_str parse_f32) (value "max-edit-distance") in
    let* matches := parsed parse_usize (value "max-matches") in
    let* score := parsed parse_f64 (value "score-threshold") in
    let* cutoff := parsed parse_f64 (value "cutoff-threshold") in
    let stop := if present "stop-exact" then StopAtExactMatch else Exhaustive in
    let single := present "single-thread" || present "debug" || present "interactive" in
    let consolidate := negb (present "allow-overlap") in
    let* ngram := match value "max-ngram-order" with Some v => rexpect (parse_small v) | None => Ok 1 end in
    let* freq := parsed_or parse_f32 (present "freq-ranking") (value "freq-ranking") f0 in
    let* order := match value "lm-order" with Some v => rexpect (parse_small v) | None => Ok 1 end in
    let* lm := parsed_or parse_f32 (present "weight-lm") (value "weight-lm") f32_1 in
    let* variant := parsed_or parse_f32 (present "weight-variant-model") (value "weight-variant-model") f32_1 in
    let* context := parsed_or parse_f32 (present "weight-context") (value "weight-context") f32_1 in
    let* rules := parsed_or parse_f32 (present "weight-contextrules") (value "weight-contextrules") f32_1 in
    let* seqs := parsed_or parse_usize (present "max-seq") (value "max-seq") (N.to_nat 250) in
    let unicode := present "unicode-offsets" in
    Ok (ToolParameters (SearchParameters ana edit matches score cutoff stop ngram seqs variant lm rules freq unicode)
      single consolidate order context).

  (** src/bin/analiticcl.rs:1180-1183: whether the program ends with code 2 *)
  Definition cutoff_refused (p : search_parameters) : bool :=
    flt (p_cutoff_threshold p) f1 && negb (feq (p_cutoff_threshold p) f0).
End values.
