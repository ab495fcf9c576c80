(** Reading the alphabet (src/lib.rs:369-412), start-up of the command line
    tool (src/bin/analiticcl.rs:1027-1112, 1186-1188), its [index] command (1190-1205), and
    the conversions to text of the library (src/lib.rs:347-366, 2756-2818).

    A file is the list of its lines.  In the alphabet [None] is a line that is
    not valid UTF-8 (skipped); the other readers are modelled for valid UTF-8.
    Files that cannot be opened are not modelled.  [char::is_whitespace] is the
    parameter [ws], number parsers and sesdiff's script parser are parameters. *)
From Verif Require Import M_Base M_Anahash M_Iter M_Float M_Types M_Model M_Confusable M_ConfList M_Rules M_Text M_Values M_Cli.
From stdpp Require Import options.

(** src/lib.rs:381-394: one field of the alphabet file; the escapes are \s, \t, \n *)
Definition alphabet_field (ws : N -> bool) (x : str) : option str :=
  if bool_decide (x = [92; 115]%N) then Some [32%N]
  else if bool_decide (x = [92; 116]%N) then Some [9%N]
  else if bool_decide (x = [92; 110]%N) then Some [10%N]
  else match trim ws x with [] => None | y => Some y end.

(** src/lib.rs:376-399 *)
Definition alphabet_line (ws : N -> bool) (line : option str) : option (list str) :=
  match line with
  | Some [] | None => None
  | Some l => Some (omap (alphabet_field ws) (split_on 9 l))
  end.

(** src/lib.rs:369-412 [read_alphabet], called once on the empty alphabet by
    [new] (104-129) *)
Definition read_alphabet (ws : N -> bool) (lines : list (option str)) : alphabet := omap (alphabet_line ws) lines.

(** src/lib.rs:104-129 [new] *)
Definition model_new (ws : N -> bool) (lines : list (option str)) (w : weights) : model :=
  new_with_alphabet (read_alphabet ws lines) w.

(** src/lib.rs:347-366 [decompose_anavalue]; [get(0).unwrap()] *)
Definition decompose_anavalue (m : model) (av : N) : res (list str) :=
  let* asz := alphabet_size (m_alphabet m) in
  let* items := rd_collect (iter_fuel av) (ana_iter av asz) in
  rmapM (fun x : deletion * nat =>
    let* line := rexpect (m_alphabet m !! x.1.2) in
    rexpect (line !! 0)) items.

(** src/lib.rs:2768-2775 [match_to_vocabvalue] *)
Definition match_to_vocabvalue (m : model) (x : tmatch) : res (option vocab_value) :=
  let* s := solution x in
  Ok (match s with Some r => m_decoder m !! vr_id r | None => None end).

(** src/lib.rs:2758-2764 [match_to_str] *)
Definition match_to_str (m : model) (x : tmatch) : res str :=
  let* v := match_to_vocabvalue m x in
  Ok (match v with Some v => vv_text v | None => tm_text x end).

(** src/lib.rs:2777-2790 [ngram_to_str] *)
Definition ngram_to_str (m : model) (g : ngram) : res str :=
  let* ws := rmapM (fun id => let* v := rexpect (m_decoder m !! id) in Ok (vv_text v)) (ng_to_vec g) in
  Ok (join [32%N] ws).

(** src/lib.rs:2792-2813 [match_to_ngram]; the inner [None] is the [Err] result *)
Definition match_to_ngram (m : model) (x : tmatch) (boundaries : list tmatch) : res (option ngram) :=
  let* parts := find_match_ngrams (tm_text x) (internal_boundaries x boundaries) 1 0 None in
  Ok (foldl (fun g part =>
    match g, m_encoder m !! tm_text part with
    | Some g, Some id => Some (ng_push g id).2
    | _, _ => None
    end) (Some NEmpty) parts).

(** * The command line tool *)

(** a file given on the command line *)
Record file := File { f_name : str; f_lines : list str }.

(** src/bin/analiticcl.rs:15-19 [Resource] *)
Inductive resource := RLexicon (f : file) | RVariants (f : file) | RErrors (f : file).

(** src/bin/analiticcl.rs:1027-1051: the files with their positions on the
    command line ([values_of] and [indices_of] of clap, given as pairs) *)
Definition gather (lexicons variants errors : list (nat * file)) : list (nat * resource) :=
  map (prod_map id RLexicon) lexicons ++ map (prod_map id RVariants) variants ++ map (prod_map id RErrors) errors.

(** [sort_by_key(|x| x.0)], which is stable *)
Fixpoint insert_key {A} (x : nat * A) (l : list (nat * A)) : list (nat * A) :=
  match l with
  | [] => [x]
  | y :: l' => if (x.1 <=? y.1)%nat then x :: y :: l' else y :: insert_key x l'
  end.
Definition sort_by_key {A} (l : list (nat * A)) : list (nat * A) := foldr insert_key [] l.

(** src/vocab.rs:121-131 with [vocab_type: VocabType::LM] *)
Definition lm_params : vocab_params := with_params_type vocab_params_default VT_LM.

Section startup.
  Context (ws : N -> bool) (parse_f64 : str -> option f64) (parse_f32 : str -> option f32).
  Context (parse_script : str -> option (list edit_instruction)).

  (** src/bin/analiticcl.rs:1056-1068, one resource *)
  Definition load_resource (m : model) (r : resource) : res model :=
    match r with
    | RLexicon f => read_vocabulary m (f_name f) (f_lines f) vocab_params_default
    | RVariants f => read_variants parse_f64 m (f_name f) (f_lines f) (Some vocab_params_default) false
    | RErrors f => read_variants parse_f64 m (f_name f) (f_lines f) (Some vocab_params_default) true
    end.

  (** src/bin/analiticcl.rs:1053-1068 *)
  Definition load_resources (m : model) (lexicons variants errors : list (nat * file)) : res model :=
    rfoldl load_resource m (map snd (sort_by_key (gather lexicons variants errors))).

  (** [.expect(..)] on a reader's result *)
  Definition expect_ok (r : res (model * bool)) : res model :=
    let* (m, ok) := r in if (ok : bool) then Ok m else Panic ExpectNone.

  (** src/bin/analiticcl.rs:997-1112 and 1186-1188: everything that is loaded, up to the
      built model; [order], [order'] as in [build] *)
  Definition startup (order : list (N * node) -> list (N * node)) (order' : list (str * vocab_id) -> list (str * vocab_id))
      (alphabet_lines : list (option str)) (w : weights)
      (lexicons variants errors : list (nat * file)) (lms confusables rules : list file) (early : bool) : res model :=
    let* m := load_resources (model_new ws alphabet_lines w) lexicons variants errors in
    let* m := rfoldl (fun m f => read_vocabulary m (f_name f) (f_lines f) lm_params) m lms in
    let* m := rfoldl (fun m f => expect_ok (read_confusablelist parse_script parse_f64 m (f_lines f))) m confusables in
    let* m := rfoldl (fun m f => expect_ok (read_contextrules ws parse_f32 m (f_lines f))) m rules in
    let* m := build order order' m in
    Ok (if early then with_confusables m (m_confusables m) true else m).
End startup.

(** src/bin/analiticcl.rs:1190-1205: the [index] command; [order] is the order
    in which the hash map is iterated *)
Definition index_line (m : model) (e : N * node) : printed :=
  match nd_instances e.2 with
  | [] => put []
  | ids =>
      put (show e.1) ;;
      pall (map (fun id => pres (rexpect (m_decoder m !! id)) (fun v => put (tab ++ vv_text v))) ids) ;;
      put newline
  end.
Definition index_output (order : list (N * node) -> list (N * node)) (m : model) : printed :=
  pall (map (index_line m) (order (map_to_list (m_index m)))).
