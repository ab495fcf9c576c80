(** The command line tool: src/bin/analiticcl.rs:21-637 and 1216-1330 (output,
    reading of input in batches).

    Printing is modelled as text together with the panic that ended it, if any.
    Input is the list of its lines; [None] is a line that is not valid UTF-8
    ([lines()] gives an [Err] for it and goes on with the next line).
    [Display] for [f64] is the parameter [fmt]. *)
From Coq Require String Ascii.
From Verif Require Import M_Base M_Anahash M_Float M_Types M_Model M_Search M_Text.
Import String.StringSyntax Ascii.AsciiSyntax.
From stdpp Require Import options.

(** string literals *)
Definition lit (s : String.string) : str := map Ascii.N_of_ascii (String.list_ascii_of_string s).
Arguments lit s%string_scope.
Definition tab : str := [9%N].
Definition newline : str := [10%N].
Definition quote : N := 34.

(** [Display] for unsigned integers *)
Fixpoint show_from (fuel : nat) (n : N) (acc : str) : str :=
  let acc := (48 + n mod 10)%N :: acc in
  match fuel with
  | O => acc
  | S fuel => if (n <? 10)%N then acc else show_from fuel (n / 10) acc
  end.
Definition show (n : N) : str := show_from (N.to_nat (N.log2 n)) n [].

(** [v.join(sep)] *)
Fixpoint join (sep : str) (l : list str) : str :=
  match l with
  | [] => []
  | [x] => x
  | x :: l' => x ++ sep ++ join sep l'
  end.

(** [s.replace("\"", "\\\"")] *)
Definition escape (s : str) : str := concat (map (fun c => if (c =? quote)%N then [92; quote]%N else [c]) s).

(** what was printed, and the panic that ended it *)
Record printed := Printed { p_out : str; p_stop : option panic }.
Definition put (s : str) : printed := Printed s None.
Definition fail (p : panic) : printed := Printed [] (Some p).
Definition pthen (a b : printed) : printed :=
  match p_stop a with
  | Some _ => a
  | None => Printed (p_out a ++ p_out b) (p_stop b)
  end.
Declare Scope printed_scope.
Notation "a ;; b" := (pthen a b) (at level 100, b at level 200, right associativity) : printed_scope.
Open Scope printed_scope.
Definition pres {A} (x : res A) (f : A -> printed) : printed :=
  match x with Ok a => f a | Panic p => fail p end.
Fixpoint pall (l : list printed) : printed :=
  match l with [] => put [] | a :: l' => a ;; pall l' end.

(** src/bin/analiticcl.rs:60-72, 161-172: the names of the lexicons of an entry *)
Definition lexicons_of (m : model) (v : vocab_value) : res (list str) :=
  let* bs := rmapM (fun il : nat * str => let* b := in_lexicon v (N.of_nat (as_u8 il.1)) in Ok (b, il.2)) (imap pair (m_lexicons m)) in
  Ok (omap (fun bl : bool * str => if bl.1 then Some bl.2 else None) bs).

(** src/bin/analiticcl.rs:34-46, 116-138: the results in the order in which they
    are printed *)
Definition listed (selected : option nat) (variants : list variant_result) : list variant_result :=
  match selected with
  | Some s => match variants !! s with Some r => [r] | None => [] end
  | None => []
  end ++
  omap (fun ir : nat * variant_result =>
    match selected with
    | None => Some ir.2
    | Some s => if negb (s =? ir.1) then Some ir.2 else None
    end) (imap pair variants).

Section output.
  Context (fmt : f64 -> str) (m : model) (output_lexmatch : bool) (freq_weight : f32).

  (** src/bin/analiticcl.rs:50-75 [output_result_as_tsv] *)
  Definition tsv_result (r : variant_result) : printed :=
    pres (rexpect (get_vocab m (vr_id r))) (fun v =>
      put (tab ++ vv_text v ++ tab ++ fmt (vr_score freq_weight r) ++ tab) ;;
      (if output_lexmatch
       then pres (lexicons_of m v) (fun ls => put (tab ++ [quote] ++ join (lit ";") ls ++ [quote]))
       else put [])).

  (** src/bin/analiticcl.rs:21-48 [output_matches_as_tsv] *)
  Definition tsv_match (input : str) (variants : option (list variant_result)) (selected : option nat)
      (offset : option (nat * nat)) : printed :=
    put input ;;
    put (match offset with
         | Some (b, e) => tab ++ show (N.of_nat b) ++ lit ":" ++ show (N.of_nat e)
         | None => []
         end) ;;
    (match variants with
     | Some vs => pall (map tsv_result (listed selected vs))
     | None => put []
     end) ;;
    put newline.

  (** src/bin/analiticcl.rs:147-187 [output_result_as_json] *)
  Definition json_result (r : variant_result) : printed :=
    pres (rexpect (get_vocab m (vr_id r))) (fun v =>
      put (lit "        { ""text"": """ ++ escape (vv_text v) ++ lit """, ""score"": " ++ fmt (vr_score freq_weight r)) ;;
      put (lit ", ""dist_score"": " ++ fmt (vr_dist r)) ;;
      put (lit ", ""freq_score"": " ++ fmt (vr_freq r)) ;;
      (match vr_via r with
       | Some via => pres (rexpect (get_vocab m via)) (fun w => put (lit ", ""via"": """ ++ escape (vv_text w) ++ [quote]))
       | None => put []
       end) ;;
      (if output_lexmatch
       then pres (lexicons_of m v) (fun ls =>
              put (lit ", ""lexicons"": [ " ++ join (lit ", ") (map (fun l => [quote] ++ escape l ++ [quote]) ls) ++ lit " ]"))
       else put []) ;;
      put (lit " }")).

  (** src/bin/analiticcl.rs:115-139: the results, separated by commas *)
  Fixpoint json_results (wroteoutput : bool) (l : list variant_result) : printed :=
    match l with
    | [] => put []
    | r :: l' => put (if wroteoutput then lit "," ++ newline else []) ;; json_result r ;; json_results true l'
    end.

  (** src/bin/analiticcl.rs:95-112: the tags of a match *)
  Fixpoint json_tags (first : bool) (l : list (N * nat)) : printed :=
    match l with
    | [] => put []
    | (t, _) :: l' =>
        put (if first then [] else lit ",") ;;
        pres (rexpect (m_tags m !! N.to_nat t)) (fun name => put ([quote] ++ name ++ [quote])) ;;
        json_tags false l'
    end.
  Fixpoint json_seqnrs (first : bool) (l : list (N * nat)) : printed :=
    match l with
    | [] => put []
    | (_, s) :: l' => put (if first then [] else lit ",") ;; put (show (N.of_nat s)) ;; json_seqnrs false l'
    end.

  (** src/bin/analiticcl.rs:77-145 [output_matches_as_json] *)
  Definition json_match (input : str) (variants : option (list variant_result)) (selected : option nat)
      (offset : option (nat * nat)) (seqnr : nat) (tag : list N) (tag_seqnr : list nat) : printed :=
    put (if 1 <? seqnr then lit "    ," else lit "    ") ;;
    put (lit "{ ""input"": """ ++ escape input ++ [quote]) ;;
    put (match offset with
         | Some (b, e) => lit ", ""begin"": " ++ show (N.of_nat b) ++ lit ", ""end"": " ++ show (N.of_nat e)
         | None => []
         end) ;;
    (match tag with
     | [] => put []
     | _ =>
         put (lit ", ""tag"": [") ;;
         json_tags true (zip tag tag_seqnr) ;;
         put (lit "], ""seqnr"": [ ") ;;
         json_seqnrs true (zip tag tag_seqnr) ;;
         put (lit "]")
     end) ;;
    (match variants with
     | Some vs =>
         put (lit ", ""variants"": [ " ++ newline) ;;
         json_results false (listed selected vs) ;;
         put newline ;;
         put (lit "    ] }" ++ newline)
     | None => put (lit " }" ++ newline)
     end).

  Section query.
    (** the lookup of one string ([find_variants]); the option [--json] *)
    Context (lookup : str -> res (list variant_result)) (json : bool).

    (** src/bin/analiticcl.rs:387-411, 453-475: the output for one line *)
    Definition query_line (seqnr : nat) (input : str) (variants : list variant_result) : printed :=
      if json then json_match input (Some variants) (Some 0) None seqnr [] []
      else tsv_match input (Some variants) (Some 0) None.

    (** src/bin/analiticcl.rs:369-414 [process]; the progress display, on
        another stream, is omitted *)
    Fixpoint process_from (seqnr : nat) (lines : list (option str)) : printed :=
      match lines with
      | [] => put []
      | None :: lines' => process_from seqnr lines'
      | Some input :: lines' =>
          pres (lookup input) (fun variants => query_line (S seqnr) input variants) ;;
          process_from (S seqnr) lines'
      end.
    Definition process (lines : list (option str)) : printed := process_from 0 lines.

    (** src/bin/analiticcl.rs:434-446: read a batch: its lines, the lines left,
        and the flag [eof]; [None] is the [Err] result *)
    Fixpoint read_batch (n : nat) (lines : list (option str)) : option (list str * list (option str) * bool) :=
      match n with
      | O => Some ([], lines, false)
      | S n =>
          match lines with
          | [] => Some ([], [], true)
          | None :: _ => None
          | Some l :: lines' =>
              match read_batch n lines' with
              | Some (b, rest, eof) => Some (l :: b, rest, eof)
              | None => None
              end
          end
      end.
    (** src/bin/analiticcl.rs:453-475: the output for a batch *)
    Fixpoint output_batch (seqnr : nat) (l : list (str * list variant_result)) : printed :=
      match l with
      | [] => put []
      | (input, variants) :: l' => query_line (S seqnr) input variants ;; output_batch (S seqnr) l'
      end.
    (** src/bin/analiticcl.rs:418-482 [process_par], for batches of [n] lines (the
        code has 1000).  The lookups of a batch come before its output; that
        their schedule does not matter is a theorem (M_Par.v).  The caller ends
        with [expect("I/O Error")].  [fuel] bounds the number of batches. *)
    Fixpoint process_par_from (fuel n seqnr : nat) (lines : list (option str)) : printed :=
      match fuel with
      | O => fail OutOfFuel
      | S fuel =>
          match read_batch n lines with
          | None => fail ExpectNone
          | Some (batch, rest, eof) =>
              pres (rmapM (fun l => let* vs := lookup l in Ok (l, vs)) batch) (fun results =>
                output_batch seqnr results ;;
                (if eof then put [] else process_par_from fuel n (seqnr + length batch) rest))
          end
      end.
    Definition process_par (n : nat) (lines : list (option str)) : printed :=
      process_par_from (S (length lines)) n 0 lines.
    (** src/bin/analiticcl.rs:416 *)
    Definition MAX_BATCHSIZE : N := 1000.
  End query.

  Section searching.
    (** the search in a text ([find_all_matches]); the options *)
    Context (search : str -> res (list tmatch)) (json newline_as_space per_line : bool).

    (** src/bin/analiticcl.rs:578-601: read a text: the lines [i], [i + 1], .. are
        added to [batch]; [n] lines at most *)
    Fixpoint read_text (n i : nat) (batch : str) (lines : list (option str)) : str * list (option str) * bool :=
      match n with
      | O => (batch, lines, false)
      | S n =>
          match lines with
          | Some input :: lines' =>
              let batch := batch ++ (if 0 <? i then [if newline_as_space then 32%N else 10%N] else []) ++ input in
              if bool_decide (input = []) || per_line then (batch, lines', false)
              else if bool_decide (batch = []) then (batch, lines', false)
              else read_text n (S i) batch lines'
          | None :: lines' => (batch, lines', true)
          | [] => (batch, [], true)
          end
      end.
    (** src/bin/analiticcl.rs:577-608: the texts that are searched *)
    Fixpoint texts_from (fuel n : nat) (lines : list (option str)) : option (list str) :=
      match fuel with
      | O => None
      | S fuel =>
          let '(batch, rest, eof) := read_text n 0 [] lines in
          if eof then Some [batch]
          else match texts_from fuel n rest with Some ts => Some (batch :: ts) | None => None end
      end.
    Definition texts (n : nat) (lines : list (option str)) : option (list str) := texts_from (S (length lines)) n lines.

    (** src/bin/analiticcl.rs:607-632: the output for one match *)
    Definition search_match (seqnr : nat) (x : tmatch) : printed :=
      if json then json_match (tm_text x) (tm_variants x) (tm_selected x) (Some (tm_begin x, tm_end x)) seqnr (tm_tag x) (tm_seqnr x)
      else tsv_match (tm_text x) (tm_variants x) (tm_selected x) (Some (tm_begin x, tm_end x)).
    Fixpoint search_matches (seqnr : nat) (l : list tmatch) : printed :=
      match l with
      | [] => put []
      | x :: l' => search_match (S seqnr) x ;; search_matches (S seqnr) l'
      end.
    (** src/bin/analiticcl.rs:561-637 [process_search], the texts having been read *)
    Fixpoint process_texts (seqnr : nat) (ts : list str) : printed :=
      match ts with
      | [] => put []
      | t :: ts' =>
          pres (search t) (fun ms =>
            put (if (0 <? seqnr) && negb (bool_decide (ms = [])) then newline else []) ;;
            search_matches seqnr ms ;;
            process_texts (seqnr + length ms) ts')
      end.
    Definition process_search (n : nat) (lines : list (option str)) : printed :=
      pres (match texts n lines with Some ts => Ok ts | None => Panic OutOfFuel end) (process_texts 0).
    (** src/bin/analiticcl.rs:559 *)
    Definition MAX_BATCHSIZE_SEARCH : nat := 100.
  End searching.

  (** src/bin/analiticcl.rs:1216-1328: the whole output for a number of files *)
  Definition whole_output (json : bool) (files : list printed) : printed :=
    put (if json then lit "[" ++ newline else []) ;; pall files ;; put (if json then lit "]" ++ newline else []).
End output.

(** * Output of learned variants *)
Section learned.
  Context (fmt : f64 -> str) (m : model).

  (** src/bin/analiticcl.rs:199-205 and 281-287: the lexicons in whose files a
      variant is written with [--multi-output]; TSV compares with [i << i] *)
  Definition multi_tsv (lexindex : N) : list nat :=
    List.filter (fun i => (N.land lexindex (N.shiftl 1 (N.of_nat i)) =? N.shiftl (N.of_nat i) (N.of_nat i))%N)
      (seq 0 (length (m_lexicons m))).
  Definition multi_json (lexindex : N) : list nat :=
    List.filter (fun i => (N.land lexindex (N.shiftl 1 (N.of_nat i)) =? N.shiftl 1 (N.of_nat i))%N)
      (seq 0 (length (m_lexicons m))).

  (** the links of an entry to its variants: [if let VariantReference::ReferenceFor(..)] *)
  Definition references (v : vocab_value) : list (vocab_id * f64) :=
    match vv_variants v with
    | Some l => omap (fun r => match r with ReferenceFor id s => Some (id, s) | VariantOf _ _ => None end) l
    | None => []
    end.

  (** src/bin/analiticcl.rs:232-266 [output_weighted_variants_as_tsv] without
      [--multi-output]; 227-229 *)
  Definition learned_tsv_entry (v : vocab_value) : printed :=
    match references v with
    | [] => put []
    | rs =>
        put (vv_text v) ;;
        pall (map (fun r : vocab_id * f64 =>
          pres (rexpect (m_decoder m !! r.1)) (fun w => put (tab ++ vv_text w ++ tab ++ fmt r.2))) rs) ;;
        put newline
    end.
  Definition learned_tsv : printed := pall (map learned_tsv_entry (m_decoder m)).

  (** src/bin/analiticcl.rs:325-366 [output_weighted_variants_as_json] without
      [--multi-output]; 314-321 *)
  Definition learned_json_entry (v : vocab_value) : printed :=
    match references v with
    | [] => put []
    | rs =>
        put (lit "    """ ++ escape (vv_text v) ++ lit """: [ " ++ newline) ;;
        pall (map (fun r : vocab_id * f64 =>
          pres (rexpect (m_decoder m !! r.1)) (fun w =>
            put (lit "        { ""text"": """ ++ escape (vv_text w) ++ lit """, ""score"": " ++ fmt r.2 ++
                 lit ", ""freq"": " ++ show (vv_frequency w) ++ lit " }, " ++ newline))) rs) ;;
        put (lit "    ]" ++ newline)
    end.
  Definition learned_json : printed :=
    put (lit "{" ++ newline) ;; pall (map learned_json_entry (m_decoder m)) ;; put (lit "}" ++ newline).
End learned.

(** src/bin/analiticcl.rs:1007-1024 [testinput]: [true] is "OK".
    [alphabet_size() - 1] on u8 *)
Definition test_input (A : alphabet) (input : str) : res bool :=
  let* av := anahash A input in
  let* _ := normalize_to_alphabet A input in
  let* n := alphabet_size A in
  let* c := character (n - 1) in
  Ok (negb (ana_contains av c)).
