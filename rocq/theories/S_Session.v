(** Specification of sessions with the Python bindings: what the calls put into
    the model, and the objects that lookups and searches return. *)
From Coq Require String Ascii.
From Verif Require Import M_Base M_Anahash M_Iter M_Distance M_Float M_Types M_Model M_Confusable M_Search M_Text M_Rules M_Matches M_Cli M_Main.
From Verif Require Import S_Anahash S_Model S_Search S_Lookup S_Confusable S_Rules S_Cli S_Main S_SearchAll S_RuleFile S_Program.
From Verif Require Import M_Python.
Import String.StringSyntax Ascii.AsciiSyntax.
From stdpp Require Import options.

(** * Calls *)
(** a file with a word list: its name, and how its columns are read *)
Inductive word_list : py_call -> str -> vocab_params -> Prop :=
| wl_vocabulary n p : word_list (CVocabulary n p) n p
| wl_lexicon n : word_list (CLexicon n) n (default_params 0 VT_INDEXED)
| wl_lm n : word_list (CLanguageModel n) n (default_params 0 VT_LM).
(** calls that add entries *)
Definition adds_entries (c : py_call) : Prop :=
  match c with CAdd _ _ _ | CVariantList _ _ => True | _ => exists n p, word_list c n p end.
(** calls that name a file with entries *)
Definition names_file (c : py_call) (n : str) : Prop := (exists p, word_list c n p) \/ exists b, c = CVariantList n b.
Definition gives_rules (c : py_call) : Prop := match c with CRules _ | CRule _ _ _ _ => True | _ => False end.
(** the column settings, for the file that is number [i] *)
Definition numbered_file (i : nat) (p : vocab_params) : vocab_params :=
  VocabParams (vp_text_column p) (vp_freq_column p) (vp_freq_handling p) (vp_vocab_type p) (N.of_nat i).

(** The session: what adds entries comes before [build] and before all rules;
    [build] is called once. *)
Record orderly (cs : list py_call) : Prop := {
  od_build : exists before after, cs = before ++ CBuild :: after /\ Forall (fun c => c <> CBuild) before /\
    Forall (fun c => c <> CBuild /\ ~ adds_entries c) after;
  od_rules : forall before c after, cs = before ++ c :: after -> gives_rules c -> Forall (fun d => ~ adds_entries d) after;
  od_numbers : forall t f p, CAdd t f p ∈ cs -> freq_ok f;
  od_files : forall files, selects (fun c => exists n, names_file c n) cs files -> length files <= 256;
}.

Section contents.
  Context (ws : N -> bool) (parse_f64 : str -> option f64) (parse_f32 : str -> option f32) (parse_script : str -> option (list edit_instruction)).
  Context (fs : str -> option (list (option str))).

  (** what a call adds and links, when [i] files were read before; the file it names *)
  Inductive call_says (i : nat) : py_call -> list addition -> list (str * str * f64) -> list str -> Prop :=
  | call_add t f p : call_says i (CAdd t f p) [(t, f, p)] [] []
  | call_words c n p f adds : word_list c n p -> file_there fs n f ->
      Forall2 (line_adds (numbered_file i p)) (filter (fun l => l <> []) (f_lines f)) adds -> call_says i c adds [] [n]
  | call_list n (transparent : bool) f es : file_there fs n f -> list_says parse_f64 (f_lines f) es ->
      call_says i (CVariantList n transparent)
        (concat (map (line_additions (default_params i VT_INDEXED)
          (default_params i (VT_INDEXED + if transparent then VT_TRANSPARENT else 0))) es))
        (concat (map line_links es)) [n]
  | call_other c : ~ adds_entries c -> call_says i c [] [] [].
  Inductive calls_say : nat -> list py_call -> list addition -> list (str * str * f64) -> list str -> Prop :=
  | calls_none i : calls_say i [] [] [] []
  | calls_more i c cs a l ns a' l' ns' : call_says i c a l ns -> calls_say (i + length ns) cs a' l' ns' ->
      calls_say i (c :: cs) (a ++ a') (l ++ l') (ns ++ ns').

  (** the confusables that are read, in order *)
  Inductive confusables_say : list py_call -> list confusable -> Prop :=
  | conf_none : confusables_say [] []
  | conf_file n f ls xs cs ys : file_there fs n f -> selects (fun l => l <> []) (f_lines f) ls ->
      Forall2 (line_confusable parse_script parse_f64) ls xs -> confusables_say cs ys -> confusables_say (CConfusables n :: cs) (xs ++ ys)
  | conf_other c cs ys : (forall n, c <> CConfusables n) -> confusables_say cs ys -> confusables_say (c :: cs) ys.

  (** the rules, from files and given one by one: a pattern, a score, tags and
      ranges; tags without a range go with the whole pattern *)
  Inductive given_says (lexicons : list str) (encoder : gmap str vocab_id) (table : list str) (pat : str) (score : f32) (tags offs : list str)
      : list str -> context_rule -> Prop :=
  | given_rule xs ps table' ns rs : fields_of 59 pat xs -> Forall2 (pattern_says ws lexicons encoder) xs ps ->
      [] ∉ tags -> tags_numbered table tags table' ns -> Forall2 (range_says (length ps)) offs rs ->
      given_says lexicons encoder table pat score tags offs table'
        {| cr_pattern := ps; cr_score := score; cr_tag := ns; cr_tagoffset := rs ++ replicate (length tags - length offs) (0, length ps mod 256) |}.
  Inductive session_rules (lexicons : list str) (encoder : gmap str vocab_id) : list str -> list py_call -> list str -> list context_rule -> Prop :=
  | sr_none table : session_rules lexicons encoder table [] table []
  | sr_file table n f table1 rs cs table' rs' : file_there fs n f -> rules_say ws parse_f32 lexicons encoder table (f_lines f) table1 rs ->
      session_rules lexicons encoder table1 cs table' rs' -> session_rules lexicons encoder table (CRules n :: cs) table' (rs ++ rs')
  | sr_rule table pat score tags offs table1 r cs table' rs' : given_says lexicons encoder table pat score tags offs table1 r ->
      session_rules lexicons encoder table1 cs table' rs' -> session_rules lexicons encoder table (CRule pat score tags offs :: cs) table' (r :: rs')
  | sr_other table c cs table' rs : ~ gives_rules c -> session_rules lexicons encoder table cs table' rs ->
      session_rules lexicons encoder table (c :: cs) table' rs.

  (** The content of the model [m] after the calls [cs] on a new model. *)
  Record session_says (alphabet : str) (w : weights) (cs : list py_call) (m : model) : Prop := {
    sn_alphabet : exists ls, fs alphabet = Some ls /\ alphabet_says ws ls (m_alphabet m);
    sn_weights : m_weights m = w;
    sn_entries : exists a l r L, calls_say 0 cs a l (m_lexicons m) /\
      run_adds (new_with_alphabet (m_alphabet m) (m_weights m)) a = Ok r /\ links_between r l L /\
      m_encoder m = m_encoder r /\ m_decoder m = m_decoder (run_links r L);
    sn_freq : m_have_freq m = true <-> exists c n p f l, c ∈ cs /\ word_list c n p /\ vp_freq_column p <> None /\
      flag (vp_vocab_type p) searchable_bit = true /\ file_there fs n f /\ l ∈ f_lines f /\ l <> [];
    sn_confusables : confusables_say cs (m_confusables m);
    sn_early : m_confusables_before_pruning m = true <-> CEarly ∈ cs;
    sn_rules : session_rules (m_lexicons m) (m_encoder m) [] cs (m_tags m) (m_context_rules m);
  }.

  (** ** Texts *)
  (** [x] is the first addition of the text [t] *)
  Definition first_added (t : str) (a : list addition) (x : addition) : Prop :=
    exists before after, a = before ++ x :: after /\ x.1.1 = t /\ Forall (fun y => y.1.1 <> t) before.
  (** the files with the text [t], in the order in which they are read *)
  Inductive files_with (t : str) : nat -> list py_call -> list str -> Prop :=
  | fw_none i : files_with t i [] []
  | fw_here i c cs a l n ns : call_says i c a l [n] -> (exists x, x ∈ a /\ x.1.1 = t) -> files_with t (S i) cs ns -> files_with t i (c :: cs) (n :: ns)
  | fw_not i c cs a l n ns : call_says i c a l [n] -> (forall x, x ∈ a -> x.1.1 <> t) -> files_with t (S i) cs ns -> files_with t i (c :: cs) ns
  | fw_other i c cs ns : ~ adds_entries c -> files_with t i cs ns -> files_with t i (c :: cs) ns.
  (** the text is in the first column of a file that was read as a lexicon *)
  Definition in_lexicons (t : str) (cs : list py_call) : Prop :=
    exists n f line fields, CLexicon n ∈ cs /\ file_there fs n f /\ line ∈ f_lines f /\ line <> [] /\ fields_of 9 line fields /\ fields !! 0 = Some t.
End contents.

(** * Objects *)
Section objects.
  Context (m : model) (score : variant_result -> f64).
  (** the dictionary for a result *)
  Definition result_object (r : variant_result) (d : pyval) : Prop :=
    exists v via, m_decoder m !! vr_id r = Some v /\
      match vr_via r with
      | None => via = []
      | Some i => exists w, m_decoder m !! i = Some w /\ via = [(name "via", PyStr (vv_text w))]
      end /\
      d = PyDict ([(name "text", PyStr (vv_text v)); (name "score", PyFloat (score r)); (name "dist_score", PyFloat (vr_dist r));
                   (name "freq_score", PyFloat (vr_freq r))] ++ via ++
                  [(name "lexicons", PyList (map PyStr (lexicon_names (m_lexicons m) v)))]).
  (** the list for the results of a lookup *)
  Definition results_object (l : list variant_result) (d : pyval) : Prop := exists ds, Forall2 result_object l ds /\ d = PyList ds.
  (** the dictionary for one of several lookups *)
  Definition input_object (q : str) (l : list variant_result) (d : pyval) : Prop :=
    exists vs, results_object l vs /\ d = PyDict [(name "input", PyStr q); (name "variants", vs)].
  (** the members for the tags of a match *)
  Inductive tags_object (x : tmatch) : list (str * pyval) -> Prop :=
  | to_none : tm_tag x = [] -> tags_object x []
  | to_some ts : tm_tag x <> [] -> Forall2 (fun z t => m_tags m !! N.to_nat (fst z) = Some t) (zip (tm_tag x) (tm_seqnr x)) ts ->
      tags_object x [(name "tag", PyList (map PyStr ts));
                     (name "seqnr", PyList (map (fun z => PyInt (Z.of_nat (snd z))) (zip (tm_tag x) (tm_seqnr x))))].
  (** the dictionary for a match in running text: the selected variant first *)
  Definition match_object (x : tmatch) (d : pyval) : Prop :=
    exists ts rs vs, tags_object x ts /\ selected_first (tm_selected x) (default [] (tm_variants x)) rs /\ results_object rs vs /\
      d = PyDict ([(name "input", PyStr (tm_text x));
                   (name "offset", PyDict [(name "begin", PyInt (Z.of_nat (tm_begin x))); (name "end", PyInt (Z.of_nat (tm_end x)))])] ++
                  ts ++ [(name "variants", vs)]).
End objects.

(** * Answers *)
Section answers.
  Context (lc : N -> bool) (ses : str -> str -> list edit_instruction) (m : model) (p : search_parameters).
  (** find_variants *)
  Definition variants_object (q : str) (d : pyval) : Prop :=
    exists ks l, reads (m_alphabet m) q ks /\ looked_up lc ses m q ks p l /\ results_object m (final_score (p_freq_weight p)) l d.
  (** find_variants_par *)
  Definition inputs_object (qs : list str) (d : pyval) : Prop :=
    exists ds, Forall2 (fun q d => exists ks l, reads (m_alphabet m) q ks /\ looked_up lc ses m q ks p l /\
      input_object m (final_score (p_freq_weight p)) q l d) qs ds /\ d = PyList ds.
  Context (ln32 : f32 -> f32) (ln : f64 -> f64) (ws alpha : N -> bool) (solve : fst_graph -> nat -> list (list nat * f32)).
  (** find_all_matches *)
  Definition matches_object (t : str) (d : pyval) : Prop :=
    exists ms ds, searched lc ses ln32 ln ws alpha solve m p t ms /\ Forall2 (match_object m (final_score (p_freq_weight p))) ms ds /\ d = PyList ds.
End answers.
