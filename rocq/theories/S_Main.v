(** Specification for alphabet files, variant lists, start-up, the [index]
    command and conversions to text. *)
From Verif Require Import M_Base M_Anahash M_Float M_Types M_Model M_Text M_Cli M_Main S_Anahash S_Model S_Rules.
From stdpp Require Import options.

(** * Alphabet files *)
Section alphabet.
  Context (ws : N -> bool).
  Definition blank (x : str) : Prop := Forall (fun c => ws c = true) x.
  (** backslash-s, -t and -n are a space, a tab and a line feed *)
  Definition escapes : list (str * str) := [([92; 115], [32]); ([92; 116], [9]); ([92; 110], [10])]%N.
  (** a field: one of the escapes; or text with blanks around it; or blank *)
  Inductive field_says (x : str) : option str -> Prop :=
  | field_escape f : (x, f) ∈ escapes -> field_says x (Some f)
  | field_text l f r : x ∉ map fst escapes -> x = l ++ f ++ r -> blank l -> blank r -> f <> [] -> trimmed ws f ->
      field_says x (Some f)
  | field_blank : x ∉ map fst escapes -> blank x -> field_says x None.
  Inductive forms_say : list str -> list str -> Prop :=
  | forms_nil : forms_say [] []
  | forms_keep x f xs fs : field_says x (Some f) -> forms_say xs fs -> forms_say (x :: xs) (f :: fs)
  | forms_skip x xs fs : field_says x None -> forms_say xs fs -> forms_say (x :: xs) fs.
  (** every line that is not empty is one character of the alphabet *)
  Inductive alphabet_says : list (option str) -> alphabet -> Prop :=
  | alphabet_nil : alphabet_says [] []
  | alphabet_unreadable ls A : alphabet_says ls A -> alphabet_says (None :: ls) A
  | alphabet_empty ls A : alphabet_says ls A -> alphabet_says (Some [] :: ls) A
  | alphabet_char l xs fs ls A : l <> [] -> fields_of 9 l xs -> forms_say xs fs -> alphabet_says ls A ->
      alphabet_says (Some l :: ls) (fs :: A).
  (** forms that can be written in a file *)
  Definition writable (f : str) : Prop :=
    f ∈ map snd escapes \/ (f <> [] /\ trimmed ws f /\ 9%N ∉ f /\ 10%N ∉ f).
End alphabet.

(** * Variant lists *)
(** the content of one line: reference, its frequency, and the variants with
    score and frequency *)
Record list_line := ListLine { ll_reference : str; ll_freq : option N; ll_variants : list (str * f64 * option N) }.
Section variant_lists.
  Context (parse_f64 : str -> option f64).
  (** groups of three columns: variant, score, frequency (rest ignored) *)
  Inductive groups3 : list str -> list (str * f64 * option N) -> Prop :=
  | groups3_end fs : length fs < 3 -> groups3 fs []
  | groups3_next v s f x n fs gs : parse_f64 s = Some x -> decimal 4294967295 f n -> groups3 fs gs ->
      groups3 (v :: s :: f :: fs) ((v, x, Some n) :: gs).
  (** groups of two columns: variant, score (rest ignored) *)
  Inductive groups2 : list str -> list (str * f64 * option N) -> Prop :=
  | groups2_end fs : length fs < 2 -> groups2 fs []
  | groups2_next v s x fs gs : parse_f64 s = Some x -> groups2 fs gs -> groups2 (v :: s :: fs) ((v, x, None) :: gs).
  Inductive line_says : bool -> str -> list_line -> Prop :=
  | line_freq l r f n fs gs : fields_of 9 l (r :: f :: fs) -> decimal 4294967295 f n -> groups3 fs gs ->
      line_says true l (ListLine r (Some n) gs)
  | line_nofreq l r fs gs : fields_of 9 l (r :: fs) -> groups2 fs gs -> line_says false l (ListLine r None gs).
  (** Which format?  The first line that does not have 2, 5, 8, ... columns
      says: no frequencies.  The first line that has, and has a number in the
      second column, says: with frequencies. *)
  Definition columns25 (l : str) (second : str) : Prop :=
    exists r fs k, fields_of 9 l (r :: second :: fs) /\ length fs = 3 * k.
  Definition undecided (l : str) : Prop := exists s, columns25 l s /\ forall n, ~ decimal 4294967295 s n.
  Definition decides (b : bool) (l : str) : Prop :=
    if b then exists s n, columns25 l s /\ decimal 4294967295 s n
    else exists r s fs, fields_of 9 l (r :: s :: fs) /\ Nat.modulo (length fs) 3 <> 0.
  Definition list_says (lines : list str) (es : list list_line) : Prop :=
    exists pre post b es1 es2, filter (fun l => l <> []) lines = pre ++ post /\ es = es1 ++ es2 /\
      Forall undecided pre /\ Forall2 (line_says false) pre es1 /\
      (forall l rest, post = l :: rest -> decides b l) /\ Forall2 (line_says b) post es2.
End variant_lists.
(** what a line adds to the vocabulary, and the links it declares *)
Definition line_additions (p tp : vocab_params) (e : list_line) : list addition :=
  (ll_reference e, ll_freq e, p) :: map (fun x => (x.1.1, x.2, tp)) (ll_variants e).
Definition line_links (e : list_line) : list (str * str * f64) :=
  map (fun x => (ll_reference e, x.1.1, x.1.2)) (ll_variants e).
(** the same links between entries *)
Definition links_between (m : model) (ls : list (str * str * f64)) (l : list link) : Prop :=
  Forall2 (fun x y => m_encoder m !! x.1.1 = Some y.1.1 /\ m_encoder m !! x.1.2 = Some y.1.2 /\ x.2 = y.2) ls l.

(** * Files *)
(** The files that are loaded: those given as lexicons, variant lists and error
    lists, and those given as language models. *)
Inductive source := Given (r : resource) | Lm (f : file).
Definition source_name (s : source) : str :=
  match s with Given (RLexicon f) | Given (RVariants f) | Given (RErrors f) | Lm f => f_name f end.
Section files.
  Context (parse_f64 : str -> option f64).
  Definition default_params (i : nat) (ty : N) : vocab_params := VocabParams 0 (Some 1) FMax ty (N.of_nat i).
  (** what file number [i] adds and links *)
  Inductive source_says (i : nat) : source -> list addition -> list (str * str * f64) -> Prop :=
  | says_lexicon f adds :
      Forall2 (line_adds (default_params i VT_INDEXED)) (filter (fun l => l <> []) (f_lines f)) adds ->
      source_says i (Given (RLexicon f)) adds []
  | says_lm f adds :
      Forall2 (line_adds (default_params i VT_LM)) (filter (fun l => l <> []) (f_lines f)) adds ->
      source_says i (Lm f) adds []
  | says_variants f es : list_says parse_f64 (f_lines f) es ->
      source_says i (Given (RVariants f))
        (concat (map (line_additions (default_params i VT_INDEXED) (default_params i VT_INDEXED)) es))
        (concat (map line_links es))
  | says_errors f es : list_says parse_f64 (f_lines f) es ->
      source_says i (Given (RErrors f))
        (concat (map (line_additions (default_params i VT_INDEXED) (default_params i (VT_INDEXED + VT_TRANSPARENT))) es))
        (concat (map line_links es)).
  Inductive sources_say : nat -> list source -> list addition -> list (str * str * f64) -> Prop :=
  | sources_nil i : sources_say i [] [] []
  | sources_cons i r rs a l a' l' : source_says i r a l -> sources_say (S i) rs a' l' ->
      sources_say i (r :: rs) (a ++ a') (l ++ l').
  (** the text [t] is mentioned in a file: in the first column, or as a variant *)
  Definition mentions (s : source) (t : str) : Prop :=
    match s with
    | Given (RLexicon f) | Lm f => exists l fs, l ∈ f_lines f /\ l <> [] /\ fields_of 9 l (t :: fs)
    | Given (RVariants f) | Given (RErrors f) =>
        exists es e, list_says parse_f64 (f_lines f) es /\ e ∈ es /\
          (t = ll_reference e \/ t ∈ map (fun x => x.1.1) (ll_variants e))
    end.
End files.

(** A command line: options in order, with positions; and the three lists that
    the argument parser gives of it. *)
Notation numbered := (list (nat * resource)).
Definition positions_increase (l : numbered) : Prop := Sorted.StronglySorted lt (map fst l).
Definition lexicon_options (l : numbered) : list (nat * file) :=
  omap (fun x => match x.2 with RLexicon f => Some (x.1, f) | _ => None end) l.
Definition variants_options (l : numbered) : list (nat * file) :=
  omap (fun x => match x.2 with RVariants f => Some (x.1, f) | _ => None end) l.
Definition errors_options (l : numbered) : list (nat * file) :=
  omap (fun x => match x.2 with RErrors f => Some (x.1, f) | _ => None end) l.

(** * The index command *)
(** a printed line: a number and the entries behind it *)
Definition index_text (g : N * list vocab_value) : str :=
  show g.1 ++ concat (map (fun v => 9%N :: vv_text v) g.2) ++ [10%N].
(** the lines group the searchable entries by the characters they consist of *)
Record index_listing (m : model) (gs : list (N * list vocab_value)) : Prop := {
  il_entries : exists es, selects (fun v => flag (vv_type v) searchable_bit = true) (m_decoder m) es /\ concat (map snd gs) ≡ₚ es;
  il_line : forall g, g ∈ gs -> g.2 <> [] /\ g.2 `sublist_of` m_decoder m;
  il_anagrams : forall i j g g' v v' ks ks', gs !! i = Some g -> gs !! j = Some g' -> v ∈ g.2 -> v' ∈ g'.2 ->
    reads (m_alphabet m) (vv_text v) ks -> reads (m_alphabet m) (vv_text v') ks' -> (i = j <-> ks ≡ₚ ks');
  il_number : forall g v ks, g ∈ gs -> v ∈ g.2 -> reads (m_alphabet m) (vv_text v) ks -> bag_hash ks = Ok g.1;
}.

(** * Conversions *)
(** words with single spaces between them *)
Fixpoint spaced (ws : list str) : str := match ws with [] => [] | [w] => w | w :: ws => w ++ 32%N :: spaced ws end.
(** boundaries strictly inside a match *)
Definition inner (x b : tmatch) : Prop := tm_begin x < tm_begin b /\ tm_end b < tm_end x.
