(** Specification for vocabulary, index and variant links. *)
From Coq Require Import Sorted.
From Verif Require Import M_Base M_Anahash M_Iter M_Float M_Types M_Model S_Anahash.
From stdpp Require Import options.

(** Looking up an id by text and a text by id are inverse to each other. *)
Definition lookups_inverse (m : model) : Prop :=
  forall t id, m_encoder m !! t = Some id <-> exists v, m_decoder m !! id = Some v /\ vv_text v = t.

(** Ids keep their text (and ids only get added). *)
Definition ids_kept (m m' : model) : Prop :=
  forall id v, m_decoder m !! id = Some v ->
    exists v', m_decoder m' !! id = Some v' /\ vv_text v' = vv_text v.

(** Calls that change the vocabulary, with their arguments. *)
Inductive call :=
| CAdd (t : str) (f : option N) (p : vocab_params)
| CVariant (ref : vocab_id) (t : str) (score : f64) (f : option N) (p : vocab_params)
| CLink (ref variant : vocab_id) (score : f64)
| CReadVocabulary (name : str) (lines : list str) (p : vocab_params)
| CReadVariants (name : str) (lines : list str) (p : option vocab_params) (transparent : bool)
| CBuild (order : list (N * node) -> list (N * node)) (order' : list (str * vocab_id) -> list (str * vocab_id)).

Definition run_call (parse_f64 : str -> option f64) (m : model) (c : call) : res model :=
  match c with
  | CAdd t f p => rmap fst (add_to_vocabulary m t f p)
  | CVariant r t s f p => rmap fst (add_variant m r t s f p)
  | CLink r v s => Ok (add_variant_by_id m r v s).1
  | CReadVocabulary name lines p => read_vocabulary m name lines p
  | CReadVariants name lines p tr => read_variants parse_f64 m name lines p tr
  | CBuild o o' => build o o' m
  end.
Definition run_calls (parse_f64 : str -> option f64) (m : model) (cs : list call) : res model :=
  rfoldl (run_call parse_f64) m cs.

(** The order in which a hash map is iterated is some permutation of its content. *)
Definition some_order {A} (f : list A -> list A) : Prop := forall l, f l ≡ₚ l.
Definition call_ok (c : call) : Prop :=
  match c with CBuild o o' => some_order o /\ some_order o' | _ => True end.

(** Additions: text, frequency (if given), parameters. *)
Notation addition := (str * option N * vocab_params)%type.
Definition run_adds (m : model) (l : list addition) : res model :=
  rfoldl (fun m a => rmap fst (add_to_vocabulary m (a.1.1) (a.1.2) (a.2))) m l.

Definition special_text (t : str) : Prop := t = bos_text \/ t = eos_text \/ t = unk_text.

(** The additions that concern the text [t], in order. *)
Definition about (t : str) (l : list addition) : list addition := filter (fun a => a.1.1 = t) l.

(** What a policy makes of an old and a new frequency. *)
Definition policy (h : freq_handling) (old new : N) : N :=
  match h with
  | FSum => old + new
  | FMax => N.max old new
  | FMin => N.min old new
  | FReplace => new
  end%N.
Definition given (a : addition) : N := default 1%N a.1.2.
Definition fold_policy (start : N) (l : list addition) : N :=
  foldl (fun x a => policy (vp_freq_handling a.2) x (given a)) start l.

(** [entry m t v]: the vocabulary has the entry [v] for the text [t]. *)
Definition entry (m : model) (t : str) (v : vocab_value) : Prop :=
  exists id, m_encoder m !! t = Some id /\ m_decoder m !! id = Some v.

(** Additions that do not make the code fail: a lexicon number below 32, not
    255 (modulo 256) spaces in the text, and no overflowing sums. *)
Definition add_ok (a : addition) : Prop :=
  (vp_index a.2 < 32)%N /\ Nat.modulo (count_spaces a.1.1) 256 <> 255.

(** Links declared so far: reference, variant, score. *)
Notation link := (vocab_id * vocab_id * f64)%type.
Definition run_links (m : model) (l : list link) : model :=
  foldl (fun m x => (add_variant_by_id m (x.1.1) (x.1.2) (x.2)).1) m l.

(** Of the links to one reference only the first mention of each variant. *)
Fixpoint first_mentions (seen : list vocab_id) (l : list (vocab_id * f64)) : list (vocab_id * f64) :=
  match l with
  | [] => []
  | (v, s) :: l' =>
      if decide (v ∈ seen) then first_mentions seen l' else (v, s) :: first_mentions (v :: seen) l'
  end.

(** variants declared for the reference [r]; references declared for the variant [v] *)
Definition declared_variants (r : vocab_id) (l : list link) : list (vocab_id * f64) :=
  map (fun x => (x.1.2, x.2)) (filter (fun x => x.1.1 = r /\ x.1.2 <> r) l).
Definition declared_references (v : vocab_id) (l : list link) : list (vocab_id * f64) :=
  map (fun x => (x.1.1, x.2)) (filter (fun x => x.1.2 = v /\ x.1.1 <> v) l).

(** The links stored in an entry. *)
Definition stored_variants (v : vocab_value) : list (vocab_id * f64) :=
  omap (fun r => match r with ReferenceFor y s => Some (y, s) | _ => None end) (default [] (vv_variants v)).
Definition stored_references (v : vocab_value) : list (vocab_id * f64) :=
  omap (fun r => match r with VariantOf y s => Some (y, s) | _ => None end) (default [] (vv_variants v)).

(** The three flags of a type value, by bit number (src/vocab.rs:31-48). *)
Definition searchable_bit : N := 0.
Definition lm_bit : N := 1.
Definition transparent_bit : N := 2.
Definition flag (ty bit : N) : bool := N.testbit ty bit.
Definition declared_type (a : addition) : N := vp_vocab_type a.2.

(** [indexed m id v]: entry number [id] is searchable. *)
Definition indexed (m : model) (id : vocab_id) (v : vocab_value) : Prop :=
  m_decoder m !! id = Some v /\ flag (vv_type v) searchable_bit = true.

(** Sum of all frequencies given in a list of additions. *)
Definition total_given (l : list addition) : N := foldr (fun a x => (given a + x)%N) 0%N l.

(** [fields_of sep line fs]: [fs] are the fields of [line], separated by the
    character [sep]. *)
Inductive fields_of (sep : N) : str -> list str -> Prop :=
| fields_last f : sep ∉ f -> fields_of sep f [f]
| fields_next f rest fs : sep ∉ f -> fields_of sep rest fs -> fields_of sep (f ++ sep :: rest) (f :: fs).

(** The decimal value of a text of digits. *)
Definition digit (c : N) : Prop := (48 <= c <= 57)%N.
Fixpoint decimal_value (digits : str) : N :=
  match digits with
  | [] => 0
  | c :: ds => (c - 48) * 10 ^ N.of_nat (length ds) + decimal_value ds
  end%N.
Definition decimal (max : N) (s : str) (n : N) : Prop :=
  exists ds, (s = ds \/ s = 43%N :: ds) /\ ds <> [] /\ Forall digit ds /\ n = decimal_value ds /\ (n <= max)%N.

(** [line_adds p line a]: the line of a vocabulary file stands for the addition [a]. *)
Definition line_adds (p : vocab_params) (line : str) (a : addition) : Prop :=
  exists fs t, fields_of 9 line fs /\ fs !! vp_text_column p = Some t /\
    exists f, a = (t, Some f, p) /\
    match vp_freq_column p with
    | None => f = 1%N
    | Some col =>
        match fs !! col with
        | None => f = 1%N
        | Some s => decimal 4294967295 s f
        end
    end.

(** [selects P l l']: [l'] are the members of [l] with the property [P], in order. *)
Inductive selects {A} (P : A -> Prop) : list A -> list A -> Prop :=
| selects_nil : selects P [] []
| selects_keep x l l' : P x -> selects P l l' -> selects P (x :: l) (x :: l')
| selects_skip x l l' : ~ P x -> selects P l l' -> selects P (x :: l) l'.

(** [entry_words m v ids]: the words of the entry's text (separated by single
    spaces), as vocabulary ids; a word that is not in the vocabulary is the
    unknown word. *)
Definition entry_words (m : model) (v : vocab_value) (ids : list vocab_id) : Prop :=
  exists ws, fields_of 32 (vv_text v) ws /\ ids = map (fun w => default UNK (m_encoder m !! w)) ws.

(** Entries that count for the language model as the n-gram [g], or as an n-gram of [n] words. *)
Definition counts_as (m : model) (g : ngram) (v : vocab_value) : Prop :=
  flag (vv_type v) lm_bit = true /\ entry_words m v (ng_to_vec g).
Definition counts_for_order (m : model) (n : nat) (v : vocab_value) : Prop :=
  flag (vv_type v) lm_bit = true /\ n <= 5 /\ exists ids, entry_words m v ids /\ length ids = n.
Definition sum_frequency (l : list vocab_value) : N := foldr (fun v x => (vv_frequency v + x)%N) 0%N l.

(** All additions use the same frequency policy. *)
Definition one_policy (h : freq_handling) (l : list addition) : Prop :=
  Forall (fun a => vp_freq_handling a.2 = h) l.

(** The recorded number of words is right for every entry. *)
Definition words_counted (m : model) : Prop :=
  forall id v, m_decoder m !! id = Some v -> vv_tokencount v = S (count_spaces (vv_text v)).


(** [index_right m m']: the search index of [m'] describes the vocabulary of
    [m]: under every hash exactly the searchable entries with that hash, in
    increasing order of id, with the right number of characters (modulo
    65536); and for every number of characters the sorted list of the hashes. *)
Record index_right (m m' : model) : Prop := {
  ir_decoder : m_decoder m' = m_decoder m;
  ir_content : forall h id, (exists nd, m_index m' !! h = Some nd /\ id ∈ nd_instances nd) <->
    exists v, indexed m id v /\ anahash (m_alphabet m) (vv_text v) = Ok h;
  ir_node : forall h nd, m_index m' !! h = Some nd -> nd_instances nd <> [] /\ StronglySorted lt (nd_instances nd);
  ir_count : forall h nd id v ks, m_index m' !! h = Some nd -> id ∈ nd_instances nd -> m_decoder m !! id = Some v ->
    reads (m_alphabet m) (vv_text v) ks -> nd_charcount nd = as_u16 (N.of_nat (length ks));
  ir_sorted : forall c, match m_sortedindex m' !! c with
    | None => forall h nd, m_index m' !! h = Some nd -> nd_charcount nd <> c
    | Some keys => keys <> [] /\ StronglySorted N.lt keys /\
        forall h, h ∈ keys <-> exists nd, m_index m' !! h = Some nd /\ nd_charcount nd = c
    end;
}.

(** ** Sensible calls *)
Definition freq_ok (f : option N) : Prop := match f with Some x => (x < 4294967296)%N | None => True end.
(** frequencies are 32-bit numbers and links are made to ids that exist *)
Definition call_sane (m : model) (c : call) : Prop :=
  match c with
  | CAdd _ f _ => freq_ok f
  | CVariant r _ _ f _ => freq_ok f /\ r < length (m_decoder m)
  | CLink r v _ => r < length (m_decoder m) /\ v < length (m_decoder m)
  | CReadVocabulary _ _ _ | CReadVariants _ _ _ _ => True
  | CBuild o o' => some_order o /\ some_order o'
  end.
(** [loads pf m cs m']: the calls [cs] are sensible and lead from [m] to [m']. *)
Inductive loads (parse_f64 : str -> option f64) : model -> list call -> model -> Prop :=
| loads_nil m : loads parse_f64 m [] m
| loads_cons m c m1 cs m2 : call_sane m c -> run_call parse_f64 m c = Ok m1 -> loads parse_f64 m1 cs m2 ->
    loads parse_f64 m (c :: cs) m2.
