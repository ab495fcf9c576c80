(** Model of the vocabulary and index part of src/lib.rs and of src/vocab.rs,
    src/index.rs.  Fields of the model record that an operation does not touch
    are copied. *)
From stdpp Require Import sorting.
From Verif Require Import M_Base M_Anahash M_Iter M_Float M_Types.
From stdpp Require Import options.

(** record updates *)
Definition with_vocab (m : model) (dec : list vocab_value) (enc : gmap str vocab_id) : model :=
  {| m_alphabet := m_alphabet m; m_decoder := dec; m_encoder := enc; m_index := m_index m;
     m_sortedindex := m_sortedindex m; m_ngrams := m_ngrams m; m_freq_sum := m_freq_sum m;
     m_have_freq := m_have_freq m; m_have_lm := m_have_lm m; m_context_rules := m_context_rules m;
     m_tags := m_tags m; m_weights := m_weights m; m_lexicons := m_lexicons m;
     m_confusables := m_confusables m; m_confusables_before_pruning := m_confusables_before_pruning m |}.
Definition with_index (m : model) (ix : gmap N node) (six : gmap N (list N)) : model :=
  {| m_alphabet := m_alphabet m; m_decoder := m_decoder m; m_encoder := m_encoder m; m_index := ix;
     m_sortedindex := six; m_ngrams := m_ngrams m; m_freq_sum := m_freq_sum m;
     m_have_freq := m_have_freq m; m_have_lm := m_have_lm m; m_context_rules := m_context_rules m;
     m_tags := m_tags m; m_weights := m_weights m; m_lexicons := m_lexicons m;
     m_confusables := m_confusables m; m_confusables_before_pruning := m_confusables_before_pruning m |}.
Definition with_lm (m : model) (ng : gmap ngram N) (fs : list N) (have : bool) : model :=
  {| m_alphabet := m_alphabet m; m_decoder := m_decoder m; m_encoder := m_encoder m;
     m_index := m_index m; m_sortedindex := m_sortedindex m; m_ngrams := ng; m_freq_sum := fs;
     m_have_freq := m_have_freq m; m_have_lm := have; m_context_rules := m_context_rules m;
     m_tags := m_tags m; m_weights := m_weights m; m_lexicons := m_lexicons m;
     m_confusables := m_confusables m; m_confusables_before_pruning := m_confusables_before_pruning m |}.
Definition with_lexicons (m : model) (lex : list str) (have_freq : bool) : model :=
  {| m_alphabet := m_alphabet m; m_decoder := m_decoder m; m_encoder := m_encoder m;
     m_index := m_index m; m_sortedindex := m_sortedindex m; m_ngrams := m_ngrams m;
     m_freq_sum := m_freq_sum m; m_have_freq := have_freq; m_have_lm := m_have_lm m;
     m_context_rules := m_context_rules m; m_tags := m_tags m; m_weights := m_weights m;
     m_lexicons := lex; m_confusables := m_confusables m;
     m_confusables_before_pruning := m_confusables_before_pruning m |}.
Definition with_confusables (m : model) (cs : list confusable) (early : bool) : model :=
  {| m_alphabet := m_alphabet m; m_decoder := m_decoder m; m_encoder := m_encoder m;
     m_index := m_index m; m_sortedindex := m_sortedindex m; m_ngrams := m_ngrams m;
     m_freq_sum := m_freq_sum m; m_have_freq := m_have_freq m; m_have_lm := m_have_lm m;
     m_context_rules := m_context_rules m; m_tags := m_tags m; m_weights := m_weights m;
     m_lexicons := m_lexicons m; m_confusables := cs; m_confusables_before_pruning := early |}.
Definition with_rules (m : model) (rules : list context_rule) (tags : list str) : model :=
  {| m_alphabet := m_alphabet m; m_decoder := m_decoder m; m_encoder := m_encoder m;
     m_index := m_index m; m_sortedindex := m_sortedindex m; m_ngrams := m_ngrams m;
     m_freq_sum := m_freq_sum m; m_have_freq := m_have_freq m; m_have_lm := m_have_lm m;
     m_context_rules := rules; m_tags := tags; m_weights := m_weights m;
     m_lexicons := m_lexicons m; m_confusables := m_confusables m;
     m_confusables_before_pruning := m_confusables_before_pruning m |}.

(** src/vocab.rs:150-181 [init_vocab] *)
Definition special (text : str) : vocab_value :=
  {| vv_text := text; vv_norm := []; vv_frequency := 0; vv_tokencount := 1; vv_lexindex := 0;
     vv_variants := None; vv_type := VT_NONE |}.
Definition init_decoder : list vocab_value := [special bos_text; special eos_text; special unk_text].
Definition init_encoder : gmap str vocab_id :=
  <[unk_text := UNK]> (<[eos_text := EOS]> (<[bos_text := BOS]> ∅)).

(** src/lib.rs:132-157 [new_with_alphabet] ([new], 104-130, differs only in
    reading the alphabet from a file) *)
Definition new_with_alphabet (A : alphabet) (w : weights) : model :=
  {| m_alphabet := A; m_decoder := init_decoder; m_encoder := init_encoder; m_index := ∅;
     m_sortedindex := ∅; m_ngrams := ∅; m_freq_sum := [0%N]; m_have_freq := false; m_have_lm := false;
     m_context_rules := []; m_tags := []; m_weights := w; m_lexicons := []; m_confusables := [];
     m_confusables_before_pruning := false |}.

(** [a + b] on [u32] *)
Definition u32_add (a b : N) : res N :=
  if (a + b <? 4294967296)%N then Ok (a + b)%N else Panic Overflow.

(** src/lib.rs:916-934: the frequency of an existing item *)
Definition update_frequency (h : freq_handling) (old new : N) : res N :=
  match h with
  | FSum => u32_add old new
  | FMax => Ok (if (old <? new)%N then new else old)
  | FMin => Ok (if (new <? old)%N then new else old)
  | FReplace => Ok new
  end.

(** src/lib.rs:935-942: the type of an existing item.  [^=] on a type that has
    the flag removes it. *)
Definition update_type (id : vocab_id) (old given : N) : N :=
  if (id =? BOS)%nat || (id =? EOS)%nat || (id =? UNK)%nat then VT_LM
  else if vt_check old VT_TRANSPARENT && negb (vt_check given VT_TRANSPARENT)
  then N.lxor old VT_TRANSPARENT
  else old.

(** src/lib.rs:911-950 (existing item) *)
Definition update_item (id : vocab_id) (item : vocab_value) (frequency : N) (p : vocab_params)
    : res vocab_value :=
  let* f := update_frequency (vp_freq_handling p) (vv_frequency item) frequency in
  let* bit := shl1 (vp_index p) in
  Ok {| vv_text := vv_text item; vv_norm := vv_norm item; vv_frequency := f;
        vv_tokencount := vv_tokencount item; vv_lexindex := N.lor (vv_lexindex item) bit;
        vv_variants := vv_variants item; vv_type := update_type id (vv_type item) (vp_vocab_type p) |}.

(** src/lib.rs:951-967 (new item) *)
Definition new_item (A : alphabet) (text : str) (frequency : N) (p : vocab_params) : res vocab_value :=
  let* norm := normalize_to_alphabet A text in
  let* tokencount := u8_succ (as_u8 (count_spaces text)) in
  let* bit := shl1 (vp_index p) in
  Ok {| vv_text := text; vv_norm := norm; vv_frequency := frequency; vv_tokencount := tokencount;
        vv_lexindex := bit; vv_variants := None; vv_type := vp_vocab_type p |}.

(** src/lib.rs:900-970 [add_to_vocabulary] *)
Definition add_to_vocabulary (m : model) (text : str) (frequency : option N) (p : vocab_params)
    : res (model * vocab_id) :=
  let frequency := default 1%N frequency in
  match m_encoder m !! text with
  | Some id =>
      let* item := rexpect (m_decoder m !! id) in
      let* item' := update_item id item frequency p in
      Ok (with_vocab m (<[id := item']> (m_decoder m)) (m_encoder m), id)
  | None =>
      let id := length (m_decoder m) in
      let* item := new_item (m_alphabet m) text frequency p in
      Ok (with_vocab m (m_decoder m ++ [item]) (<[text := id]> (m_encoder m)), id)
  end.

Definition with_variants (v : vocab_value) (vs : option (list variant_ref)) : vocab_value :=
  {| vv_text := vv_text v; vv_norm := vv_norm v; vv_frequency := vv_frequency v;
     vv_tokencount := vv_tokencount v; vv_lexindex := vv_lexindex v; vv_variants := vs;
     vv_type := vv_type v |}.

Definition is_reference_for (id : vocab_id) (x : variant_ref) : bool :=
  match x with ReferenceFor y _ => (id =? y)%nat | _ => false end.
Definition is_variant_of (id : vocab_id) (x : variant_ref) : bool :=
  match x with VariantOf y _ => (id =? y)%nat | _ => false end.

(** src/lib.rs:484-491, 499-506: add a link unless one exists *)
Definition push_link (present : variant_ref -> bool) (r : variant_ref) (vs : option (list variant_ref))
    : option (list variant_ref) :=
  match vs with
  | None => Some [r]
  | Some l => if existsb present l then Some l else Some (l ++ [r])
  end.

(** [if let Some(vocabvalue) = self.decoder.get_mut(id)] *)
Definition update_decoder (dec : list vocab_value) (id : vocab_id) (f : vocab_value -> vocab_value)
    : list vocab_value :=
  match dec !! id with Some v => <[id := f v]> dec | None => dec end.

(** src/lib.rs:478-516 [add_variant_by_id].  The test in the second link
    compares [variantid] (not [ref_id]) as the code does (line 502). *)
Definition add_variant_by_id (m : model) (ref_id variantid : vocab_id) (score : f64) : model * bool :=
  if negb (variantid =? ref_id)%nat then
    let dec := update_decoder (m_decoder m) ref_id (fun v =>
      with_variants v (push_link (is_reference_for variantid) (ReferenceFor variantid score) (vv_variants v))) in
    let dec := update_decoder dec variantid (fun v =>
      with_variants v (push_link (is_variant_of variantid) (VariantOf ref_id score) (vv_variants v))) in
    (with_vocab m dec (m_encoder m), true)
  else (m, false).

(** src/lib.rs:460-470 [add_variant] *)
Definition add_variant (m : model) (ref_id : vocab_id) (variant : str) (score : f64)
    (freq : option N) (p : vocab_params) : res (model * bool) :=
  let* r := add_to_vocabulary m variant freq p in
  Ok (add_variant_by_id r.1 ref_id r.2 score).

(** [s.split(sep)] for a one-character separator *)
Fixpoint split_on (sep : N) (s : str) : list str :=
  match s with
  | [] => [[]]
  | c :: s' =>
      if (c =? sep)%N then [] :: split_on sep s'
      else match split_on sep s' with
           | [] => [[c]]
           | w :: ws => (c :: w) :: ws
           end
  end.

(** [parse::<u32>] / [parse::<u8>]: an optional plus sign, then at least one
    decimal digit, value at most [max]. *)
Fixpoint parse_digits (s : str) (acc : N) : option N :=
  match s with
  | [] => Some acc
  | c :: s' => if (48 <=? c)%N && (c <=? 57)%N then parse_digits s' (acc * 10 + (c - 48))%N else None
  end.
Definition parse_uint (max : N) (s : str) : option N :=
  let s := match s with 43%N :: s' => s' | _ => s end in
  match s with
  | [] => None
  | _ => match parse_digits s 0%N with
         | Some n => if (n <=? max)%N then Some n else None
         | None => None
         end
  end.
Definition parse_u32 : str -> option N := parse_uint 4294967295.
Definition parse_u8 : str -> option N := parse_uint 255.

Definition with_params_index (p : vocab_params) (i : N) : vocab_params :=
  {| vp_text_column := vp_text_column p; vp_freq_column := vp_freq_column p;
     vp_freq_handling := vp_freq_handling p; vp_vocab_type := vp_vocab_type p; vp_index := i |}.
Definition with_params_type (p : vocab_params) (t : N) : vocab_params :=
  {| vp_text_column := vp_text_column p; vp_freq_column := vp_freq_column p;
     vp_freq_handling := vp_freq_handling p; vp_vocab_type := t; vp_index := vp_index p |}.

(** src/lib.rs:537-556: one line of a vocabulary file *)
Definition read_vocabulary_line (p : vocab_params) (m : model) (line : str) : res model :=
  match line with
  | [] => Ok m
  | _ =>
    let fields := split_on 9 line in
    let* text := rexpect (fields !! vp_text_column p) in
    let* mf :=
      match vp_freq_column p with
      | Some col =>
          let m := if vt_check (vp_vocab_type p) VT_INDEXED
                   then with_lexicons m (m_lexicons m) true else m in
          let* f := rexpect (parse_u32 (default [49%N] (fields !! col))) in
          Ok (m, f)
      | None => Ok (m, 1%N)
      end in
    let* r := add_to_vocabulary mf.1 text (Some mf.2) p in
    Ok r.1
  end.

(** src/lib.rs:519-568 [read_vocabulary]; the file is given as its lines *)
Definition read_vocabulary (m : model) (filename : str) (lines : list str) (p : vocab_params) : res model :=
  let p := with_params_index p (N.of_nat (as_u8 (length (m_lexicons m)))) in
  let* m := rfoldl (read_vocabulary_line p) m lines in
  Ok (with_lexicons m (m_lexicons m ++ [filename]) (m_have_freq m)).

(** Model of [read_variants], src/lib.rs:777-898.  [parse_f64] stands for
    [str::parse::<f64>]. *)
Section read_variants.
  Context (parse_f64 : str -> option f64).

  (** src/lib.rs:843-862: groups of variant, score and frequency *)
  Fixpoint read_variants_freq (m : model) (ref_id : vocab_id) (p : vocab_params) (fields : list str)
      : res model :=
    match fields with
    | variant :: score :: freq :: rest =>
        let* score := rexpect (parse_f64 score) in
        let* freq := rexpect (parse_u32 freq) in
        let* r := add_variant m ref_id variant score (Some freq) p in
        read_variants_freq r.1 ref_id p rest
    | _ => Ok m
    end.

  (** src/lib.rs:864-881: groups of variant and score *)
  Fixpoint read_variants_nofreq (m : model) (ref_id : vocab_id) (p : vocab_params) (fields : list str)
      : res model :=
    match fields with
    | variant :: score :: rest =>
        let* score := rexpect (parse_f64 score) in
        let* r := add_variant m ref_id variant score None p in
        read_variants_nofreq r.1 ref_id p rest
    | _ => Ok m
    end.

  (** src/lib.rs:815-842: has the file frequencies (the state [has_freq]), and
      the frequency of the reference on this line *)
  Definition detect_freq (has_freq : option bool) (fields : list str) : res (option bool * option N) :=
    match has_freq with
    | None =>
        if (length fields <? 2)%nat then Panic Overflow
        else if (Nat.modulo (length fields - 2) 3 =? 0)%nat then
          let* freq := rexpect (fields !! 1) in
          match parse_u32 freq with
          | Some f => Ok (Some true, Some f)
          | None => Ok (None, None)
          end
        else Ok (Some false, None)
    | Some true =>
        let* freq := rexpect (fields !! 1) in
        let* f := rexpect (parse_u32 freq) in
        Ok (has_freq, Some f)
    | Some false => Ok (has_freq, None)
    end.

  Definition read_variants_line (p tp : vocab_params) (st : model * option bool) (line : str)
      : res (model * option bool) :=
    match line with
    | [] => Ok st
    | _ =>
      let fields := split_on 9 line in
      let* reference := rexpect (fields !! 0) in
      let* hf := detect_freq st.2 fields in
      let* r := add_to_vocabulary st.1 reference hf.2 p in
      let* m :=
        match hf.1 with
        | Some true => read_variants_freq r.1 r.2 tp (drop 2 fields)
        | _ => read_variants_nofreq r.1 r.2 tp (drop 1 fields)
        end in
      Ok (m, hf.1)
    end.

  (** src/lib.rs:777-898 *)
  Definition read_variants (m : model) (filename : str) (lines : list str) (params : option vocab_params)
      (transparent : bool) : res model :=
    let p := with_params_index (default vocab_params_default params)
               (N.of_nat (as_u8 (length (m_lexicons m)))) in
    let tp := if transparent then with_params_type p (N.lor (vp_vocab_type p) VT_TRANSPARENT) else p in
    let* st := rfoldl (read_variants_line p tp) (m, None) lines in
    Ok (with_lexicons st.1 (m_lexicons st.1 ++ [filename]) (m_have_freq st.1)).
End read_variants.

(** src/lib.rs:200-215: hash all indexed entries *)
Fixpoint hash_entries (A : alphabet) (id : vocab_id) (dec : list vocab_value) : res (list (N * vocab_id)) :=
  match dec with
  | [] => Ok []
  | v :: dec' =>
      if vt_check (vv_type v) VT_INDEXED then
        let* h := anahash A (vv_text v) in
        let* rest := hash_entries A (S id) dec' in
        Ok ((h, id) :: rest)
      else hash_entries A (S id) dec'
  end.

(** src/lib.rs:168-188 [get_or_create_index] and 222-224: file one instance *)
Definition index_instance (asz : nat) (ix : gmap N node) (hi : N * vocab_id) : res (gmap N node) :=
  match ix !! hi.1 with
  | Some nd => Ok (<[hi.1 := Node (nd_instances nd ++ [hi.2]) (nd_charcount nd)]> ix)
  | None =>
      let* cc := char_count hi.1 asz in
      Ok (<[hi.1 := Node [hi.2] cc]> ix)
  end.

(** src/lib.rs:229-239: collect the hashes by character count *)
Definition collect_size (six : gmap N (list N)) (e : N * node) : gmap N (list N) :=
  <[nd_charcount e.2 := default [] (six !! nd_charcount e.2) ++ [e.1]]> six.

(** [keys.sort()] *)
Definition sort_keys (l : list N) : list N := merge_sort N.le l.

(** src/lib.rs:192-255, the index half of [build].  [order] is the order in
    which the hash map happens to be iterated. *)
Definition build_index (order : list (N * node) -> list (N * node)) (m : model) : res model :=
  let* hs := hash_entries (m_alphabet m) 0 (m_decoder m) in
  let* ix :=
    match hs with
    | [] => Ok ∅
    | _ => let* asz := alphabet_size (m_alphabet m) in rfoldl (index_instance asz) ∅ hs
    end in
  let six := foldl collect_size ∅ (order (map_to_list ix)) in
  Ok (with_index m ix (sort_keys <$> six)).

(** src/lib.rs:2733-2755 [encode_token].  [unseen] is the optional collection
    of unseen parts; every caller passes [use_unk = true]. *)
Definition encode_token (m : model) (token : str) (use_unk : bool) (unseen : option (gmap str vocab_id))
    : res (vocab_id * option (gmap str vocab_id)) :=
  match m_encoder m !! token with
  | Some id => Ok (id, unseen)
  | None =>
      if use_unk then Ok (UNK, unseen)
      else match unseen with
           | Some u =>
               match u !! token with
               | Some id => Ok (id, unseen)
               | None =>
                   let id := length (m_decoder m) + size u in
                   Ok (id, Some (<[token := id]> u))
               end
           | None => Panic ExpectNone
           end
  end.

(** [iter.next().expect(..)] and [encode_token], [n] times *)
Fixpoint encode_tokens (m : model) (n : nat) (parts : list str) (unseen : option (gmap str vocab_id))
    : res (list vocab_id * option (gmap str vocab_id)) :=
  match n with
  | O => Ok ([], unseen)
  | S n =>
      match parts with
      | [] => Panic ExpectNone
      | p :: parts =>
          let* r := encode_token m p true unseen in
          let* r' := encode_tokens m n parts r.2 in
          Ok (r.1 :: r'.1, r'.2)
      end
  end.

(** src/lib.rs:2688-2730 [into_ngram]; the inner [None] is the [Err] result *)
Definition into_ngram (m : model) (word : vocab_id) (unseen : option (gmap str vocab_id))
    : res (option ngram * option (gmap str vocab_id)) :=
  let* w := rexpect (m_decoder m !! word) in
  if (vv_tokencount w <=? 5)%nat then
    let* r := encode_tokens m (vv_tokencount w) (split_on 32 (vv_text w)) unseen in
    Ok (ng_from_list r.1, r.2)
  else Ok (None, unseen).

(** src/lib.rs:2677-2685 [add_ngram] *)
Definition add_ngram (ng : gmap ngram N) (g : ngram) (frequency : N) : res (gmap ngram N) :=
  match ng !! g with
  | Some c => let* c' := u32_add c frequency in Ok (<[g := c']> ng)
  | None => Ok (<[g := frequency]> ng)
  end.

(** [for _ in self.freq_sum.len()..n { self.freq_sum.push(0) }] *)
Definition grow_freq_sum (fs : list N) (n : nat) : list N := fs ++ replicate (n - length fs) 0%N.

(** src/lib.rs:266-278: totals per order.  [usize] sums are not bounded here. *)
Definition add_total (fs : list N) (order : nat) (freq : N) : res (list N) :=
  let '(fs, i) := if (1 <? order)%nat then (grow_freq_sum fs order, order - 1) else (fs, 0) in
  let* old := rindex fs i in
  Ok (<[i := (old + freq)%N]> fs).

(** state: n-gram counts, totals, unseen parts *)
Notation lm_state := (gmap ngram N * list N * option (gmap str vocab_id))%type.

Definition lm_step (m : model) (st : lm_state) (id : vocab_id) : res lm_state :=
  let '(ng, fs, unseen) := st in
  let* v := rexpect (m_decoder m !! id) in
  if vt_check (vv_type v) VT_LM then
    let* r := into_ngram m id unseen in
    match r.1 with
    | Some g =>
        let* fs := add_total fs (length (ng_to_vec g)) (vv_frequency v) in
        let* ng := add_ngram ng g (vv_frequency v) in
        Ok (ng, fs, r.2)
    | None => Ok (ng, fs, r.2)
    end
  else Ok (ng, fs, unseen).

(** src/lib.rs:283-290: add the unseen parts; [order'] is the iteration order *)
Definition add_unseen (m : model) (ng : gmap ngram N) (parts : list (str * vocab_id))
    : res (model * gmap ngram N) :=
  rfoldl (fun st pi =>
    let '(m, ng) := st in
    let* ng := add_ngram ng (NUni pi.2) 1%N in
    Ok (with_vocab m (m_decoder m ++ [vocab_value_new pi.1 VT_LM]) (<[pi.1 := pi.2]> (m_encoder m)), ng))
    (m, ng) parts.

(** src/lib.rs:192-297 [build] *)
Definition build (order : list (N * node) -> list (N * node))
    (order' : list (str * vocab_id) -> list (str * vocab_id)) (m : model) : res model :=
  let* m := build_index order m in
  let* st := rfoldl (lm_step m) (m_ngrams m, m_freq_sum m, Some ∅) (seq 0 (length (m_decoder m))) in
  let '(ng, fs, unseen) := st in
  let* r := match unseen with
            | Some u => add_unseen m ng (order' (map_to_list u))
            | None => Ok (m, ng)
            end in
  Ok (with_lm r.1 r.2 fs (negb (bool_decide (r.2 = ∅)))).

(** src/lib.rs:305-318 [get_anagram_instances] *)
Definition get_anagram_instances (m : model) (text : str) : res (list vocab_value) :=
  let* h := anahash (m_alphabet m) text in
  match m_index m !! h with
  | Some nd => rmapM (fun id => rexpect (m_decoder m !! id)) (nd_instances nd)
  | None => Ok []
  end.

(** src/lib.rs:321-328 [get], 331-338 [has] *)
Definition get (m : model) (text : str) : res (option vocab_value) :=
  let* l := get_anagram_instances m text in
  Ok (List.find (fun v => bool_decide (vv_text v = text)) l).
Definition has (m : model) (text : str) : res bool :=
  let* l := get_anagram_instances m text in
  Ok (existsb (fun v => bool_decide (vv_text v = text)) l).

(** src/lib.rs:341-343 [get_vocab] *)
Definition get_vocab (m : model) (id : vocab_id) : option vocab_value := m_decoder m !! id.
