(** Specification for the command line tool. *)
From Coq Require String Ascii.
From Verif Require Import M_Base M_Anahash M_Float M_Types M_Text S_Anahash.
Import String.StringSyntax Ascii.AsciiSyntax.
From stdpp Require Import options.

(** A computation performed alone. *)
Section alone.
  Context {L B : Type} (step : L -> L + res B).
  Inductive alone : L -> res B -> Prop :=
  | alone_last l r : step l = inr r -> alone l r
  | alone_more l l' r : step l = inl l' -> alone l' r -> alone l r.
End alone.

(** [out] lists the selected element first and then the others in order. *)
Inductive selected_first {A} : option nat -> list A -> list A -> Prop :=
| sf_selected pre x post : selected_first (Some (length pre)) (pre ++ x :: post) (x :: pre ++ post)
| sf_outside s l : length l <= s -> selected_first (Some s) l l
| sf_none l : selected_first None l l.

(** The line [l] of tab separated [columns]. *)
Inductive columns : list str -> str -> Prop :=
| columns_one c : 9%N ∉ c -> columns [c] c
| columns_more c cs l : 9%N ∉ c -> columns cs l -> columns (c :: cs) (c ++ 9%N :: l).

(** The [texts] are groups of consecutive [lines], put together with [sep]. *)
Fixpoint joined (sep : N) (ls : list str) : str :=
  match ls with
  | [] => []
  | [l] => l
  | l :: ls' => l ++ sep :: joined sep ls'
  end.

(** * JSON (RFC 8259) *)
Definition ws_char (c : N) : Prop := c ∈ [32; 9; 10; 13]%N.
Definition white (s : str) : Prop := Forall ws_char s.
Definition digit (c : N) : Prop := (48 <= c <= 57)%N.
Definition hex (c : N) : Prop := digit c \/ (65 <= c <= 70)%N \/ (97 <= c <= 102)%N.

(** the value of a hexadecimal digit *)
Definition hex_value (c : N) : N := if (c <=? 57)%N then (c - 48)%N else if (c <=? 70)%N then (c - 55)%N else (c - 87)%N.
(** what a backslash and a letter stand for *)
Definition escapes : list (N * N) :=
  [(34, 34); (92, 92); (47, 47); (98, 8); (102, 12); (110, 10); (114, 13); (116, 9)]%N.

(** [chars s t]: the characters [s] of a string stand for the text [t]
    (code units; pairs of surrogates are not put together) *)
Inductive chars : str -> str -> Prop :=
| chars_nil : chars [] []
| chars_plain c s t : (32 <= c)%N -> c <> 34%N -> c <> 92%N -> chars s t -> chars (c :: s) (c :: t)
| chars_escape c d s t : (c, d) ∈ escapes -> chars s t -> chars (92%N :: c :: s) (d :: t)
| chars_code a b c d s t : Forall hex [a; b; c; d] -> chars s t ->
    chars (92 :: 117 :: a :: b :: c :: d :: s)%N ((((hex_value a * 16 + hex_value b) * 16 + hex_value c) * 16 + hex_value d)%N :: t).
Inductive string : str -> str -> Prop :=
| string_quoted s t : chars s t -> string (34%N :: s ++ [34%N]) t.

(** numbers: minus, integer, fraction, exponent *)
Inductive integer : str -> Prop :=
| integer_zero : integer [48%N]
| integer_other c s : (49 <= c <= 57)%N -> Forall digit s -> integer (c :: s).
Definition fraction (s : str) : Prop := s = [] \/ exists ds, s = 46%N :: ds /\ ds <> [] /\ Forall digit ds.
Definition exponent (s : str) : Prop :=
  s = [] \/ exists e sign ds, s = e :: sign ++ ds /\ e ∈ [69; 101]%N /\ (sign = [] \/ sign = [43%N] \/ sign = [45%N]) /\
    ds <> [] /\ Forall digit ds.
Inductive number : str -> Prop :=
| number_of minus i f e : minus = [] \/ minus = [45%N] -> integer i -> fraction f -> exponent e -> number (minus ++ i ++ f ++ e).

(** [true], [false], [null] *)
Definition literal (s : str) : Prop :=
  s ∈ [[116; 114; 117; 101]; [102; 97; 108; 115; 101]; [110; 117; 108; 108]]%N.

(** what a JSON text says *)
Inductive json :=
| JStr (t : str) | JNum (s : str) | JLit (s : str) | JArr (l : list json) | JObj (l : list (str * json)).

Inductive value : str -> json -> Prop :=
| value_string s t : string s t -> value s (JStr t)
| value_number s : number s -> value s (JNum s)
| value_literal s : literal s -> value s (JLit s)
| value_array_empty w : white w -> value (91%N :: w ++ [93%N]) (JArr [])
| value_array s l : elements s l -> value (91%N :: s ++ [93%N]) (JArr l)
| value_object_empty w : white w -> value (123%N :: w ++ [125%N]) (JObj [])
| value_object s l : members s l -> value (123%N :: s ++ [125%N]) (JObj l)
with elements : str -> list json -> Prop :=
| elements_one w1 v j w2 : white w1 -> value v j -> white w2 -> elements (w1 ++ v ++ w2) [j]
| elements_more w1 v j w2 s l :
    white w1 -> value v j -> white w2 -> elements s l -> elements (w1 ++ v ++ w2 ++ 44%N :: s) (j :: l)
with members : str -> list (str * json) -> Prop :=
| members_one w1 k t w2 w3 v j w4 :
    white w1 -> string k t -> white w2 -> white w3 -> value v j -> white w4 ->
    members (w1 ++ k ++ w2 ++ 58%N :: w3 ++ v ++ w4) [(t, j)]
| members_more w1 k t w2 w3 v j w4 s l :
    white w1 -> string k t -> white w2 -> white w3 -> value v j -> white w4 -> members s l ->
    members (w1 ++ k ++ w2 ++ 58%N :: w3 ++ v ++ w4 ++ 44%N :: s) ((t, j) :: l).

(** the JSON text [s] says [j] *)
Definition says (s : str) (j : json) : Prop := exists w1 v w2, s = w1 ++ v ++ w2 /\ white w1 /\ value v j /\ white w2.
Definition json_text (s : str) : Prop := exists j, says s j.

(** a decimal number without leading zeros *)
Definition decimal (n : N) (s : str) : Prop :=
  integer s /\ foldl (fun a c => (a * 10 + (c - 48))%N) 0%N s = n.

(** a text that needs no escape but the one for the quotation mark *)
Definition clean (s : str) : Prop := Forall (fun c => 32 <= c /\ c <> 92)%N s.

(** finite numbers *)
Definition finite (x : f64) : Prop :=
  match x with S754_zero _ | S754_finite _ _ _ => True | S754_infinity _ | S754_nan => False end.

(** the names of the lexicons that an entry belongs to *)
Definition lexicon_names (names : list str) (v : vocab_value) : list str :=
  map snd (List.filter (fun il => N.testbit (vv_lexindex v) (N.of_nat il.1)) (imap pair names)).

(** The columns for one result: its text, its score, an empty column; if asked
    for also the names of its lexicons, in quotation marks. *)
Definition result_columns (fmt : f64 -> str) (score : variant_result -> f64) (lexmatch : bool) (m : model)
    (r : variant_result) (cs : list str) : Prop :=
  exists v, m_decoder m !! vr_id r = Some v /\
    cs = [vv_text v; fmt (score r); []] ++
         (if lexmatch then [34%N :: joined 59 (lexicon_names (m_lexicons m) v) ++ [34%N]] else []).

(** A result that can be shown in JSON: finite numbers and clean texts. *)
Record showable (score : variant_result -> f64) (m : model) (r : variant_result) : Prop := Showable {
  sh_score : finite (score r);
  sh_dist : finite (vr_dist r);
  sh_freq : finite (vr_freq r);
  sh_text v : m_decoder m !! vr_id r = Some v -> clean (vv_text v);
  sh_via i v : vr_via r = Some i -> m_decoder m !! i = Some v -> clean (vv_text v);
}.

(** * What the objects say *)
(** names of the members *)
Definition name (s : String.string) : str := map Ascii.N_of_ascii (String.list_ascii_of_string s).
Arguments name s%string_scope.

(** the object for a result *)
Definition result_says (fmt : f64 -> str) (score : variant_result -> f64) (lexmatch : bool) (m : model)
    (r : variant_result) (j : json) : Prop :=
  exists v, m_decoder m !! vr_id r = Some v /\
    j = JObj ([(name "text", JStr (vv_text v)); (name "score", JNum (fmt (score r)));
               (name "dist_score", JNum (fmt (vr_dist r))); (name "freq_score", JNum (fmt (vr_freq r)))] ++
         match vr_via r ≫= (fun i => m_decoder m !! i) with Some w => [(name "via", JStr (vv_text w))] | None => [] end ++
         (if lexmatch then [(name "lexicons", JArr (map JStr (lexicon_names (m_lexicons m) v)))] else [])).

(** the members for the offset of a match *)
Inductive offset_says : option (nat * nat) -> list (str * json) -> Prop :=
| offset_none : offset_says None []
| offset_some b e sb se : decimal (N.of_nat b) sb -> decimal (N.of_nat e) se ->
    offset_says (Some (b, e)) [(name "begin", JNum sb); (name "end", JNum se)].

(** the members for the tags of a match *)
Inductive tags_say (names : list str) : list N -> list nat -> list (str * json) -> Prop :=
| tags_none seqnrs : tags_say names [] seqnrs []
| tags_some tags seqnrs ts ss : tags <> [] ->
    Forall2 (fun x t => names !! N.to_nat (fst x) = Some t) (zip tags seqnrs) ts ->
    Forall2 (fun x s => decimal (N.of_nat (snd x)) s) (zip tags seqnrs) ss ->
    tags_say names tags seqnrs [(name "tag", JArr (map JStr ts)); (name "seqnr", JArr (map JNum ss))].

(** the member for the variants, the selected one first *)
Inductive variants_say (fmt : f64 -> str) (score : variant_result -> f64) (lexmatch : bool) (m : model) :
    option (list variant_result) -> option nat -> list (str * json) -> Prop :=
| variants_none sel : variants_say fmt score lexmatch m None sel []
| variants_some vs sel rs js : selected_first sel vs rs -> Forall2 (result_says fmt score lexmatch m) rs js ->
    variants_say fmt score lexmatch m (Some vs) sel [(name "variants", JArr js)].

(** the object for a match *)
Definition match_says (fmt : f64 -> str) (score : variant_result -> f64) (lexmatch : bool) (m : model)
    (input : str) (vs : option (list variant_result)) (sel : option nat) (offset : option (nat * nat))
    (tags : list N) (seqnrs : list nat) (j : json) : Prop :=
  exists os ts ms, offset_says offset os /\ tags_say (m_tags m) tags seqnrs ts /\
    variants_say fmt score lexmatch m vs sel ms /\
    j = JObj ((name "input", JStr input) :: os ++ ts ++ ms).

(** the object for a match found in running text *)
Definition found_says (fmt : f64 -> str) (score : variant_result -> f64) (lexmatch : bool) (m : model) (x : tmatch) (j : json) : Prop :=
  match_says fmt score lexmatch m (tm_text x) (tm_variants x) (tm_selected x) (Some (tm_begin x, tm_end x)) (tm_tag x) (tm_seqnr x) j.
(** a match that can be shown in JSON *)
Definition found_showable (score : variant_result -> f64) (m : model) (x : tmatch) : Prop :=
  clean (tm_text x) /\ Forall (showable score m) (default [] (tm_variants x)).

(** a model whose names can be shown in JSON *)
Record printable (m : model) : Prop := Printable {
  pr_lexicons : Forall clean (m_lexicons m);
  pr_number : length (m_lexicons m) <= 256;
  pr_tags : Forall (fun t => clean t /\ 34%N ∉ t) (m_tags m);
}.

(** the columns for the offset of a match *)
Inductive offset_columns : option (nat * nat) -> list str -> Prop :=
| oc_none : offset_columns None []
| oc_some b e sb se : decimal (N.of_nat b) sb -> decimal (N.of_nat e) se -> offset_columns (Some (b, e)) [sb ++ 58%N :: se].

(** * Learned variants *)
(** the links of an entry to its variants, with their scores *)
Definition has_reference (v : vocab_value) : Prop := exists i s, ReferenceFor i s ∈ default [] (vv_variants v).
Fixpoint linked (l : list variant_ref) : list (vocab_id * f64) :=
  match l with
  | [] => []
  | ReferenceFor i s :: l' => (i, s) :: linked l'
  | VariantOf _ _ :: l' => linked l'
  end.
(** the line for an entry: its text, then text and score of each variant *)
Definition learned_line (fmt : f64 -> str) (m : model) (v : vocab_value) (line : str) : Prop :=
  exists cells, line = joined 9 (vv_text v :: concat cells) /\
    Forall2 (fun x cs => exists w, m_decoder m !! fst x = Some w /\ cs = [vv_text w; fmt (snd x)])
      (linked (default [] (vv_variants v))) cells.

(** * Input that can be encoded *)
(** The text is a sequence of entries of the alphabet, as the greedy reading picks them. *)
Inductive encodable (A : alphabet) : str -> Prop :=
| encodable_nil : encodable A []
| encodable_entry i e t' : e <> [] -> first_entry A (e ++ t') i e -> encodable A t' -> encodable A (e ++ t').
