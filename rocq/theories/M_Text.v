(** Running text: src/search.rs:1-335 (offsets, matches, boundaries, n-gram
    candidates) and src/search.rs:526-546 (code point offsets).

    A Rust [&text[b..e]] counts bytes; here [text] is its list of characters
    and byte positions are sums of [utf8_len] (M_Utf8.v).  [char::is_alphabetic]
    is a table of the Unicode standard: the parameter [alpha]. *)
From Verif Require Import M_Base M_Utf8 M_Float M_Types.
From stdpp Require Import options.

(** The two parts of [t] before and from byte [n]; [None] if [n] is out of
    range or not on a character boundary. *)
Fixpoint split_at_byte (n : nat) (t : str) : option (str * str) :=
  match t with
  | [] => if n =? 0 then Some ([], []) else None
  | c :: t' =>
      if n =? 0 then Some ([], t)
      else if n <? utf8_len c then None
      else match split_at_byte (n - utf8_len c) t' with
           | Some (a, b) => Some (c :: a, b)
           | None => None
           end
  end.

(** [&text[b..e]] (panics if [b > e], out of range, or inside a character) *)
Definition slice (t : str) (b e : nat) : res str :=
  if e <? b then Panic IndexOutOfBounds
  else match split_at_byte b t with
       | None => Panic IndexOutOfBounds
       | Some (_, r) =>
           match split_at_byte (e - b) r with
           | None => Panic IndexOutOfBounds
           | Some (m, _) => Ok m
           end
       end.

(** src/search.rs:40-69 [Match] with its [Offset] (6-13).  The fields
    [prevboundary] and [nextboundary] are written and read only in code that is
    commented out (src/lib.rs:1963-2010); they are omitted. *)
Record tmatch := TMatch {
  tm_text : str;
  tm_begin : nat;
  tm_end : nat;
  tm_variants : option (list variant_result);
  tm_selected : option nat;
  tm_tag : list N;
  tm_seqnr : list nat;
  tm_n : nat;
}.

(** src/search.rs:72-84 [new_empty] *)
Definition new_empty (text : str) (b e : nat) : tmatch :=
  {| tm_text := text; tm_begin := b; tm_end := e; tm_variants := None; tm_selected := None;
     tm_tag := []; tm_seqnr := []; tm_n := 0 |}.
(** field updates *)
Definition set_n (m : tmatch) (n : nat) : tmatch :=
  {| tm_text := tm_text m; tm_begin := tm_begin m; tm_end := tm_end m; tm_variants := tm_variants m;
     tm_selected := tm_selected m; tm_tag := tm_tag m; tm_seqnr := tm_seqnr m; tm_n := n |}.
Definition set_variants (m : tmatch) (v : option (list variant_result)) : tmatch :=
  {| tm_text := tm_text m; tm_begin := tm_begin m; tm_end := tm_end m; tm_variants := v;
     tm_selected := tm_selected m; tm_tag := tm_tag m; tm_seqnr := tm_seqnr m; tm_n := tm_n m |}.
Definition set_selected (m : tmatch) (s : option nat) : tmatch :=
  {| tm_text := tm_text m; tm_begin := tm_begin m; tm_end := tm_end m; tm_variants := tm_variants m;
     tm_selected := s; tm_tag := tm_tag m; tm_seqnr := tm_seqnr m; tm_n := tm_n m |}.
Definition set_tags (m : tmatch) (tag : list N) (seqnr : list nat) : tmatch :=
  {| tm_text := tm_text m; tm_begin := tm_begin m; tm_end := tm_end m; tm_variants := tm_variants m;
     tm_selected := tm_selected m; tm_tag := tag; tm_seqnr := seqnr; tm_n := tm_n m |}.
Definition set_offset (m : tmatch) (b e : nat) : tmatch :=
  {| tm_text := tm_text m; tm_begin := b; tm_end := e; tm_variants := tm_variants m;
     tm_selected := tm_selected m; tm_tag := tm_tag m; tm_seqnr := tm_seqnr m; tm_n := tm_n m |}.

(** src/search.rs:87-89 [is_empty] *)
Definition tm_is_empty (m : tmatch) : bool :=
  match tm_variants m with None => true | Some [] => true | Some _ => false end.

(** src/search.rs:92-101 [solution] *)
Definition solution (m : tmatch) : res (option variant_result) :=
  match tm_selected m with
  | Some s => let* vs := rexpect (tm_variants m) in Ok (nth_error vs s)
  | None => Ok None
  end.

(** src/search.rs:104-120 [internal_boundaries] *)
Fixpoint internal_range (m : tmatch) (i : nat) (bs : list tmatch) (begin : option nat) (end_ : nat)
    : option nat * nat :=
  match bs with
  | [] => (begin, end_)
  | b :: bs' =>
      if (tm_begin m <? tm_begin b) && (tm_end b <? tm_end m) then
        match begin with
        | None => internal_range m (S i) bs' (Some i) end_
        | Some _ => internal_range m (S i) bs' begin (S i)
        end
      else internal_range m (S i) bs' begin end_
  end.
Definition internal_boundaries (m : tmatch) (bs : list tmatch) : list tmatch :=
  match internal_range m 0 bs None 0 with
  | (None, _) => []
  | (Some b, e) => if e <=? b then [] else take (e - b) (drop b bs)
  end.

(** src/search.rs:174-184 [BoundaryStrength] ([None] is never produced) *)
Inductive strength := Weak | Normal | Hard.

(** src/search.rs:190-233 [find_boundaries]; [cs] are the characters still to
    come, at byte [i] *)
Fixpoint find_boundaries_from (alpha : N -> bool) (text : str) (cs : str) (i : nat) (begin : option nat)
    : res (list tmatch) :=
  match cs with
  | [] =>
      match begin with
      | Some b => let* s := slice text b (byte_len text) in Ok [new_empty s b (byte_len text)]
      | None => Ok [new_empty [] (byte_len text) (byte_len text)]
      end
  | c :: cs' =>
      match begin with
      | Some b =>
          if alpha c then
            let* s := slice text b i in
            let* bs := find_boundaries_from alpha text cs' (i + utf8_len c) None in
            Ok (new_empty s b i :: bs)
          else find_boundaries_from alpha text cs' (i + utf8_len c) begin
      | None =>
          find_boundaries_from alpha text cs' (i + utf8_len c) (if alpha c then None else Some i)
      end
  end.
Definition find_boundaries (alpha : N -> bool) (text : str) : res (list tmatch) :=
  find_boundaries_from alpha text text 0 None.

(** src/search.rs:238-258 [classify_boundaries]; the texts "'", "-", "_" *)
Definition classify_one (last : bool) (b : tmatch) : strength :=
  if last then Hard
  else if 1 <? byte_len (tm_text b) then Hard
  else if bool_decide (tm_text b = [39%N]) || bool_decide (tm_text b = [45%N]) || bool_decide (tm_text b = [95%N])
       then Weak else Normal.
Definition classify_boundaries (bs : list tmatch) : list strength :=
  imap (fun i b => classify_one (i =? length bs - 1) b) bs.

(** [!matchtext.is_empty() && matchtext != " "] *)
Definition worth_matching (s : str) : bool :=
  negb (bool_decide (s = [])) && negb (bool_decide (s = [32%N])).

(** src/search.rs:262-313 [find_match_ngrams].  The loop
    [while let Some(boundary) = boundaries.get(i + order - 1)] walks over
    [ahead], the boundaries from position [i + order - 1]; the first component
    is the value of [begin] after the loop. *)
Fixpoint match_ngrams_loop (text : str) (bs ahead : list tmatch) (order begin end_ i : nat)
    : res (nat * list tmatch) :=
  match ahead with
  | [] => Ok (begin, [])
  | b :: ahead' =>
      if end_ <? tm_begin b then Ok (begin, [])
      else
        let* s := slice text begin (tm_begin b) in
        let* bi := rexpect (nth_error bs i) in
        let* (last, rest) := match_ngrams_loop text bs ahead' order (tm_end bi) end_ (S i) in
        Ok (last, if worth_matching s then set_n (new_empty s begin (tm_begin b)) order :: rest else rest)
  end.
Definition find_match_ngrams (text : str) (bs : list tmatch) (order begin : nat) (end_ : option nat)
    : res (list tmatch) :=
  let e := match end_ with Some e => e | None => byte_len text end in
  if order =? 0 then Panic Overflow   (* [0 + 0 - 1] on usize *)
  else
    let* (b, ms) := match_ngrams_loop text bs (drop (order - 1) bs) order begin e 0 in
    if b <? e then
      let* s := slice text b e in
      let m := set_n (new_empty s b e) order in
      if worth_matching s && (length (internal_boundaries m bs) =? order) then Ok (ms ++ [m]) else Ok ms
    else Ok ms.

(** src/search.rs:317-335 [redundant_match] *)
Fixpoint redundant_match (candidate : tmatch) (ms : list tmatch) : bool :=
  match ms with
  | [] => true
  | r :: ms' =>
      if tm_n r =? 1 then
        if (tm_begin candidate <=? tm_begin r) && (tm_end r <=? tm_end candidate) then
          match tm_variants r with
          | Some (v :: _) => if flt (vr_dist v) f1 then false else redundant_match candidate ms'
          | _ => false
          end
        else redundant_match candidate ms'
      else true
  end.

(** src/search.rs:16-37 [Offset::convert]: both [expect]s *)
Definition convert_one (map : list (option nat)) (b : nat) : res nat :=
  let* o := rexpect (nth_error map b) in rexpect o.

(** src/search.rs:527-546 [remap_offsets_to_unicodepoints] *)
Fixpoint bytes2unicodepoints (t : str) (unicodeoffset : nat) : list (option nat) :=
  match t with
  | [] => [Some unicodeoffset]
  | c :: t' => Some unicodeoffset :: replicate (utf8_len c - 1) None ++ bytes2unicodepoints t' (S unicodeoffset)
  end.
Definition remap_offsets (text : str) (ms : list tmatch) : res (list tmatch) :=
  let map := bytes2unicodepoints text 0 in
  rmapM (fun m =>
    let* b := convert_one map (tm_begin m) in
    let* e := convert_one map (tm_end m) in
    Ok (set_offset m b e)) ms.
