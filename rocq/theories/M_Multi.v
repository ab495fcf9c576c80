(** The files that learning mode writes with "--multi-output". *)
From Coq Require String Ascii.
From Verif Require Import M_Base M_Float M_Types M_Model M_Cli.
Import String.StringSyntax Ascii.AsciiSyntax.
From stdpp Require Import options.
#[local] Arguments lit s%string_scope.

Section multi.
  Context (fmt : f64 -> str) (m : model).

  (** What one call of an output function writes: the number of the lexicon and
      the text, in order.  [f.write] is taken to write all of it, and creating a
      file to succeed; lexicons with the same name (whose files overwrite each
      other) are told apart here. *)
  Section calls.
    Context (lexicons : N -> list nat) (line : str -> f64 -> N -> str).
    (** src/bin/analiticcl.rs:188-229 [output_weighted_variant_as_tsv] and
        273-327 [output_weighted_variant_as_json], one variant *)
    Definition multi_variant (r : vocab_id * f64) : res (list (nat * str)) :=
      let* w := rexpect (m_decoder m !! r.1) in
      Ok (map (fun i => (i, line (vv_text w) r.2 (vv_frequency w))) (lexicons (vv_lexindex w))).
    (** src/bin/analiticcl.rs:232-266 [output_weighted_variants_as_tsv] and
        330-366 [output_weighted_variants_as_json]: all entries *)
    Definition multi_entry (v : vocab_value) : res (list (nat * str)) :=
      let* ws := rmapM multi_variant (references v) in Ok (concat ws).
    Definition multi_writes : res (list (nat * str)) :=
      let* ws := rmapM multi_entry (m_decoder m) in Ok (concat ws).
  End calls.
  (** src/bin/analiticcl.rs:206-226 and 288-304 ([outfiles]): a file is created
      when it is first written to, and then appended to *)
  Definition write_file (files : gmap nat str) (w : nat * str) : gmap nat str :=
    <[w.1 := default [] (files !! w.1) ++ w.2]> files.
  Definition files_of_writes (ws : list (nat * str)) : gmap nat str := foldl write_file ∅ ws.

  (** src/bin/analiticcl.rs:224-225 *)
  Definition multi_tsv_line (text : str) (score : f64) (freq : N) : str :=
    tab ++ text ++ tab ++ fmt score ++ tab ++ show freq ++ newline.
  (** src/bin/analiticcl.rs:305-313: the frequency comes where the score should *)
  Definition multi_json_line (text : str) (score : f64) (freq : N) : str :=
    lit "        { ""text"": """ ++ escape text ++ lit """,  ""score"": " ++ show freq ++ lit ", ""freq"": " ++ fmt score ++ lit " }, ".

  Definition multi_files_tsv : res (gmap nat str) := rmap files_of_writes (multi_writes (multi_tsv m) multi_tsv_line).
  Definition multi_files_json : res (gmap nat str) := rmap files_of_writes (multi_writes (multi_json m) multi_json_line).
End multi.
(** src/bin/analiticcl.rs:209-215, 291-297: the name of the file *)
Definition multi_name (extension : str) (lexicon : str) : str := lexicon ++ lit ".variants." ++ extension.
