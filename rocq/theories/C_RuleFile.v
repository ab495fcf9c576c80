(** Property C79: what is read from a context rule file, exactly. *)
From Coq Require String Ascii.
From Verif Require Import M_Base M_Anahash M_Float M_Types M_Model M_Rules M_Cli.
From Verif Require Import S_Model S_Rules S_SearchAll S_RuleFile P_RuleFile C_Rules.
From stdpp Require Import options.

Import String.StringSyntax Ascii.AsciiSyntax.
#[local] Arguments lit s%string_scope.
(** ** C79 *)
(** An expression is parsed to a pattern exactly if it says that pattern. *)
Theorem C79_expression : forall ws lexicons encoder fuel s, length s < fuel ->
  forall p, pm_parse ws lexicons encoder fuel s = Ok (Some p) <-> pattern_says ws lexicons encoder s p.
Proof. exact (fun ws lexicons encoder fuel => parse_iff ws lexicons encoder fuel). Qed.
Print Assumptions C79_expression.
(** A file is accepted exactly if all its lines say rules or nothing; then exactly
    these rules are added, and nothing else changes. *)
Theorem C79_file : forall ws parse_f32 m lines m', read_contextrules ws parse_f32 m lines = Ok (m', true) <->
  exists table rules, rules_say ws parse_f32 (m_lexicons m) (m_encoder m) (m_tags m) lines table rules /\
    m' = with_rules m (m_context_rules m ++ rules) table.
Proof. exact (fun ws pf m lines m' => rules_iff ws pf m' lines m). Qed.
Print Assumptions C79_file.
(** a file says one thing only *)
Theorem C79_unique : forall ws parse_f32 lexicons encoder table lines table1 rules1 table2 rules2,
  rules_say ws parse_f32 lexicons encoder table lines table1 rules1 -> rules_say ws parse_f32 lexicons encoder table lines table2 rules2 ->
  table1 = table2 /\ rules1 = rules2.
Proof. exact rules_unique. Qed.
Print Assumptions C79_unique.
(** A rejected file has a first line that says neither a rule nor nothing.  The
    rules before it stay in the model. *)
Theorem C79_rejected : forall ws parse_f32 m lines m', read_contextrules ws parse_f32 m lines = Ok (m', false) ->
  exists pre bad post table rules, lines = pre ++ bad :: post /\
    rules_say ws parse_f32 (m_lexicons m) (m_encoder m) (m_tags m) pre table rules /\
    ~ no_rule bad /\ (forall table' r, ~ rule_says ws parse_f32 (m_lexicons m) (m_encoder m) table bad table' r) /\
    m_context_rules m' = m_context_rules m ++ rules /\ table `prefix_of` m_tags m'.
Proof. exact (fun ws pf m lines m' => rejected_file ws pf m' lines m). Qed.
Print Assumptions C79_rejected.

(** comments, empty lines, two tags with ranges, one without, none *)
Definition tab : str := [9%N].
Definition exRuleLines : list str :=
  [lit "# rules"; []; lit " a;!(b |^) " ++ tab ++ lit "1.5" ++ tab ++ lit "x; y ;" ++ tab ++ lit "0:1;1:";
   tab ++ lit "no pattern"; lit "!@words;?" ++ tab ++ lit "1.5" ++ tab ++ lit "y"; lit "b" ++ tab ++ lit "1.5"].
Definition exRuleModel : model := with_lexicons exModel [lit "/data/other"; lit "/data/words"] true.
Definition exParse (s : str) : option f32 := if bool_decide (s = lit "1.5") then Some f32_1 else None.
Definition exRules : list context_rule :=
  [{| cr_pattern := [PVocab 3; PNot (PDisjunction [PVocab 4; PNoLexicon])]; cr_score := f32_1; cr_tag := [0; 1]%N; cr_tagoffset := [(0, 1); (1, 1)] |};
   {| cr_pattern := [PNot (PFromLexicon 1); PAny]; cr_score := f32_1; cr_tag := [1%N]; cr_tagoffset := [(0, 2)] |};
   {| cr_pattern := [PVocab 4]; cr_score := f32_1; cr_tag := []; cr_tagoffset := [] |}].
Example C79_ex_read : read_contextrules exW exParse exRuleModel exRuleLines = Ok (with_rules exRuleModel exRules [lit "x"; lit "y"], true).
Proof. by vm_compute. Qed.
Example C79_ex : rules_say exW exParse (m_lexicons exRuleModel) (m_encoder exRuleModel) [] exRuleLines [lit "x"; lit "y"] exRules.
Proof. pose proof C79_ex_read as H. apply C79_file in H as (tb & rs & H & E). injection E as <- <-. exact H. Qed.
(** a word that is not in the lexicon: rejected; the first rule stays *)
Example C79_ex_rejected : exists m', read_contextrules exW exParse exRuleModel [lit "a" ++ tab ++ lit "1.5"; lit "zz" ++ tab ++ lit "1.5"] = Ok (m', false) /\
  map cr_pattern (m_context_rules m') = [[PVocab 3]].
Proof. eexists. by split; vm_compute. Qed.
