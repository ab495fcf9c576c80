(** Property C85: the texts that are in a model, and the files that results name. *)
From Coq Require String Ascii.
From Coq Require Import Lia.
From Verif Require Import M_Base M_Anahash M_Iter M_Distance M_Float M_Types M_Model M_Confusable M_Rules M_Search M_Text M_Cli M_Main.
From Verif Require Import S_Anahash S_Text S_Model S_Search S_Rules S_Cli S_Main S_Program.
From Verif Require Import M_Python S_Session P_Base P_Session P_Contains.
From Verif Require C_Find C_Options C_Program C_Matches C_Session.
Import String.StringSyntax Ascii.AsciiSyntax.
From stdpp Require Import options.

(** ** C85 *)
Section session.
  Context (ws : N -> bool) (pf : str -> option f64) (pf32 : str -> option f32) (ps : str -> option (list edit_instruction)).
  Context (o : list (N * node) -> list (N * node)) (o' : list (str * vocab_id) -> list (str * vocab_id)).
  Context (fs : str -> option (list (option str))) (alphabet : str) (w : weights) (cs : list py_call).
  #[local] Notation leaves := (fun m => exists m0, py_model ws fs alphabet w = Returned m0 /\ py_steps ws pf pf32 ps o o' fs m0 cs = Returned m).

  (** [t in model] tells whether the first addition of the text declares it searchable. *)
  Theorem C85_contains m : orderly cs -> some_order o -> some_order o' ->
    session_says ws pf pf32 ps fs alphabet w cs m -> within_limits m ->
    exists m', leaves m' /\ forall t, exists b, py_contains m' t = Ok b /\
      (b = true <-> ~ special_text t /\
        exists a l ns x, calls_say pf fs 0 cs a l ns /\ first_added t a x /\ flag (declared_type x) searchable_bit = true).
  Proof. intros Od Ho Ho' C L. exact (contains_session ws pf pf32 ps o o' fs Ho Ho' alphabet w cs Od m C L). Qed.
  (** If all words are from lexicons, it tells whether the text is in one of them. *)
  Theorem C85_lexicons m : orderly cs -> some_order o -> some_order o' ->
    session_says ws pf pf32 ps fs alphabet w cs m -> within_limits m -> Forall (fun c => adds_entries c -> exists n, c = CLexicon n) cs ->
    exists m', leaves m' /\ forall t, exists b, py_contains m' t = Ok b /\ (b = true <-> ~ special_text t /\ in_lexicons fs t cs).
  Proof. intros Od Ho Ho' C L. exact (contains_lexicons ws pf pf32 ps o o' fs Ho Ho' alphabet w cs Od m C L). Qed.
  (** If all words are from files, results name the files with their text. *)
  Theorem C85_names m : orderly cs -> some_order o -> some_order o' ->
    session_says ws pf pf32 ps fs alphabet w cs m -> within_limits m -> (forall t f p, CAdd t f p ∉ cs) ->
    exists m', leaves m' /\ forall id v, m_decoder m' !! id = Some v ->
      forall ns, files_with pf fs (vv_text v) 0 cs ns <-> ns = lexicon_names (m_lexicons m') v.
  Proof. intros Od Ho Ho' C L. exact (lexicons_session ws pf pf32 ps o o' fs Ho Ho' alphabet w cs Od m C L). Qed.
End session.
Print Assumptions C85_contains.
Print Assumptions C85_lexicons.
Print Assumptions C85_names.

#[local] Arguments lit s%string_scope.
#[local] Arguments C_Program.row s%string_scope.
#[local] Notation fs := C_Session.exfs.
Definition exsession (cs : list py_call) : pyres model := pybind (py_model C_Matches.space fs (lit "a.tsv") C_Program.the_weights)
  (fun m => py_steps C_Matches.space C_Options.exnum C_Options.exnum32 (fun _ => None) Datatypes.id Datatypes.id fs m cs).
#[local] Notation leaves cs m := (exists m0, py_model C_Matches.space fs (lit "a.tsv") C_Program.the_weights = Returned m0 /\
  py_steps C_Matches.space C_Options.exnum C_Options.exnum32 (fun _ => None) Datatypes.id Datatypes.id fs m0 cs = Returned m).
#[local] Notation means cs m := (session_says C_Matches.space C_Options.exnum C_Options.exnum32 (fun _ => None) fs (lit "a.tsv") C_Program.the_weights cs m).
Definition exm (cs : list py_call) : model := match exsession cs with Returned m => m | _ => model_new C_Matches.space [] C_Program.the_weights end.
(** a session without rules, the calls before build given *)
Definition calls (cs : list py_call) : list py_call := cs ++ [CBuild].
Lemma calls_orderly cs : Forall (fun c => c <> CBuild /\ ~ gives_rules c /\ forall t f p, c <> CAdd t f p) cs -> length cs <= 255 -> orderly (calls cs).
Proof.
  intros F Hl. split.
  - exists cs, []. split; [done|]. split; [|constructor]. eapply Forall_impl; [exact F|]. by intros c [? _].
  - intros b c a E Hg. assert (c ∈ calls cs) as Hc by (rewrite E; apply elem_of_app; right; left). unfold calls in Hc. apply elem_of_app in Hc as [Hc|Hc].
    + rewrite Forall_forall in F. by destruct (F c Hc) as (_ & ? & _).
    + apply elem_of_list_singleton in Hc as ->. by destruct Hg.
  - intros t f p Hc. unfold calls in Hc. apply elem_of_app in Hc as [Hc|Hc]; [|by apply elem_of_list_singleton in Hc].
    rewrite Forall_forall in F. destruct (F _ Hc) as (_ & _ & ?). by destruct (H t f p).
  - intros files H. assert (length files <= length (calls cs)) as K by (clear -H; induction H; cbn; lia). unfold calls in K. rewrite app_length in K. cbn in K. lia.
Qed.
(** a lexicon and a variant list; a language model before a lexicon; lexicons only *)
Definition cs1 : list py_call := calls [CLexicon (lit "l.tsv"); CVariantList (lit "v.tsv") true].
Definition cs2 : list py_call := calls [CLanguageModel (lit "lm.tsv"); CLexicon (lit "l.tsv")].
Definition cs3 : list py_call := calls [CLexicon (lit "l.tsv"); CEarly; CLexicon (lit "l.tsv")].
#[local] Ltac orderly_calls := apply calls_orderly; [by repeat (constructor; [split; [done|split; [by intros X|done]]|])|cbn; lia].
Lemma cs1_orderly : orderly cs1. Proof. orderly_calls. Qed.
Lemma cs2_orderly : orderly cs2. Proof. orderly_calls. Qed.
Lemma cs3_orderly : orderly cs3. Proof. orderly_calls. Qed.
Definition returned {A} (x : pyres A) : bool := match x with Returned _ => true | _ => false end.
Lemma leaves_session cs : returned (exsession cs) = true -> leaves cs (exm cs).
Proof.
  unfold exm, exsession. intros H. destruct (py_model _ _ _ _) as [m0| |]; cbn [pybind] in *; [|done..]. exists m0. split; [done|]. by destruct (py_steps _ _ _ _ _ _ _ _ _).
Qed.
(** what [within_limits] asks, checked *)
Definition limits (m : model) : bool :=
  (length (m_alphabet m) <=? 166) && (length (m_lexicons m) <=? 32) &&
  forallb (fun v => (count_spaces (vv_text v) <? 255) && (N.of_nat (length (vv_text v)) <? 65536)%N) (m_decoder m) &&
  (sum_frequency (m_decoder m) <? 4294967296)%N && bool_decide (m_confusables m = []).
Lemma limits_ok m : m_weights m = C_Program.the_weights -> limits m = true ->
  forallb (fun v => forallb (fun rs => valid_binary 53 1024 rs.2 && fle f0 rs.2 && fle rs.2 f1) (stored_references v)) (m_decoder m) = true -> within_limits m.
Proof.
  intros Hw H Hl. unfold limits in H. repeat rewrite andb_true_iff in H. destruct H as [[[[H1 H2] H3] H4] H5].
  apply Nat.leb_le in H1, H2. apply N.ltb_lt in H4. apply bool_decide_eq_true_1 in H5. split; [done| |done| |done| |by rewrite H5; cbn; lia|rewrite H5; constructor].
  - rewrite Hw. split; [|by vm_compute]. by repeat (constructor; [by vm_compute|]).
  - apply Forall_forall. intros v Hv. rewrite forallb_forall in H3. apply elem_of_list_In, H3 in Hv. apply andb_prop in Hv as [G1 G2]. apply Nat.ltb_lt in G1. apply N.ltb_lt in G2. done.
  - by apply C_Find.links_check.
Qed.
Lemma session_ok cs : orderly cs -> returned (exsession cs) = true -> means cs (exm cs).
Proof.
  intros Od H. apply leaves_session in H. destruct (C_Session.C84_session C_Matches.space C_Options.exnum C_Options.exnum32 (fun _ => None) Datatypes.id Datatypes.id fs (lit "a.tsv") C_Program.the_weights cs (exm cs)) as [H1 _];
    [done|by intros l|done|done].
Qed.
#[local] Ltac limits_hold := apply limits_ok; by vm_compute.
Lemma only_lexicon t cs : (forall n, CLexicon n ∈ cs -> n = lit "l.tsv") -> in_lexicons fs t cs -> t = lit "baaa" \/ t = lit "baab".
Proof.
  intros Hc (n & f & ln & fd & Hn & (ls & Hf & ->) & Hl & _ & Hs & Ht). apply Hc in Hn as ->. assert (ls = [C_Program.row "baaa	9"; C_Program.row "baab"]) as -> by (injection Hf; by intros <-).
  apply P_RuleFile.fields_split in Hs. subst fd. cbn in Hl. apply elem_of_cons in Hl as [->|Hl]; [left|right].
  - vm_compute in Ht. injection Ht as <-. done.
  - apply elem_of_list_singleton in Hl as ->. vm_compute in Ht. injection Ht as <-. done.
Qed.
Lemma is_in_lexicon cs : CLexicon (lit "l.tsv") ∈ cs -> in_lexicons fs (lit "baab") cs.
Proof.
  intros H. exists (lit "l.tsv"), (File (lit "l.tsv") [lit "baaa	9"; lit "baab"]), (lit "baab"), [lit "baab"]. split; [done|]. split; [by eexists|].
  split; [right; left|]. split; [done|]. split; [by apply P_RuleFile.fields_split|done].
Qed.

(** Sessions that meet the hypotheses; the names of the files of the entries. *)
Example C85_ex : orderly cs3 /\ means cs3 (exm cs3) /\ within_limits (exm cs3) /\ Forall (fun c => adds_entries c -> exists n, c = CLexicon n) cs3 /\
  py_contains (exm cs3) (lit "baab") = Ok true /\ py_contains (exm cs3) (lit "baba") = Ok false.
Proof.
  split; [exact cs3_orderly|]. split; [apply session_ok; [exact cs3_orderly|by vm_compute]|]. split; [limits_hold|].
  split; [|split; by vm_compute]. repeat (constructor; [intros H; try (by eexists); exfalso; destruct H as (? & ? & X); by inversion X|]). constructor.
Qed.
Example C85_ex_names : orderly cs1 /\ means cs1 (exm cs1) /\ within_limits (exm cs1) /\ (forall t f p, CAdd t f p ∉ cs1) /\
  map (fun v => (vv_text v, lexicon_names (m_lexicons (exm cs1)) v)) (drop 3 (m_decoder (exm cs1))) =
    [(lit "baaa", [lit "l.tsv"]); (lit "baab", [lit "l.tsv"; lit "v.tsv"]); (lit "baba", [lit "v.tsv"])].
Proof.
  split; [exact cs1_orderly|]. split; [apply session_ok; [exact cs1_orderly|by vm_compute]|]. split; [limits_hold|]. split; [|by vm_compute].
  intros t f p H. unfold cs1, calls in H. cbn [app] in H. repeat (apply elem_of_cons in H as [H|H]; [by inversion H|]). by apply elem_of_nil in H.
Qed.

(** A text that is only in a variant list is "in" the model. *)
Theorem C85_variants_refuted : exists cs m, orderly cs /\ leaves cs m /\ within_limits m /\
  exists t, py_contains m t = Ok true /\ ~ in_lexicons fs t cs.
Proof.
  exists cs1, (exm cs1). split; [exact cs1_orderly|]. split; [apply leaves_session; by vm_compute|]. split; [limits_hold|]. exists (lit "baba"). split; [by vm_compute|].
  intros K. apply only_lexicon in K as [K|K]; [done|done|]. intros n H. unfold cs1, calls in H. cbn [app] in H.
  repeat (apply elem_of_cons in H as [H|H]; [by inversion H|]). by apply elem_of_nil in H.
Qed.
(** A text of a lexicon is not "in" the model if a language model with it is read first. *)
Theorem C85_lost_refuted : exists cs m, orderly cs /\ leaves cs m /\ within_limits m /\
  exists t, ~ special_text t /\ in_lexicons fs t cs /\ py_contains m t = Ok false.
Proof.
  exists cs2, (exm cs2). split; [exact cs2_orderly|]. split; [apply leaves_session; by vm_compute|]. split; [limits_hold|]. exists (lit "baab"). split; [|split; [|by vm_compute]].
  - by intros [H|[H|H]].
  - apply is_in_lexicon. right. left.
Qed.
(** An added word is reported as being in the first file. *)
Theorem C85_added_refuted : exists cs m, orderly cs /\ leaves cs m /\ within_limits m /\
  exists id v, m_decoder m !! id = Some v /\ lexicon_names (m_lexicons m) v = [lit "l.tsv"] /\ CLexicon (lit "l.tsv") ∈ cs /\ ~ in_lexicons fs (vv_text v) [CLexicon (lit "l.tsv")].
Proof.
  exists C_Session.excs, C_Session.exm. split; [exact C_Session.exorderly|]. split; [exact C_Session.exsession_ok|]. split; [exact C_Session.exlimits|].
  assert (exists v, m_decoder C_Session.exm !! 7 = Some v /\ vv_text v = lit "cab" /\ lexicon_names (m_lexicons C_Session.exm) v = [lit "l.tsv"]) as (v & D & Ht & E).
  { assert (fmap (fun v => (vv_text v, lexicon_names (m_lexicons C_Session.exm) v)) (m_decoder C_Session.exm !! 7) = Some (lit "cab", [lit "l.tsv"])) as H by (by vm_compute).
    apply fmap_Some_1 in H as (v & D & E). exists v. split; [exact D|]. split; [exact (eq_sym (f_equal fst E))|exact (eq_sym (f_equal snd E))]. }
  exists 7, v. split; [exact D|]. split; [exact E|]. split; [left|]. rewrite Ht. intros K. apply only_lexicon in K as [K|K]; [done|done|]. intros n H. by apply elem_of_list_singleton in H as [= ->].
Qed.
Print Assumptions C85_variants_refuted.
Print Assumptions C85_lost_refuted.
Print Assumptions C85_added_refuted.
