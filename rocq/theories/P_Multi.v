(** Proofs about the files per lexicon. *)
From Coq Require String Ascii.
From Verif Require Import M_Base P_Base M_Float M_Types M_Model M_Search M_Learn M_Cli S_Model S_Cli S_Learn P_Parse P_Cli P_Json P_JsonOut P_CliOut M_Multi S_Multi.
Import String.StringSyntax Ascii.AsciiSyntax.
From stdpp Require Import options.

Lemma references_stored v : references v = stored_variants v.
Proof. unfold references, stored_variants. by destruct (vv_variants v). Qed.

Section files.
  Context (m : model) (lexicons : N -> list nat) (line : str -> f64 -> N -> str).
  Definition writes_of (x : vocab_value * f64) : list (nat * str) :=
    map (fun i => (i, line (vv_text x.1) x.2 (vv_frequency x.1))) (lexicons (vv_lexindex x.1)).
  Lemma entry_writes v l : Forall2 (linked_to m) (stored_variants v) l -> multi_entry m lexicons line v = Ok (concat (map writes_of l)).
  Proof.
    intros F. unfold multi_entry. rewrite references_stored. rewrite (rmapM_ok _ _ (map writes_of l)); [done|].
    apply Forall2_fmap_r. eapply Forall2_impl; [exact F|]. intros [y s] [w t] [H1 H2]. cbn [fst snd] in *. subst t.
    unfold multi_variant. cbn [fst snd]. rewrite H1. done.
  Qed.
  Lemma all_writes l : variants_listed m l -> multi_writes m lexicons line = Ok (concat (map writes_of l)).
  Proof.
    intros (ls & F & ->). unfold multi_writes. rewrite (rmapM_ok _ _ (map (fun l => concat (map writes_of l)) ls)).
    - cbn. f_equal. clear F. induction ls as [|a ls IH]; cbn; [done|]. by rewrite map_app, concat_app, IH.
    - apply Forall2_fmap_r. eapply Forall2_impl; [exact F|]. intros v a. apply entry_writes.
  Qed.
  Lemma listed : links_resolve m -> exists l, variants_listed m l.
  Proof.
    intros H. assert (forall vs, (forall v, v ∈ vs -> v ∈ m_decoder m) -> exists ls, Forall2 (fun v l => Forall2 (linked_to m) (stored_variants v) l) vs ls) as G.
    { induction vs as [|v vs IH]; intros Hin; [exists []; constructor|].
      destruct IH as (ls & F); [intros; apply Hin; by right|].
      assert (exists l, Forall2 (linked_to m) (stored_variants v) l) as (l & Fl).
      { specialize (H v). assert (v ∈ m_decoder m) as Hv by (apply Hin; left). clear - H Hv. revert H. generalize (stored_variants v) as ys.
        induction ys as [|[y s] ys IH]; intros H; [exists []; constructor|].
        destruct IH as (l & F); [intros y' s' Hi; intros Hj; apply (H y' s'); [done|by right]|].
        destruct (H y s Hv ltac:(left)) as (w & Hw). exists ((w, s) :: l). constructor; [|done]. by split. }
      exists (l :: ls). by constructor. }
    destruct (G (m_decoder m)) as (ls & F); [done|]. exists (concat ls), ls. done.
  Qed.
End files.

(** What is in a file. *)
Definition sent (i : nat) (ws : list (nat * str)) : list str := map snd (List.filter (fun w => w.1 =? i) ws).
Lemma files_lookup ws i : files_of_writes ws !! i = match sent i ws with [] => None | ls => Some (concat ls) end.
Proof.
  unfold files_of_writes.
  assert (forall (f : gmap nat str), foldl write_file f ws !! i =
    match sent i ws with [] => f !! i | ls => Some (default [] (f !! i) ++ concat ls) end) as G.
  { unfold sent. induction ws as [|[j s] ws IH]; intros f; cbn [foldl List.filter map]; [done|]. rewrite IH. unfold write_file. cbn [fst snd].
    destruct (Nat.eqb_spec j i) as [->|Hn]; cbn [map snd].
    - rewrite lookup_insert. cbn [default from_option]. destruct (map snd _) as [|t ts]; cbn [concat]; [unfold Datatypes.id; by rewrite app_nil_r|]. unfold Datatypes.id. by rewrite <- app_assoc.
    - by rewrite lookup_insert_ne. }
  rewrite G, lookup_empty. cbn. by destruct (sent i ws).
Qed.
Lemma sent_app i a b : sent i (a ++ b) = sent i a ++ sent i b.
Proof. unfold sent. by rewrite List.filter_app, map_app. Qed.
Lemma sent_one i (js : list nat) (s : str) : NoDup js -> (i ∈ js /\ sent i (map (fun j => (j, s)) js) = [s]) \/ (i ∉ js /\ sent i (map (fun j => (j, s)) js) = []).
Proof.
  unfold sent. induction 1 as [|j js Hj Hd IH]; [right; split; [apply not_elem_of_nil|done]|]. cbn [map List.filter fst].
  destruct (Nat.eqb_spec j i) as [->|Hn].
  - left. split; [by left|]. destruct IH as [[H _]|[_ H]]; [done|]. cbn [map snd]. by rewrite H.
  - destruct IH as [[H1 H2]|[H1 H2]]; [left; split; [by right|done]|right; split; [|done]]. rewrite elem_of_cons. by intros [E|E].
Qed.

Section contents.
  Context (m : model) (lexicons : N -> list nat) (line : str -> f64 -> N -> str).
  Context (P : nat -> vocab_value * f64 -> Prop) (says_line : vocab_value * f64 -> str -> Prop).
  Context (lexicons_in : forall x i, i ∈ lexicons (vv_lexindex x.1) <-> i < length (m_lexicons m) /\ P i x).
  Context (lexicons_once : forall n, NoDup (lexicons n)).
  Lemma contents l i : (forall x, x ∈ l -> says_line x (line (vv_text x.1) x.2 (vv_frequency x.1))) -> i < length (m_lexicons m) ->
    exists l', selects (P i) l l' /\ Forall2 says_line l' (sent i (concat (map (writes_of lexicons line) l))).
  Proof using lexicons_in lexicons_once.
    intros HS Hi. induction l as [|x l IH]; [exists []; split; constructor|].
    destruct IH as (l' & S & F); [intros; apply HS; by right|]. cbn [map concat]. rewrite sent_app.
    unfold writes_of at 1. destruct (sent_one i (lexicons (vv_lexindex x.1)) (line (vv_text x.1) x.2 (vv_frequency x.1)) (lexicons_once _)) as [[H1 H2]|[H1 H2]].
    - exists (x :: l'). split; [constructor; [by apply lexicons_in in H1 as [_ H1]|done]|]. rewrite H2. cbn [app]. constructor; [apply HS; left|done].
    - exists l'. split; [apply selects_skip; [|done]|]; [intros Hp; apply H1; apply lexicons_in; done|]. by rewrite H2.
  Qed.
  Lemma nothing l i : length (m_lexicons m) <= i -> sent i (concat (map (writes_of lexicons line) l)) = [].
  Proof using says_line lexicons_in lexicons_once.
    intros Hi. induction l as [|x l IH]; [done|]. cbn [map concat]. rewrite sent_app, IH, app_nil_r. unfold writes_of.
    destruct (sent_one i (lexicons (vv_lexindex x.1)) (line (vv_text x.1) x.2 (vv_frequency x.1)) (lexicons_once _)) as [[H1 H2]|[H1 H2]]; [|done].
    apply lexicons_in in H1 as [H1 _]. lia.
  Qed.
  Lemma files_have_contents : links_resolve m ->
    (forall x, x.1 ∈ m_decoder m -> says_line x (line (vv_text x.1) x.2 (vv_frequency x.1)) \/ ~ exists v y, v ∈ m_decoder m /\ (y, x.2) ∈ stored_variants v /\ m_decoder m !! y = Some x.1) ->
    exists files, rmap files_of_writes (multi_writes m lexicons line) = Ok files /\ files_have m P says_line files.
  Proof using lexicons_in lexicons_once.
    intros R HS. destruct (listed m R) as (l & Hl). rewrite (all_writes m lexicons line l Hl). eexists. split; [reflexivity|].
    assert (forall x, x ∈ l -> says_line x (line (vv_text x.1) x.2 (vv_frequency x.1))) as HS'.
    { intros x Hx. destruct Hl as (ls & F & ->). apply elem_of_list_In, in_concat in Hx as (a & Ha & Hx). apply elem_of_list_In in Ha, Hx.
      apply elem_of_list_lookup in Ha as (k & Ha). destruct (Forall2_lookup_r _ _ _ _ _ F Ha) as (v & Hv & Fv).
      apply elem_of_list_lookup in Hx as (k' & Hx). destruct (Forall2_lookup_r _ _ _ _ _ Fv Hx) as ([y s] & Hy & L1 & L2). cbn [fst snd] in *.
      destruct (HS x ltac:(by eapply elem_of_list_lookup_2)) as [H|H]; [done|]. destruct H. exists v, y. rewrite L2.
      split; [by eapply elem_of_list_lookup_2|]. split; [by eapply elem_of_list_lookup_2|done]. }
    exists l. split; [done|]. split.
    - intros i Hi. destruct (contents l i HS' Hi) as (l' & Sl & F). exists l'. split; [done|]. rewrite files_lookup.
      destruct F as [|x s l' ls Hx F]; [left; done|right]. split; [done|]. exists (s :: ls). split; [by constructor|done].
    - intros i Hi. rewrite files_lookup, nothing by done. done.
  Qed.
End contents.

(** ** Both forms *)
Lemma seq_filter_once (f : nat -> bool) n : NoDup (List.filter f (seq 0 n)).
Proof. apply NoDup_ListNoDup. apply List.NoDup_filter, List.seq_NoDup. Qed.

Section forms.
  Context (fmt : f64 -> str) (m : model).
  Lemma tsv_files : links_resolve m -> exists files, multi_files_tsv fmt m = Ok files /\ files_have m not_first_or_second (line_says fmt) files.
  Proof.
    intros R. unfold multi_files_tsv. apply files_have_contents; [|intros; apply seq_filter_once|done|].
    - intros x i. rewrite multi_tsv_in. unfold not_first_or_second. done.
    - intros [v s] _. left. exists (show (vv_frequency v)). split; [apply show_reads|]. cbn [fst snd]. unfold multi_tsv_line, tab, newline. cbn [joined].
      by repeat (rewrite <- app_assoc || rewrite <- app_comm_cons || rewrite app_nil_l).
  Qed.
  Lemma json_files : links_resolve m ->
    (forall x, finite x -> number (fmt x)) -> (forall v, v ∈ m_decoder m -> clean (vv_text v)) ->
    (forall v y s, v ∈ m_decoder m -> (y, s) ∈ stored_variants v -> finite s) ->
    exists files, multi_files_json fmt m = Ok files /\ files_have m in_the_lexicon (member_says the_frequency (the_score fmt)) files.
  Proof.
    intros R HN HC HF. unfold multi_files_json. apply files_have_contents; [|intros; apply seq_filter_once|done|].
    - intros x i. rewrite multi_json_in. done.
    - intros [v s] Hv. cbn [fst snd] in *. assert (finite s \/ ~ finite s) as [Hs|Hs] by (destruct s; cbn; tauto).
      2: { right. intros (w & y & Hw & Hy & _). by eapply Hs, HF. }
      left. unfold member_says, the_frequency, the_score. cbn [fst snd].
      exists (lit "        { ""text"": """ ++ escape (vv_text v) ++ lit """,  ""score"": " ++ show (vv_frequency v) ++ lit ", ""freq"": " ++ fmt s ++ lit " }"),
        (show (vv_frequency v)), (fmt s).
      split; [apply show_reads|]. split; [done|]. split; [unfold multi_json_line; flat|].
      exists [32;32;32;32;32;32;32;32]%N.
      eexists (123%N :: ([32%N] ++ (lit """text""") ++ [] ++ 58%N :: [32%N] ++ (34%N :: escape (vv_text v) ++ [34%N]) ++ [] ++ 44%N ::
         ([32; 32]%N ++ lit """score""" ++ [] ++ 58%N :: [32%N] ++ show (vv_frequency v) ++ [] ++ 44%N ::
           ([32]%N ++ lit """freq""" ++ [] ++ 58%N :: [32%N] ++ fmt s ++ [32%N]))) ++ [125%N]), [].
      split; [flat|]. split; [wh|]. split; [|wh]. apply value_object. apply members_more; wh.
      + change (string (34%N :: name "text" ++ [34%N]) (name "text")). constructor. apply clean_chars; [repeat constructor; by vm_compute|]. by vm_compute; set_solver.
      + constructor. apply escape_string, HC, Hv.
      + apply members_more; wh.
        * change (string (34%N :: name "score" ++ [34%N]) (name "score")). constructor. apply clean_chars; [repeat constructor; by vm_compute|]. by vm_compute; set_solver.
        * constructor. apply show_number.
        * apply members_one; wh.
          -- change (string (34%N :: name "freq" ++ [34%N]) (name "freq")). constructor. apply clean_chars; [repeat constructor; by vm_compute|]. by vm_compute; set_solver.
          -- constructor. by apply HN.
  Qed.
End forms.
