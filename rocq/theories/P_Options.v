(** Proofs about the options of the command line tool. *)
From Coq Require Import Lia.
From Coq Require String Ascii.
From Verif Require Import M_Base M_Anahash M_Float M_Types M_Model M_Values M_Cli M_Options.
From Verif Require Import S_Model S_Values S_Cli S_Options P_Base P_Vocab P_Values.
Import String.StringSyntax Ascii.AsciiSyntax.
From stdpp Require Import options.
#[local] Arguments lit : simpl never.
#[local] Arguments name : simpl never.

Lemma occurrences_elem l ts i v :
  (i, v) ∈ occurrences l ts <-> (ts !! i = Some (TFlag l) /\ v = []) \/ ts !! i = Some (TOption l v).
Proof.
  unfold occurrences. rewrite elem_of_list_omap. split.
  - intros ([j t] & H & E). apply elem_of_lookup_imap in H as (k & u & [= -> ->] & H). cbn in E.
    unfold occurrence in E. destruct u as [l'|l' w|n]; [..|done]; case_bool_decide; cbn in E; try done.
    + subst. injection E as <- <-. by left.
    + subst. injection E as <- <-. by right.
  - intros [[H ->]|H].
    + exists (i, TFlag l). split; [by eapply elem_of_lookup_imap_2 in H|]. cbn. by rewrite bool_decide_true.
    + exists (i, TOption l v). split; [by eapply elem_of_lookup_imap_2 in H|]. cbn. by rewrite bool_decide_true.
Qed.

Lemma occurrences_cons l t ts :
  occurrences l (t :: ts) =
  match occurrence l t with Some v => [(0, v)] | None => [] end ++ map (prod_map S id) (occurrences l ts).
Proof.
  unfold occurrences. cbn [imap omap list_omap fst snd].
  assert (omap (fun x : nat * typed => option_map (pair x.1) (occurrence l x.2)) (imap (pair ∘ S) ts) =
    map (prod_map S id) (omap (fun x : nat * typed => option_map (pair x.1) (occurrence l x.2)) (imap pair ts))) as E.
  { assert (imap (pair ∘ S) ts = map (prod_map S id) (imap pair ts)) as ->.
    { symmetry. exact (fmap_imap (pair : nat -> typed -> _) (prod_map S id) ts). }
    generalize (imap pair ts). intros L. induction L as [|[j u] L IH]; [done|].
    cbn. destruct (occurrence l u); cbn; [f_equal; apply IH|apply IH]. }
  cbn. destruct (occurrence l t); cbn; f_equal; exact E.
Qed.
Lemma occurrences_app l ts ts' :
  occurrences l (ts ++ ts') = occurrences l ts ++ map (prod_map (Nat.add (length ts)) id) (occurrences l ts').
Proof.
  induction ts as [|t ts IH].
  - cbn [app length]. replace (map (prod_map (Nat.add 0) id) (occurrences l ts')) with (occurrences l ts'); [done|].
    generalize (occurrences l ts'). intros L. induction L as [|[i v] L IH]; [done|]. cbn. by f_equal.
  - cbn [app]. rewrite !occurrences_cons, IH, map_app, map_map, <- app_assoc. do 2 f_equal.
Qed.
Lemma occurrences_nil l ts : occurrences l ts = [] <-> TFlag l ∉ ts /\ forall v, TOption l v ∉ ts.
Proof.
  split.
  - intros E. split.
    + intros [i H]%elem_of_list_lookup. assert ((i, []) ∈ occurrences l ts) as H' by (apply occurrences_elem; by left).
      rewrite E in H'. by apply elem_of_nil in H'.
    + intros v [i H]%elem_of_list_lookup. assert ((i, v) ∈ occurrences l ts) as H' by (apply occurrences_elem; by right).
      rewrite E in H'. by apply elem_of_nil in H'.
  - intros [H1 H2]. destruct (occurrences l ts) as [|[i v] o] eqn:E; [done|]. exfalso.
    assert ((i, v) ∈ occurrences l ts) as H by (rewrite E; left). apply occurrences_elem in H as [[H _]|H].
    + apply H1. by eapply elem_of_list_lookup_2.
    + eapply H2. by eapply elem_of_list_lookup_2.
Qed.
(** the positions increase *)
Lemma occurrences_sorted l ts : Sorted.StronglySorted lt (map fst (occurrences l ts)).
Proof.
  induction ts as [|t ts IH]; [constructor|]. rewrite occurrences_cons, map_app, map_map.
  assert (Sorted.StronglySorted lt (map (fun x : nat * str => fst (prod_map S id x)) (occurrences l ts))) as H.
  { revert IH. generalize (occurrences l ts). intros L. induction L as [|[i v] L IHL]; intros HS; [constructor|].
    cbn in *. apply Sorted.StronglySorted_inv in HS as [H1 H2]. constructor; [by apply IHL|].
    rewrite Forall_forall in H2 |- *. intros x Hx. apply elem_of_list_fmap in Hx as ([j w] & -> & Hj). cbn.
    assert (j ∈ map fst L) by (apply elem_of_list_fmap; by exists (j, w)). specialize (H2 _ H). lia. }
  destruct (occurrence l t); [|done]. cbn. constructor; [done|]. rewrite Forall_forall.
  intros x Hx. apply elem_of_list_fmap in Hx as ([j w] & -> & Hj). cbn. lia.
Qed.

(** ** What clap accepts *)
Lemma accepted_known c ts : forallb (known c) ts = true <->
  (forall l, TFlag l ∈ ts -> exists a, a ∈ arguments c /\ a_long a = l /\ a_takes_value a = false) /\
  (forall l v, TOption l v ∈ ts -> exists a, a ∈ arguments c /\ a_long a = l /\ a_takes_value a = true).
Proof.
  rewrite forallb_forall. split.
  - intros H. split.
    + intros l Hl. apply elem_of_list_In, H in Hl. cbn in Hl. apply existsb_exists in Hl as (a & Ha & E).
      apply andb_true_iff in E as [E1 E2]. apply bool_decide_eq_true in E1. exists a. split; [by apply elem_of_list_In|].
      split; [done|]. by destruct (a_takes_value a).
    + intros l v Hl. apply elem_of_list_In, H in Hl. cbn in Hl. apply existsb_exists in Hl as (a & Ha & E).
      apply andb_true_iff in E as [E1 E2]. apply bool_decide_eq_true in E1. exists a. split; [by apply elem_of_list_In|done].
  - intros [H1 H2] [l|l v|n] Ht; [..|done]; cbn; apply existsb_exists.
    + destruct (H1 l) as (a & Ha & El & Et); [by apply elem_of_list_In|]. exists a. split; [by apply elem_of_list_In|].
      rewrite bool_decide_true, Et by done. done.
    + destruct (H2 l v) as (a & Ha & El & Et); [by apply elem_of_list_In|]. exists a. split; [by apply elem_of_list_In|].
      rewrite bool_decide_true, Et by done. done.
Qed.
Lemma occurrences_once l ts : length (occurrences l ts) <= 1 <->
  (forall i j t u, ts !! i = Some t -> ts !! j = Some u ->
    (t = TFlag l \/ exists v, t = TOption l v) -> (u = TFlag l \/ exists v, u = TOption l v) -> i = j).
Proof.
  split.
  - intros H i j t u Hi Hj Ht Hu.
    assert (exists v, (i, v) ∈ occurrences l ts) as [v Hv].
    { destruct Ht as [->|[v ->]]; [exists []|exists v]; apply occurrences_elem; [by left|by right]. }
    assert (exists v, (j, v) ∈ occurrences l ts) as [w Hw].
    { destruct Hu as [->|[w ->]]; [exists []|exists w]; apply occurrences_elem; [by left|by right]. }
    destruct (occurrences l ts) as [|x [|y o]]; [by apply elem_of_nil in Hv| |cbn in H; lia].
    apply elem_of_list_singleton in Hv, Hw. congruence.
  - intros H. pose proof (occurrences_sorted l ts) as HS.
    destruct (occurrences l ts) as [|[i v] [|[j w] o]] eqn:E; [cbn; lia..|]. exfalso.
    assert ((i, v) ∈ occurrences l ts) as Hi by (rewrite E; left).
    assert ((j, w) ∈ occurrences l ts) as Hj by (rewrite E; right; left).
    cbn in HS. apply Sorted.StronglySorted_inv in HS as [_ HS]. apply Forall_cons in HS as [HS _].
    apply occurrences_elem in Hi, Hj.
    assert (i = j); [|lia].
    destruct Hi as [[Hi _]|Hi], Hj as [[Hj _]|Hj]; eapply H; eauto.
Qed.
Lemma typed_value c ts l : forallb (known c) ts = true ->
  (forall a, a ∈ arguments c -> a_long a = l -> a_takes_value a = true) ->
  occurrences l ts <> [] <-> exists v, TOption l v ∈ ts.
Proof.
  intros K T. rewrite occurrences_nil. split.
  - intros H. destruct (occurrences l ts) as [|[i v] o] eqn:E.
    + apply occurrences_nil in E. by destruct H.
    + assert ((i, v) ∈ occurrences l ts) as Hi by (rewrite E; left). apply occurrences_elem in Hi as [[Hi _]|Hi].
      * apply elem_of_list_lookup_2 in Hi. apply accepted_known in K as [K _]. destruct (K _ Hi) as (a & Ha & El & Et).
        rewrite (T _ Ha El) in Et. done.
      * exists v. by eapply elem_of_list_lookup_2.
  - intros [v H] [_ H']. by eapply H'.
Qed.
(** in [arguments c] the option with long name [l] takes a value *)
Definition takes_value_check (c : command) (l : str) : bool :=
  forallb (fun a => negb (bool_decide (a_long a = l)) || a_takes_value a) (arguments c).
Lemma takes_value_checked c l : takes_value_check c l = true -> forall a, a ∈ arguments c -> a_long a = l -> a_takes_value a = true.
Proof.
  unfold takes_value_check. rewrite forallb_forall. intros H a Ha E. apply elem_of_list_In, H in Ha.
  rewrite bool_decide_true in Ha by done. done.
Qed.
Lemma accepted_spec c ts : accepted c ts = true <-> well_typed c ts.
Proof.
  unfold accepted. rewrite !andb_true_iff. split.
  - intros (((K & R) & A) & L). pose proof (proj1 (accepted_known c ts) K) as [K1 K2]. split; [done..| | |].
    + intros a l i j t u Ha El Em. rewrite forallb_forall in R. apply elem_of_list_In, R in Ha. rewrite Em in Ha. cbn in Ha.
      apply Nat.leb_le in Ha. rewrite El in Ha. exact (proj1 (occurrences_once l ts) Ha i j t u).
    + apply (typed_value c ts (name "alphabet")); [done| |by apply negb_true_iff, bool_decide_eq_false in A].
      apply takes_value_checked. by destruct c; vm_compute.
    + apply orb_true_iff in L as [L|L].
      * assert (exists v, TOption (name "lexicon") v ∈ ts) as [v Hv]; [|exists v; by left].
        apply (typed_value c ts (name "lexicon")); [done| |by apply negb_true_iff, bool_decide_eq_false in L]. apply takes_value_checked. by destruct c; vm_compute.
      * assert (exists v, TOption (name "variants") v ∈ ts) as [v Hv]; [|exists v; by right].
        apply (typed_value c ts (name "variants")); [done| |by apply negb_true_iff, bool_decide_eq_false in L]. apply takes_value_checked. by destruct c; vm_compute.
  - intros [K1 K2 R A L]. assert (forallb (known c) ts = true) as K by (by apply accepted_known). split; [split; [split; [done|]|]|].
    + apply forallb_forall. intros a Ha%elem_of_list_In. destruct (a_multiple a) eqn:Em; [done|]. cbn. apply Nat.leb_le.
      apply occurrences_once. intros i j t u. by eapply R.
    + apply negb_true_iff, bool_decide_eq_false. apply (typed_value c ts (name "alphabet")); [done| |done].
      apply takes_value_checked. by destruct c; vm_compute.
    + apply orb_true_iff. destruct L as [v [H|H]]; [left|right]; apply negb_true_iff, bool_decide_eq_false.
      * apply (typed_value c ts (name "lexicon")); [done| |by exists v]. apply takes_value_checked. by destruct c; vm_compute.
      * apply (typed_value c ts (name "variants")); [done| |by exists v]. apply takes_value_checked. by destruct c; vm_compute.
Qed.

(** ** Values of options *)
(** The option [l] is defined as documented: found by its own name, with the
    documented default, not repeatable; or it is unknown. *)
Definition defined_as_documented (c : command) (l : str) : bool :=
  let docs := List.filter (fun x : str * str => bool_decide (x.1 = l)) (documented c) in
  match definition_of c l with
  | Some a => bool_decide (a_long a = l) && a_takes_value a && negb (a_multiple a) &&
      bool_decide (docs = match a_default a with Some d => [(l, d)] | None => [] end) &&
      takes_value_check c l
  | None => bool_decide (docs = []) && forallb (fun a => negb (bool_decide (a_long a = l))) (arguments c)
  end.
Lemma docs_elem c l v : (l, v) ∈ documented c <-> (l, v) ∈ List.filter (fun x : str * str => bool_decide (x.1 = l)) (documented c).
Proof.
  rewrite !elem_of_list_In, filter_In. cbn. rewrite bool_decide_eq_true. tauto.
Qed.
Lemma definition_elem c l a : definition_of c l = Some a -> a ∈ arguments c.
Proof. intros H. apply find_some in H as [H _]. by apply elem_of_list_In. Qed.
Lemma value_spec c ts l v : accepted c ts = true -> defined_as_documented c l = true ->
  value_of c ts l = Some v <-> in_force c ts l v.
Proof.
  intros A D. pose proof (proj1 (accepted_spec c ts) A) as W.
  assert (forallb (known c) ts = true) as K by (apply accepted_known; split; apply W).
  unfold defined_as_documented in D. unfold value_of. destruct (definition_of c l) as [a|] eqn:Ea.
  - apply definition_elem in Ea. rewrite !andb_true_iff, !bool_decide_eq_true in D. destruct D as ((((El & Et) & Em) & Ed) & T).
    apply negb_true_iff in Em. rewrite El.
    pose proof (typed_value c ts l K (takes_value_checked c l T)) as TV.
    destruct (occurrences l ts) as [|[i w] o] eqn:Eo.
    + assert (forall w, TOption l w ∉ ts) as N by (by apply occurrences_nil). split.
      * intros Hd. apply in_force_default; [done|]. rewrite docs_elem, Ed, Hd. left.
      * intros [u Hu|u _ Hu]; [by destruct (N u)|]. rewrite docs_elem, Ed in Hu. destruct (a_default a); [|by apply elem_of_nil in Hu].
        apply elem_of_list_singleton in Hu. congruence.
    + assert ((i, w) ∈ occurrences l ts) as Hi by (rewrite Eo; left).
      apply occurrences_elem in Hi as [[Hi _]|Hi].
      { apply elem_of_list_lookup_2 in Hi. destruct (wt_flags _ _ W _ Hi) as (b & Hb & Eb & Tb).
        rewrite (takes_value_checked c l T _ Hb Eb) in Tb. done. }
      split.
      * intros [= ->]. apply in_force_typed. by eapply elem_of_list_lookup_2.
      * intros [u Hu|u Hu _].
        -- apply elem_of_list_lookup in Hu as [j Hj]. assert (i = j).
           { eapply (wt_once _ _ W a l); eauto. }
           congruence.
        -- destruct (Hu w). by eapply elem_of_list_lookup_2.
  - rewrite andb_true_iff, bool_decide_eq_true in D. destruct D as [Ed U]. split; [done|].
    intros [u Hu|u _ Hu].
    + destruct (wt_options _ _ W _ _ Hu) as (b & Hb & Eb & Tb). rewrite forallb_forall in U. apply elem_of_list_In, U in Hb.
      rewrite bool_decide_true in Hb by done. done.
    + rewrite docs_elem, Ed in Hu. by apply elem_of_nil in Hu.
Qed.
Lemma present_value c ts l : is_present c ts l = match value_of c ts l with Some _ => true | None => false end.
Proof.
  unfold is_present, value_of. destruct (definition_of c l) as [a|]; [|done].
  destruct (occurrences (a_long a) ts) as [|[i w] o]; cbn; [|done]. by destruct (a_default a).
Qed.

(** flags are defined by their own name and have no value, or are unknown *)
Definition flag_defined (c : command) (l : str) : bool :=
  match definition_of c l with
  | Some a => bool_decide (a_long a = l) && (match a_default a with None => true | _ => false end) &&
      forallb (fun b => negb (bool_decide (a_long b = l)) || negb (a_takes_value b)) (arguments c)
  | None => forallb (fun a => negb (bool_decide (a_long a = l))) (arguments c)
  end.
Lemma flag_spec c ts l : accepted c ts = true -> flag_defined c l = true -> is_present c ts l = true <-> TFlag l ∈ ts.
Proof.
  intros A D. pose proof (proj1 (accepted_spec c ts) A) as W. unfold flag_defined in D. unfold is_present.
  destruct (definition_of c l) as [a|] eqn:Ea.
  - rewrite !andb_true_iff, bool_decide_eq_true in D. destruct D as ((El & Ed) & T). rewrite El.
    destruct (a_default a); [done|]. rewrite orb_false_r, negb_true_iff, bool_decide_eq_false. split.
    + intros H. destruct (occurrences l ts) as [|[i w] o] eqn:Eo; [done|].
      assert ((i, w) ∈ occurrences l ts) as Hi by (rewrite Eo; left).
      apply occurrences_elem in Hi as [[Hi _]|Hi]; apply elem_of_list_lookup_2 in Hi; [done|].
      destruct (wt_options _ _ W _ _ Hi) as (b & Hb & Eb & Tb). rewrite forallb_forall in T. apply elem_of_list_In, T in Hb.
      rewrite bool_decide_true, Tb in Hb by done. done.
    + intros H E. by apply occurrences_nil in E as [E _].
  - split; [done|]. intros H. destruct (wt_flags _ _ W _ H) as (b & Hb & Eb & Tb). rewrite forallb_forall in D.
    apply elem_of_list_In, D in Hb. rewrite bool_decide_true in Hb by done. done.
Qed.

(** ** The parameters *)
Section params.
  Context (c : command) (ts : list typed) (Acc : accepted c ts = true).

  Lemma parsed_spec {A} (parse : str -> option A) (R : str -> A -> Prop) (l : String.string) x :
    (forall s y, parse s = Some y <-> R s y) -> defined_as_documented c (lit l) = true ->
    parsed parse (value_of c ts (lit l)) = Ok x <-> option_says R c ts l None x.
  Proof using Acc.
    intros HR D. unfold option_says, parsed. pose proof (fun v => value_spec c ts (lit l) v Acc D) as V. change (name l) with (lit l).
    destruct (value_of c ts (lit l)) as [v|]; cbn.
    - split.
      + intros H. left. exists v. split; [by apply V|]. apply HR. destruct (parse v); [by injection H as ->|done].
      + intros [(w & Hw & Hr)|[_ H]]; [|done]. apply V in Hw as [= ->]. apply HR in Hr. by rewrite Hr.
    - split; [done|]. intros [(w & Hw & _)|[_ H]]; [|done]. by apply V in Hw.
  Qed.
  Lemma parsed_or_spec {A} (parse : str -> option A) (R : str -> A -> Prop) (l : String.string) d x :
    (forall s y, parse s = Some y <-> R s y) -> defined_as_documented c (lit l) = true ->
    parsed_or parse (is_present c ts (lit l)) (value_of c ts (lit l)) d = Ok x <-> option_says R c ts l (Some d) x.
  Proof using Acc.
    intros HR D. unfold parsed_or. rewrite present_value. pose proof (fun v => value_spec c ts (lit l) v Acc D) as V.
    destruct (value_of c ts (lit l)) as [v|] eqn:E.
    - rewrite <- E, (parsed_spec parse R l x HR D). unfold option_says. change (name l) with (lit l).
      assert (in_force c ts (lit l) v) as F by (by apply V). split; (intros [?|[H _]]; [by left|by destruct (H v)]).
    - unfold option_says. change (name l) with (lit l). split.
      + intros [= ->]. right. split; [|done]. intros v Hv. by apply V in Hv.
      + intros [(w & Hw & _)|[_ [= ->]]]; [|done]. by apply V in Hw.
  Qed.
  Lemma value_or_spec {A} (parse : str -> option A) (R : str -> A -> Prop) (l : String.string) d x :
    (forall s y, parse s = Some y <-> R s y) -> defined_as_documented c (lit l) = true ->
    match value_of c ts (lit l) with Some v => rexpect (parse v) | None => Ok d end = Ok x <-> option_says R c ts l (Some d) x.
  Proof using Acc.
    intros HR D. rewrite <- (parsed_or_spec parse R l d x HR D). unfold parsed_or. rewrite present_value.
    by destruct (value_of c ts (lit l)).
  Qed.
End params.

Lemma text_spec {A} (parse : str -> option A) s y : parse s = Some y <-> is_text parse s y.
Proof. done. Qed.
Lemma usize_spec s y : parse_usize s = Some y <-> counts_to 18446744073709551615 s y.
Proof.
  unfold parse_usize, counts_to. destruct (parse_uint 18446744073709551615 s) as [k|] eqn:E; cbn.
  - split.
    + intros [= <-]. exists k. split; [|done]. by apply parse_uint_spec.
    + intros (k' & Hk & ->). apply parse_uint_spec in Hk. congruence.
  - split; [done|]. intros (k' & Hk & _). apply parse_uint_spec in Hk. congruence.
Qed.
Lemma small_spec s y : parse_small s = Some y <-> counts_to 255 s y.
Proof.
  unfold parse_small, parse_u8, counts_to. destruct (parse_uint 255 s) as [k|] eqn:E; cbn.
  - split.
    + intros [= <-]. exists k. split; [|done]. by apply parse_uint_spec.
    + intros (k' & Hk & ->). apply parse_uint_spec in Hk. congruence.
  - split; [done|]. intros (k' & Hk & _). apply parse_uint_spec in Hk. congruence.
Qed.

#[local] Arguments parsed_spec c ts Acc {A} parse R l%string_scope x.
#[local] Arguments parsed_or_spec c ts Acc {A} parse R l%string_scope d x.
#[local] Arguments value_or_spec c ts Acc {A} parse R l%string_scope d x.
Lemma weights_spec pf c ts w : accepted c ts = true -> tool_weights pf c ts = Ok w <-> weights_say pf c ts w.
Proof.
  intros A. unfold tool_weights.
  pose proof (fun x => parsed_spec c ts A pf (is_text pf) "weight-ld" x (text_spec pf)) as H1.
  pose proof (fun x => parsed_spec c ts A pf (is_text pf) "weight-lcs" x (text_spec pf)) as H2.
  pose proof (fun x => parsed_spec c ts A pf (is_text pf) "weight-prefix" x (text_spec pf)) as H3.
  pose proof (fun x => parsed_spec c ts A pf (is_text pf) "weight-suffix" x (text_spec pf)) as H4.
  pose proof (fun x => parsed_spec c ts A pf (is_text pf) "weight-case" x (text_spec pf)) as H5.
  split.
  - intros E. apply rbind_ok in E as (? & E1 & E). apply rbind_ok in E as (? & E2 & E). apply rbind_ok in E as (? & E3 & E).
    apply rbind_ok in E as (? & E4 & E). apply rbind_ok in E as (? & E5 & [= <-]).
    split; cbn; [apply H1|apply H2|apply H3|apply H4|apply H5]; try done; by destruct c; vm_compute.
  - intros [E1 E2 E3 E4 E5]. apply H1 in E1; [|by destruct c; vm_compute]. apply H2 in E2; [|by destruct c; vm_compute].
    apply H3 in E3; [|by destruct c; vm_compute]. apply H4 in E4; [|by destruct c; vm_compute]. apply H5 in E5; [|by destruct c; vm_compute].
    rewrite E1, E2, E3, E4, E5. by destruct w.
Qed.

Lemma params_spec pf pf32 c ts P : accepted c ts = true ->
  tool_params pf pf32 c ts = Ok P <-> parameters_say pf pf32 c ts P /\ p_unicodeoffsets (tp_search P) = false.
Proof.
  intros A. unfold tool_params.
  pose proof (fun x => parsed_spec c ts A _ _ "max-anagram-distance" x (threshold_parse pf32)) as H1.
  pose proof (fun x => parsed_spec c ts A _ _ "max-edit-distance" x (threshold_parse pf32)) as H2.
  pose proof (fun x => parsed_spec c ts A _ _ "max-matches" x usize_spec) as H3.
  pose proof (fun x => parsed_spec c ts A pf (is_text pf) "score-threshold" x (text_spec pf)) as H4.
  pose proof (fun x => parsed_spec c ts A pf (is_text pf) "cutoff-threshold" x (text_spec pf)) as H5.
  pose proof (fun x => value_or_spec c ts A _ _ "max-ngram-order" 1 x small_spec) as H6.
  pose proof (fun x => parsed_or_spec c ts A pf32 (is_text pf32) "freq-ranking" f0 x (text_spec pf32)) as H7.
  pose proof (fun x => value_or_spec c ts A _ _ "lm-order" 1 x small_spec) as H8.
  pose proof (fun x => parsed_or_spec c ts A pf32 (is_text pf32) "weight-lm" f32_1 x (text_spec pf32)) as H9.
  pose proof (fun x => parsed_or_spec c ts A pf32 (is_text pf32) "weight-variant-model" f32_1 x (text_spec pf32)) as H10.
  pose proof (fun x => parsed_or_spec c ts A pf32 (is_text pf32) "weight-context" f32_1 x (text_spec pf32)) as H11.
  pose proof (fun x => parsed_or_spec c ts A pf32 (is_text pf32) "weight-contextrules" f32_1 x (text_spec pf32)) as H12.
  pose proof (fun x => parsed_or_spec c ts A _ _ "max-seq" (N.to_nat 250) x usize_spec) as H13.
  pose proof (flag_spec c ts (lit "stop-exact") A ltac:(by destruct c; vm_compute)) as F1.
  pose proof (flag_spec c ts (lit "single-thread") A ltac:(by destruct c; vm_compute)) as F2.
  pose proof (flag_spec c ts (lit "interactive") A ltac:(by destruct c; vm_compute)) as F3.
  pose proof (flag_spec c ts (lit "allow-overlap") A ltac:(by destruct c; vm_compute)) as F4.
  assert (is_present c ts (lit "debug") = false) as F5 by (by destruct c; vm_compute).
  assert (is_present c ts (lit "unicode-offsets") = false) as F6 by (by destruct c; vm_compute).
  rewrite F5, F6.
  assert (forall (b : bool) (X : Prop), (b = true <-> X) -> if (if b then StopAtExactMatch else Exhaustive) then ~ X else X) as Stop.
  { intros [] X HX; [by apply HX|]. intros HX'. apply HX in HX'. done. }
  split.
  - intros E. apply rbind_ok in E as (? & E1 & E). apply rbind_ok in E as (? & E2 & E). apply rbind_ok in E as (? & E3 & E).
    apply rbind_ok in E as (? & E4 & E). apply rbind_ok in E as (? & E5 & E). apply rbind_ok in E as (? & E6 & E).
    apply rbind_ok in E as (? & E7 & E). apply rbind_ok in E as (? & E8 & E). apply rbind_ok in E as (? & E9 & E).
    apply rbind_ok in E as (? & E10 & E). apply rbind_ok in E as (? & E11 & E). apply rbind_ok in E as (? & E12 & E).
    apply rbind_ok in E as (? & E13 & [= <-]).
    apply H1 in E1; [|by destruct c; vm_compute]. apply H2 in E2; [|by destruct c; vm_compute]. apply H3 in E3; [|by destruct c; vm_compute].
    apply H4 in E4; [|by destruct c; vm_compute]. apply H5 in E5; [|by destruct c; vm_compute]. apply H6 in E6; [|by destruct c; vm_compute].
    apply H7 in E7; [|by destruct c; vm_compute]. apply H8 in E8; [|by destruct c; vm_compute]. apply H9 in E9; [|by destruct c; vm_compute].
    apply H10 in E10; [|by destruct c; vm_compute]. apply H11 in E11; [|by destruct c; vm_compute]. apply H12 in E12; [|by destruct c; vm_compute].
    apply H13 in E13; [|by destruct c; vm_compute].
    split; [|done]. split; try done.
    + cbn. by apply Stop.
    + cbn. rewrite orb_false_r, orb_true_iff. unfold flag_typed. change (@name) with lit. by rewrite F2, F3.
    + cbn. rewrite negb_false_iff. by rewrite F4.
  - intros [[E1 E2 E3 E4 E5 G1 E6 E13 E10 E9 E12 E7 G2 G3 E8 E11] U].
    apply H1 in E1; [|by destruct c; vm_compute]. apply H2 in E2; [|by destruct c; vm_compute]. apply H3 in E3; [|by destruct c; vm_compute].
    apply H4 in E4; [|by destruct c; vm_compute]. apply H5 in E5; [|by destruct c; vm_compute]. apply H6 in E6; [|by destruct c; vm_compute].
    apply H7 in E7; [|by destruct c; vm_compute]. apply H8 in E8; [|by destruct c; vm_compute]. apply H9 in E9; [|by destruct c; vm_compute].
    apply H10 in E10; [|by destruct c; vm_compute]. apply H11 in E11; [|by destruct c; vm_compute]. apply H12 in E12; [|by destruct c; vm_compute].
    apply H13 in E13; [|by destruct c; vm_compute].
    rewrite E1, E2, E3, E4, E5, E6, E7, E8, E9, E10, E11, E12, E13. cbn [rbind]. f_equal.
    destruct P as [p s co lo cw]. destruct p. cbn in *. subst. f_equal; [f_equal|..].
    + change (flag_typed ts "stop-exact") with (TFlag (lit "stop-exact") ∈ ts) in G1. destruct (is_present c ts (lit "stop-exact")).
      * destruct p_stop_criterion; [by destruct G1; apply F1|done].
      * destruct p_stop_criterion; [done|]. apply F1 in G1. done.
    + apply eq_bool_prop_intro. rewrite !Is_true_true, orb_false_r, orb_true_iff, F2, F3. by rewrite G2.
    + destruct co; [|by rewrite (proj2 F4 (proj1 G3 eq_refl))]. destruct (is_present c ts (lit "allow-overlap")); [|done].
      exfalso. assert (true = false); [|done]. apply G3, F4. done.
Qed.
