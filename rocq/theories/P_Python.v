(** Proofs about the parameter objects of the Python bindings. *)
From Coq Require String Ascii.
From Coq Require Import ZArith Lia.
From Verif Require Import M_Base M_Anahash M_Float M_Types M_Model M_Values M_Cli M_Options M_Python S_Model S_Values S_Cli S_Python.
From Verif Require Import P_Base P_Values.
Import String.StringSyntax Ascii.AsciiSyntax.
From stdpp Require Import options.

(** * Conversions *)
Lemma whole_inv v z : whole v z <-> match v with PyInt z' => z' = z | PyBool b => z = (if b then 1 else 0)%Z | _ => False end.
Proof. split; [by destruct 1|]. destruct v as [|[]| | | | | |]; intros E; try done; subst; constructor. Qed.
Lemma uint_spec bound v n : (1 <= bound)%N -> extract_uint bound v = Some n <-> natural bound v n.
Proof.
  intros Hb. unfold natural. rewrite whole_inv. unfold extract_uint. destruct v as [|b|z| | | | |]; try (split; [done|by intros [[] _]]).
  - destruct b; split; intros H; [injection H as <-; split; [done|lia]|f_equal; lia|injection H as <-; split; [done|lia]|f_equal; lia].
  - destruct (Z.leb_spec 0 z), (Z.leb_spec z (Z.of_N bound)); cbn; (split; [intros E; try done; injection E as <-; split; lia|]); intros [E H']; try lia; f_equal; lia.
Qed.
Lemma u8_spec v n : extract_u8 v = Some n <-> natural u8_max v n.
Proof. apply uint_spec. done. Qed.
Lemma usize_spec v n : extract_usize v = Some n <-> natural usize_max v n.
Proof. apply uint_spec. done. Qed.
Lemma f64_spec v x : extract_f64 v = Some x <-> number v x.
Proof.
  unfold number. split.
  - destruct v as [|[]| | | | | |]; cbn; intros E; try done; try (right; eexists; split; [constructor|exact E]). injection E as ->. by left.
  - intros [->|(z & Hz & E)]; [done|]. by destruct Hz.
Qed.
Lemma f32_spec v x : extract_f32 v = Some x <-> single v x.
Proof.
  unfold extract_f32, single. split.
  - intros E. destruct (extract_f64 v) as [y|] eqn:Ey; [|done]. injection E as <-. exists y. split; [by apply f64_spec|done].
  - intros (y & Hy%f64_spec & ->). by rewrite Hy.
Qed.
Lemma bool_spec v b : extract_bool v = Some b <-> truth v b.
Proof. unfold truth. destruct v; cbn; split; congruence. Qed.
Lemma passed_some {A} (e : pyval -> option A) v : e PyNone = None -> passed e v = e v.
Proof. intros En. unfold passed, extract_option. destruct v as [|b|z|y|t|l|l|l]; [by rewrite En|..]; match goal with |- _ = ?x => destruct x end; done. Qed.
Lemma passed_spec {A} (e : pyval -> option A) (R : pyval -> A -> Prop) v x :
  e PyNone = None -> (forall v x, e v = Some x <-> R v x) -> passed e v = Some x <-> R v x.
Proof.
  intros En HR. rewrite <- HR. by rewrite passed_some.
Qed.
Lemma stops_spec v c : (exists b, extract_bool v = Some b /\ c = if b then StopAtExactMatch else Exhaustive) <-> stops v c.
Proof.
  unfold stops. setoid_rewrite bool_spec. split.
  - intros ([] & H & ->); [by left|by right].
  - intros [[H ->]|[H ->]]; eexists; (split; [exact H|done]).
Qed.
Lemma pair_spec v x n : extract_pair v = Some (x, n) <-> exists a b, v = PyTuple [a; b] /\ single a x /\ natural u8_max b n.
Proof.
  split.
  - destruct v as [| | | | |[|a [|b [|]]]| |]; cbn; intros E; try done. destruct (extract_f32 a) eqn:Ea; [|done]. destruct (extract_u8 b) eqn:Eb; [|done].
    injection E as -> ->. exists a, b. split; [done|]. split; [by apply f32_spec|by apply u8_spec].
  - intros (a & b & -> & Ha%f32_spec & Hb%u8_spec). cbn. by rewrite Ha, Hb.
Qed.
Lemma threshold_extract pf32 v t : extract_distance_threshold pf32 v = Some t <-> threshold_given pf32 v t.
Proof.
  unfold extract_distance_threshold. rewrite !passed_some by done. split.
  - destruct (extract_pair v) as [[x n]|] eqn:Ep.
    { apply pair_spec in Ep as (a & b & -> & Ha & Hb). intros [= <-]. by eapply tg_pair. }
    destruct (extract_u8 v) as [n|] eqn:E8; [intros [= <-]; apply tg_absolute; by apply u8_spec|].
    destruct (extract_f32 v) as [x|] eqn:Ef.
    { intros [= <-]. apply tg_ratio; [by apply f32_spec|]. intros n Hn%u8_spec. congruence. }
    destruct v; try done. intros E. eapply tg_text; [done|]. by apply threshold_parse.
  - intros [n H%u8_spec|x H%f32_spec Hn|a b x n -> Ha Hb|s t' -> H].
    + assert (extract_pair v = None) as ->; [by destruct v|]. by rewrite H.
    + assert (extract_pair v = None) as ->; [by destruct v|]. destruct (extract_u8 v) as [n|] eqn:E8; [by apply u8_spec, Hn in E8|]. by rewrite H.
    + assert (extract_pair (PyTuple [a; b]) = Some (x, n)) as ->; [|done]. apply pair_spec. by exists a, b.
    + cbn. by apply threshold_parse.
Qed.

(** * Keyword arguments *)
Lemma takes_fold {P A} (step : P -> str * pyval -> P) (get : P -> A) n (conv : pyval -> option A) (R : pyval -> A -> Prop) kws p0 :
  (forall p k v, get (step p (k, v)) = if bool_decide (k = name n) then default (get p) (conv v) else get p) ->
  (forall v x, conv v = Some x <-> R v x) -> call_of kws -> takes kws n R (get p0) (get (foldl step p0 kws)).
Proof.
  intros Hs HR. unfold call_of, takes. revert p0. induction kws as [|[k v] kws IH]; intros p0 ND; cbn in *.
  { right. split; [intros v y []%not_elem_of_nil|done]. }
  apply NoDup_cons in ND as [Hk ND]. destruct (IH (step p0 (k, v)) ND) as [(v' & Hv & Hr)|[Hno E]].
  { left. exists v'. split; [by apply elem_of_list_further|done]. }
  rewrite E, Hs. clear IH. case_bool_decide as Ek; [subst k|].
  - destruct (conv v) as [x|] eqn:Ec.
    + left. exists v. split; [by left|]. by apply HR.
    + right. split; [|done]. intros v' y [[= ->]|Hv]%elem_of_cons Hy; [apply HR in Hy; congruence|by eapply Hno].
  - right. split; [|done]. intros v' y [[= ?]|Hv]%elem_of_cons Hy; [by subst|by eapply Hno].
Qed.
Lemma call_once kws n v v' : call_of kws -> (n, v) ∈ kws -> (n, v') ∈ kws -> v = v'.
Proof.
  unfold call_of. induction kws as [|[k w] kws IH]; cbn; intros ND H H'; [by apply elem_of_nil in H|]. apply NoDup_cons in ND as [Hk ND].
  assert (forall u, (k, u) ∈ kws -> False) as Hn. { intros u Hu. apply Hk. apply elem_of_list_fmap. by exists (k, u). }
  apply elem_of_cons in H as [[= -> ->]|H], H' as [[= E']|H']; subst; try done.
  - exfalso. by eapply Hn.
  - exfalso. by eapply Hn.
  - by apply IH.
Qed.
Lemma takes_det {A} kws n (R : pyval -> A -> Prop) d x y :
  call_of kws -> (forall v x y, R v x -> R v y -> x = y) -> takes kws n R d x -> takes kws n R d y -> x = y.
Proof.
  intros ND Hf [(v & Hv & Hx)|[Hno ->]] [(v' & Hv' & Hy)|[Hno' ->]]; [..|done].
  - rewrite (call_once _ _ _ _ ND Hv' Hv) in Hy. by eapply Hf.
  - by apply (Hno' _ _ Hv) in Hx.
  - by apply (Hno _ _ Hv') in Hy.
Qed.
Lemma functional {A} (e : pyval -> option A) (R : pyval -> A -> Prop) : (forall v x, e v = Some x <-> R v x) -> forall v x y, R v x -> R v y -> x = y.
Proof. intros HR v x y Hx%HR Hy%HR. congruence. Qed.

(** One field of an object under a table of names. *)
Definition touches {P A} (t : table P) (get : P -> A) (n : str) (conv : pyval -> option A) : Prop :=
  (exists f, assoc n t = Some f /\ forall v p, option_map get (f v p) = conv v) /\
  Forall (fun kf => kf.1 = n \/ forall v p p', kf.2 v p = Some p' -> get p' = get p) t.
Lemma assoc_elem {A} n (l : list (str * A)) x : assoc n l = Some x -> (n, x) ∈ l.
Proof.
  induction l as [|[k y] l IH]; cbn; [done|]. case_bool_decide as E; [intros [= ->]; subst; by left|]. intros H. right. by apply IH.
Qed.
Lemma touches_step {P A} (t : table P) (get : P -> A) n conv p k v : touches t get n conv ->
  get (kwarg t p (k, v)) = if bool_decide (k = n) then default (get p) (conv v) else get p.
Proof.
  intros [(f & Ef & Hf) Hall]. unfold kwarg. cbn. case_bool_decide as E; [subst k|].
  - rewrite Ef. specialize (Hf v p). destruct (f v p) as [p'|]; cbn in *; by rewrite <- Hf.
  - destruct (assoc k t) as [g|] eqn:Eg; [|done]. apply assoc_elem in Eg. eapply Forall_forall in Hall; [|exact Eg].
    destruct Hall as [|Hg]; [done|]. cbn in Hg. specialize (Hg v p). destruct (g v p) as [p'|]; [by apply Hg|done].
Qed.
Lemma touches_takes {P A} (t : table P) (get : P -> A) n conv (R : pyval -> A -> Prop) kws p0 :
  touches t get (name n) conv -> (forall v x, conv v = Some x <-> R v x) -> call_of kws -> takes kws n R (get p0) (get (with_kwargs t p0 kws)).
Proof. intros T HR ND. apply (takes_fold _ get n conv); [intros p k v; by apply touches_step|done|done]. Qed.
Arguments touches_takes {P A} t get n%string_scope conv R kws p0.
Lemma passed_conv {A B} (e : pyval -> option A) (h : A -> B) v : option_map h (passed e v) = passed (fun v => option_map h (e v)) v.
Proof. unfold passed, extract_option. destruct v as [|b|z|y|t|l|l|l]; [done|..]; match goal with |- context [e ?x] => destruct (e x) end; done. Qed.
Definition stop_of (v : pyval) : option stop_criterion := option_map (fun b : bool => if b then StopAtExactMatch else Exhaustive) (passed extract_bool v).
Ltac touch := split; [eexists; (split; [reflexivity|]); intros ? ?; cbn; try unfold stop_of; match goal with |- option_map _ (option_map _ ?x) = _ => destruct x eqn:?; reflexivity end|
  repeat (apply Forall_cons; split; [first [left; reflexivity|right; cbn; let E := fresh in intros ? ? ? E; match type of E with option_map _ ?x = _ => destruct x; [|done] end; injection E as <-; reflexivity]|]); apply Forall_nil; exact Logic.I].

Lemma number_spec v x : passed extract_f64 v = Some x <-> number v x.
Proof. apply passed_spec; [done|apply f64_spec]. Qed.
Lemma single_spec v x : passed extract_f32 v = Some x <-> single v x.
Proof. apply passed_spec; [done|apply f32_spec]. Qed.
Lemma truth_spec v x : passed extract_bool v = Some x <-> truth v x.
Proof. apply passed_spec; [done|apply bool_spec]. Qed.
Lemma natural8_spec v x : passed extract_u8 v = Some x <-> natural u8_max v x.
Proof. apply passed_spec; [done|apply u8_spec]. Qed.
Lemma natural64_spec v x : passed extract_usize v = Some x <-> natural usize_max v x.
Proof. apply passed_spec; [done|apply usize_spec]. Qed.
Lemma stop_spec v c : stop_of v = Some c <-> stops v c.
Proof.
  rewrite <- stops_spec. unfold stop_of. rewrite passed_some by done. destruct (extract_bool v) as [b|]; cbn; split.
  - intros [= <-]. by exists b.
  - by intros (b' & [= ->] & ->).
  - done.
  - by intros (b' & ? & _).
Qed.

(** ** Weights *)
Lemma weights_spec kws w0 w : call_of kws -> w = with_kwargs weights_kwargs w0 kws <-> weights_changed kws w0 w.
Proof.
  intros ND. assert (weights_changed kws w0 (with_kwargs weights_kwargs w0 kws)) as H.
  { split.
    - apply (touches_takes weights_kwargs w_ld "ld" (passed extract_f64) number kws w0); [touch|apply number_spec|done].
    - apply (touches_takes weights_kwargs w_lcs "lcs" (passed extract_f64) number kws w0); [touch|apply number_spec|done].
    - apply (touches_takes weights_kwargs w_prefix "prefix" (passed extract_f64) number kws w0); [touch|apply number_spec|done].
    - apply (touches_takes weights_kwargs w_suffix "suffix" (passed extract_f64) number kws w0); [touch|apply number_spec|done].
    - apply (touches_takes weights_kwargs w_case "case" (passed extract_f64) number kws w0); [touch|apply number_spec|done]. }
  split; [by intros ->|]. intros G. generalize dependent (with_kwargs weights_kwargs w0 kws). intros w' H. destruct w, w', G as [G1 G2 G3 G4 G5], H as [H1 H2 H3 H4 H5]; cbn in *.
  pose proof (functional _ _ number_spec) as F. f_equal; by eapply takes_det.
Qed.

(** ** Search parameters *)
Lemma search_spec pf32 kws P0 P : call_of kws -> P = with_kwargs (search_kwargs pf32) P0 kws <-> search_changed pf32 kws P0 P.
Proof.
  intros ND. assert (search_changed pf32 kws P0 (with_kwargs (search_kwargs pf32) P0 kws)) as H.
  { split.
    - apply (touches_takes (search_kwargs pf32) (fun P => p_max_anagram_distance (tp_search P)) "max_anagram_distance" (extract_distance_threshold pf32) (threshold_given pf32) kws P0); [touch|apply threshold_extract|done].
    - apply (touches_takes (search_kwargs pf32) (fun P => p_max_edit_distance (tp_search P)) "max_edit_distance" (extract_distance_threshold pf32) (threshold_given pf32) kws P0); [touch|apply threshold_extract|done].
    - apply (touches_takes (search_kwargs pf32) (fun P => p_max_matches (tp_search P)) "max_matches" (passed extract_usize) (natural usize_max) kws P0); [touch|apply natural64_spec|done].
    - apply (touches_takes (search_kwargs pf32) (fun P => p_score_threshold (tp_search P)) "score_threshold" (passed extract_f64) number kws P0); [touch|apply number_spec|done].
    - apply (touches_takes (search_kwargs pf32) (fun P => p_cutoff_threshold (tp_search P)) "cutoff_threshold" (passed extract_f64) number kws P0); [touch|apply number_spec|done].
    - apply (touches_takes (search_kwargs pf32) (fun P => p_stop_criterion (tp_search P)) "stop_at_exact_match" stop_of stops kws P0); [touch|apply stop_spec|done].
    - apply (touches_takes (search_kwargs pf32) (fun P => p_max_ngram (tp_search P)) "max_ngram" (passed extract_u8) (natural u8_max) kws P0); [touch|apply natural8_spec|done].
    - apply (touches_takes (search_kwargs pf32) (fun P => p_max_seq (tp_search P)) "max_seq" (passed extract_usize) (natural usize_max) kws P0); [touch|apply natural64_spec|done].
    - apply (touches_takes (search_kwargs pf32) (fun P => p_variantmodel_weight (tp_search P)) "variantmodel_weight" (passed extract_f32) single kws P0); [touch|apply single_spec|done].
    - apply (touches_takes (search_kwargs pf32) (fun P => p_lm_weight (tp_search P)) "lm_weight" (passed extract_f32) single kws P0); [touch|apply single_spec|done].
    - apply (touches_takes (search_kwargs pf32) (fun P => p_contextrules_weight (tp_search P)) "contextrules_weight" (passed extract_f32) single kws P0); [touch|apply single_spec|done].
    - apply (touches_takes (search_kwargs pf32) (fun P => p_freq_weight (tp_search P)) "freq_weight" (passed extract_f32) single kws P0); [touch|apply single_spec|done].
    - apply (touches_takes (search_kwargs pf32) tp_context_weight "context_weight" (passed extract_f32) single kws P0); [touch|apply single_spec|done].
    - apply (touches_takes (search_kwargs pf32) (fun P => p_unicodeoffsets (tp_search P)) "unicodeoffsets" (passed extract_bool) truth kws P0); [touch|apply truth_spec|done].
    - apply (touches_takes (search_kwargs pf32) tp_single_thread "single_thread" (passed extract_bool) truth kws P0); [touch|apply truth_spec|done].
    - apply (touches_takes (search_kwargs pf32) tp_consolidate_matches "consolidate_matches" (passed extract_bool) truth kws P0); [touch|apply truth_spec|done].
    - assert (forall P kv, tp_lm_order (kwarg (search_kwargs pf32) P kv) = tp_lm_order P) as E.
      { intros P1 [k v]. unfold kwarg. cbn [fst snd]. destruct (assoc k _) as [f|] eqn:Ef; [|done]. apply assoc_elem in Ef.
        destruct (f v P1) as [P2|] eqn:E1; [|done]. cbn.
        repeat (apply elem_of_cons in Ef as [Ef|Ef]; [injection Ef as _ ->; match type of E1 with option_map _ ?x = _ => destruct x; [|done] end; injection E1 as <-; reflexivity|]). by apply elem_of_nil in Ef. }
      unfold with_kwargs. clear ND. revert P0. induction kws as [|kv kws IH]; intros P0; [done|]. cbn [foldl]. by rewrite IH, E. }
  split; [by intros ->|]. intros G. generalize dependent (with_kwargs (search_kwargs pf32) P0 kws). intros P' H.
  destruct P as [[] ], P' as [[] ], G as [G1 G2 G3 G4 G5 G6 G7 G8 G9 G10 G11 G12 G13 G14 G15 G16 G17], H as [H1 H2 H3 H4 H5 H6 H7 H8 H9 H10 H11 H12 H13 H14 H15 H16 H17]; cbn in *.
  pose proof (functional _ _ number_spec) as F1. pose proof (functional _ _ single_spec) as F2. pose proof (functional _ _ truth_spec) as F3.
  pose proof (functional _ _ natural8_spec) as F4. pose proof (functional _ _ natural64_spec) as F5. pose proof (functional _ _ stop_spec) as F6.
  pose proof (functional _ _ (threshold_extract pf32)) as F7.
  f_equal; [f_equal|..]; first [congruence|eapply takes_det; [exact ND|exact F1|eassumption|eassumption]|eapply takes_det; [exact ND|exact F2|eassumption|eassumption]|eapply takes_det; [exact ND|exact F3|eassumption|eassumption]|eapply takes_det; [exact ND|exact F4|eassumption|eassumption]|eapply takes_det; [exact ND|exact F5|eassumption|eassumption]|eapply takes_det; [exact ND|exact F6|eassumption|eassumption]|eapply takes_det; [exact ND|exact F7|eassumption|eassumption]].
Qed.

(** ** Vocabulary parameters *)
Definition vocab_next (p : vocab_params) (kv : str * pyval) : vocab_params := match vocab_kwarg p kv with Returned p' => p' | _ => p end.
Lemma texts_cons k v kws : texts_where_needed ((k, v) :: kws) <->
  (k = name "freqhandling" \/ k = name "vocabtype" -> exists s, v = PyStr s) /\ texts_where_needed kws.
Proof.
  unfold texts_where_needed. split.
  - intros H. split; [intros Hk; apply (H k v); [by left|done]|]. intros n v' Hn. apply H. by right.
  - intros [H1 H2] n v' [[= -> ->]|Hn]%elem_of_cons; [done|by apply H2].
Qed.
Lemma vocab_kwarg_returns p k v : (k = name "freqhandling" \/ k = name "vocabtype" -> exists s, v = PyStr s) ->
  vocab_kwarg p (k, v) = Returned (vocab_next p (k, v)).
Proof.
  intros H. unfold vocab_next. unfold vocab_kwarg. cbn [fst snd].
  case_bool_decide as E1; [destruct H as [s ->]; [by left|]; done|].
  case_bool_decide as E2; [destruct H as [s ->]; [by right|]; done|done].
Qed.
Lemma vocab_kwarg_raises p k v : ~ (k = name "freqhandling" \/ k = name "vocabtype" -> exists s, v = PyStr s) ->
  vocab_kwarg p (k, v) = Raised ConversionError.
Proof.
  intros H. unfold vocab_kwarg. cbn [fst snd]. change (lit "freqhandling") with (name "freqhandling"). change (lit "vocabtype") with (name "vocabtype").
  case_bool_decide as E1; [destruct v; try done; exfalso; apply H; intros _; by eexists|].
  case_bool_decide as E2; [destruct v; try done; exfalso; apply H; intros _; by eexists|]. exfalso. apply H. intros [|]; done.
Qed.
Lemma vocab_from_spec p0 kws :
  (texts_where_needed kws /\ vocab_from p0 kws = Returned (foldl vocab_next p0 kws)) \/
  (~ texts_where_needed kws /\ vocab_from p0 kws = Raised ConversionError).
Proof.
  revert p0. induction kws as [|[k v] kws IH]; intros p0.
  { left. split; [|done]. intros n v []%not_elem_of_nil. }
  cbn [vocab_from foldl]. rewrite texts_cons.
  assert (Decision (k = name "freqhandling" \/ k = name "vocabtype" -> exists s, v = PyStr s)) as D.
  { unfold Decision. destruct (decide (k = name "freqhandling" \/ k = name "vocabtype")) as [H|H]; [|by left].
    destruct v; try (right; intros C; destruct (C H); done). left. intros _. by eexists. }
  destruct (decide (k = name "freqhandling" \/ k = name "vocabtype" -> exists s, v = PyStr s)) as [H|H].
  - rewrite vocab_kwarg_returns by done. cbn [pybind]. destruct (IH (vocab_next p0 (k, v))) as [[HT E]|[HT E]]; [left|right]; rewrite E; naive_solver.
  - rewrite vocab_kwarg_raises by done. right. split; [by intros [? _]|done].
Qed.
Definition handling_of (v : pyval) : option freq_handling := match v with PyStr s => assoc s freqhandling_names | _ => None end.
Definition type_of (v : pyval) : option N := match v with PyStr s => assoc s vocabtype_names | _ => None end.
Lemma handling_spec v h : handling_of v = Some h <-> handling v h.
Proof.
  unfold handling. split; [|intros ->; by destruct h].
  destruct v; try done. cbn [handling_of]. intros H%assoc_elem. unfold freqhandling_names in H.
  repeat (apply elem_of_cons in H as [H|H]; [injection H as -> ->; reflexivity|]). by apply elem_of_nil in H.
Qed.
Lemma type_spec v x : type_of v = Some x <-> vocabulary_type v x.
Proof.
  split; [|by destruct 1].
  destruct v; try done. cbn [type_of]. intros H%assoc_elem. unfold vocabtype_names in H.
  repeat (apply elem_of_cons in H as [H|H]; [injection H as -> ->; constructor|]). by apply elem_of_nil in H.
Qed.
(** how the tables act on the three numbers *)
Lemma vocab_numbers {A} (get : vocab_params -> A) n conv p k v :
  touches vocab_kwargs get (name n) conv -> name n <> name "freqhandling" -> name n <> name "vocabtype" ->
  (forall x p, get (put_freq_handling x p) = get p) -> (forall x p, get (put_vocab_type x p) = get p) ->
  get (vocab_next p (k, v)) = if bool_decide (k = name n) then default (get p) (conv v) else get p.
Proof.
  intros T N1 N2 G1 G2. unfold vocab_next, vocab_kwarg. cbn [fst snd]. change (lit "freqhandling") with (name "freqhandling"). change (lit "vocabtype") with (name "vocabtype").
  case_bool_decide as E1.
  { rewrite bool_decide_false by congruence. destruct v; try done. destruct (assoc _ _); [by rewrite G1|done]. }
  case_bool_decide as E2.
  { rewrite bool_decide_false by congruence. destruct v; try done. destruct (assoc _ _); [by rewrite G2|done]. }
  by apply touches_step.
Qed.
Arguments vocab_numbers {A} get n%string_scope conv p k v.
Lemma vocab_others {A} (get : vocab_params -> A) p kv : (forall x p, get (put_text_column x p) = get p) -> (forall x p, get (put_freq_column x p) = get p) ->
  (forall x p, get (put_index x p) = get p) -> get (kwarg vocab_kwargs p kv) = get p.
Proof.
  intros G1 G2 G3. unfold kwarg. destruct (assoc kv.1 _) as [f|] eqn:Ef; [|done]. apply assoc_elem in Ef.
  destruct (f kv.2 p) as [p'|] eqn:E1; [|done]. cbn.
  repeat (apply elem_of_cons in Ef as [Ef|Ef]; [injection Ef as _ ->; match type of E1 with option_map _ ?x = _ => destruct x; [|done] end; injection E1 as <-; done|]). by apply elem_of_nil in Ef.
Qed.
Lemma takes_weaken {A} kws n (R R' : pyval -> A -> Prop) d x : (forall v x, (name n, v) ∈ kws -> R v x <-> R' v x) -> takes kws n R d x -> takes kws n R' d x.
Proof.
  intros H [(v & Hv & Hr)|[Hn ->]]; [left; exists v; split; [done|by apply H]|]. right. split; [|done]. intros v y Hv Hy. eapply Hn; [done|]. by apply H.
Qed.
Lemma vocab_det kws p0 p p' : call_of kws -> vocab_changed kws p0 p -> vocab_changed kws p0 p' -> p = p'.
Proof.
  intros ND G H. destruct p, p', G as [G1 G2 G3 G4 G5], H as [H1 H2 H3 H4 H5]; cbn in *. f_equal.
  - eapply takes_det; [exact ND|exact (functional _ _ natural8_spec)|done|done].
  - eapply takes_det; [exact ND| |exact G2|exact H2]. intros v [x|] [y|]; cbn; intros Hx Hy; subst; try done; [f_equal; by eapply (functional _ _ natural8_spec)|by destruct Hx as [Hx%whole_inv _]|by destruct Hy as [Hy%whole_inv _]].
  - eapply takes_det; [exact ND|exact (functional _ _ handling_spec)|done|done].
  - eapply takes_det; [exact ND|exact (functional _ _ type_spec)|done|done].
  - eapply takes_det; [exact ND| |exact G5|exact H5]. intros v x y Hx Hy. cbn in *. pose proof (functional _ _ natural8_spec _ _ _ Hx Hy). lia.
Qed.
Lemma vocab_spec kws p0 p : call_of kws -> (name "freq_column", PyNone) ∉ kws ->
  vocab_from p0 kws = Returned p <-> texts_where_needed kws /\ vocab_changed kws p0 p.
Proof.
  intros ND NN. assert (vocab_changed kws p0 (foldl vocab_next p0 kws)) as H.
  { split.
    - apply (takes_fold vocab_next vp_text_column _ (passed extract_u8)); [|apply natural8_spec|done].
      intros p1 k v. apply vocab_numbers; [touch|done..].
    - apply (takes_weaken _ _ (fun v x => passed (extract_option extract_u8) v = Some x)).
      { intros v x Hv. assert (v <> PyNone) as Nv; [by intros ->|].
        assert (passed (extract_option extract_u8) v = option_map Some (extract_u8 v)) as ->.
        { unfold passed, extract_option. destruct v as [|b|z|y|t|l|l|l]; [done|..]; match goal with |- _ = option_map _ ?e => destruct e end; done. }
        destruct x as [n|]; cbn [maybe]; [rewrite <- u8_spec|]; destruct (extract_u8 v); cbn; split; congruence. }
      apply (takes_fold vocab_next vp_freq_column _ (passed (extract_option extract_u8))); [|done|done].
      intros p1 k v. apply vocab_numbers; [touch|done..].
    - apply (takes_fold vocab_next vp_freq_handling _ handling_of); [|apply handling_spec|done].
      intros p1 k v. unfold vocab_next, vocab_kwarg. cbn [fst snd]. change (lit "freqhandling") with (name "freqhandling"). change (lit "vocabtype") with (name "vocabtype").
      case_bool_decide as E1; [destruct v; try done; cbn [handling_of type_of]; match goal with |- context [assoc ?a ?b] => by destruct (assoc a b) end|].
      case_bool_decide as E2; [destruct v; try done; cbn [handling_of type_of]; match goal with |- context [assoc ?a ?b] => by destruct (assoc a b) end|]. by apply vocab_others.
    - apply (takes_fold vocab_next vp_vocab_type _ type_of); [|apply type_spec|done].
      intros p1 k v. unfold vocab_next, vocab_kwarg. cbn [fst snd]. change (lit "freqhandling") with (name "freqhandling"). change (lit "vocabtype") with (name "vocabtype").
      case_bool_decide as E1.
      { subst k. rewrite bool_decide_false by done. destruct v; try done; cbn [handling_of type_of]; match goal with |- context [assoc ?a ?b] => by destruct (assoc a b) end. }
      case_bool_decide as E2; [destruct v; try done; cbn [handling_of type_of]; match goal with |- context [assoc ?a ?b] => by destruct (assoc a b) end|]. by apply vocab_others.
    - apply (takes_weaken _ _ (fun v x => option_map N.of_nat (passed extract_u8 v) = Some x)).
      { intros v x _. rewrite <- natural8_spec. destruct (passed extract_u8 v) as [n|]; cbn; split; intros E; try done; injection E; intros; f_equal; lia. }
      apply (takes_fold vocab_next vp_index _ (fun v => option_map N.of_nat (passed extract_u8 v))); [|done|done].
      intros p1 k v. apply (vocab_numbers vp_index "index" (fun v => option_map N.of_nat (passed extract_u8 v))); [touch|done..]. }
  destruct (vocab_from_spec p0 kws) as [[HT E]|[HT E]]; rewrite E; [|by naive_solver].
  split; [intros [= <-]; done|]. intros [_ G]. f_equal. by eapply vocab_det.
Qed.
