(** Properties C81, C82 and C83: the parameter objects of the Python bindings. *)
From Coq Require String Ascii.
From Coq Require Import Reals.
From Verif Require Import M_Base M_Anahash M_Float M_Types M_Model M_Values M_Cli M_Options M_Python S_Float S_Number S_Model S_Values S_Cli S_Python.
From Verif Require Import P_Base P_Values P_Python P_PyNum P_PyAttr P_PyDict.
Import String.StringSyntax Ascii.AsciiSyntax.
From stdpp Require Import options.

(** ** C81 *)
(** The keyword arguments of the three parameter objects. *)
Theorem C81_search_keywords pf32 kws P : call_of kws ->
  py_parameters pf32 kws = P <-> search_changed pf32 kws usual_parameters P.
Proof. intros H. rewrite <- search_spec by done. by split. Qed.
Print Assumptions C81_search_keywords.
Theorem C81_weights_keywords kws w : call_of kws -> py_weights kws = w <-> weights_changed kws usual_weights w.
Proof. intros H. rewrite <- weights_spec by done. by split. Qed.
Print Assumptions C81_weights_keywords.
Theorem C81_vocab_keywords kws p : call_of kws -> (name "freq_column", PyNone) ∉ kws ->
  py_vocab_params kws = Returned p <-> texts_where_needed kws /\ vocab_changed kws usual_vocab_params p.
Proof. exact (vocab_spec kws usual_vocab_params p). Qed.
Print Assumptions C81_vocab_keywords.
Theorem C81_vocab_refused kws : (exists e, py_vocab_params kws = Raised e) <-> ~ texts_where_needed kws.
Proof.
  unfold py_vocab_params. destruct (vocab_from_spec vocab_params_default kws) as [[HT E]|[HT E]]; rewrite E; split; try done.
  - by intros [e ?].
  - intros _. by eexists.
Qed.
Print Assumptions C81_vocab_refused.
(** Assignments to their attributes. *)
Theorem C81_search_assignment pf32 P n v r : assign_parameter pf32 P n v = r <-> search_assigned pf32 P n v r.
Proof. exact (search_assign pf32 P n v r). Qed.
Print Assumptions C81_search_assignment.
Theorem C81_weights_assignment w n v r : assign weights_setters (map fst weights_getters) w n v = r <-> weights_assigned w n v r.
Proof. exact (weights_assign w n v r). Qed.
Print Assumptions C81_weights_assignment.
Theorem C81_vocab_assignment p n v r : assign vocab_setters (map fst vocab_getters) p n v = r <-> vocab_assigned p n v r.
Proof. exact (vocab_assign p n v r). Qed.
Print Assumptions C81_vocab_assignment.
(** The numbers that arise. *)
Theorem C81_whole_numbers z x : float_of_int z = Some x <-> double_of z x.
Proof. exact (int_spec z x). Qed.
Print Assumptions C81_whole_numbers.
Theorem C81_narrowing x y : to_f32 x = y <-> narrowed x y.
Proof. exact (narrow_spec x y). Qed.
Print Assumptions C81_narrowing.

(** Passing [None] for the frequency column leaves it at its default, while
    assigning [None] to the attribute switches it off. *)
Theorem C81_none_refuted kws p : call_of kws -> (name "freq_column", PyNone) ∈ kws ->
  py_vocab_params kws = Returned p -> vp_freq_column p = Some 1 /\ ~ vocab_changed kws usual_vocab_params p.
Proof.
  intros ND Hin E.
  assert (forall p0 p, (forall v, (name "freq_column", v) ∈ kws -> v = PyNone) -> vocab_from p0 kws = Returned p -> vp_freq_column p = vp_freq_column p0) as K.
  { clear. induction kws as [|[k v] kws IH]; intros p0 p Hk E; cbn in E; [by injection E as <-|].
    destruct (vocab_kwarg p0 (k, v)) as [p1| |] eqn:E1; [|done..]. cbn in E. rewrite (IH p1 p) by (done || (intros w Hw; apply Hk; by right)).
    clear E IH. unfold vocab_kwarg in E1. cbn [fst snd] in E1. change (lit "freqhandling") with (name "freqhandling") in E1. change (lit "vocabtype") with (name "vocabtype") in E1.
    case_bool_decide as D1; [destruct v; try done; revert E1; match goal with |- context [assoc ?a ?b] => destruct (assoc a b) end; intros E1; by injection E1 as <-|].
    case_bool_decide as D2; [destruct v; try done; revert E1; match goal with |- context [assoc ?a ?b] => destruct (assoc a b) end; intros E1; by injection E1 as <-|].
    injection E1 as <-. rewrite (touches_step vocab_kwargs vp_freq_column (name "freq_column") (passed (extract_option extract_u8))) by touch.
    case_bool_decide as D3; [subst k; rewrite (Hk v) by (by left); done|done]. }
  assert (vp_freq_column p = Some 1) as Ep.
  { unfold py_vocab_params in E. apply K in E; [done|]. intros v Hv. by eapply call_once. }
  split; [done|]. intros [_ [(v & Hv & Hr)|[Hn _]] _ _ _].
  - assert (v = PyNone) as -> by (by eapply call_once). rewrite Ep in Hr. cbn in Hr. destruct Hr as [Hr%whole_inv _]. done.
  - by apply (Hn PyNone None Hin).
Qed.
Print Assumptions C81_none_refuted.
Theorem C81_none_assigned p : assign vocab_setters (map fst vocab_getters) p (name "freq_column") PyNone = Returned (put_freq_column None p).
Proof. reflexivity. Qed.
Print Assumptions C81_none_assigned.
(** The keyword of bindings/python/README.md:58-60, [unicodeoffset], is not one
    of those that mean anything: with it, offsets stay in bytes. *)
Theorem C81_readme_refuted pf32 kws : call_of kws -> (name "unicodeoffset", PyBool true) ∈ kws ->
  (forall v, (name "unicodeoffsets", v) ∉ kws) -> p_unicodeoffsets (tp_search (py_parameters pf32 kws)) = false.
Proof.
  intros ND _ Hno. pose proof (proj1 (C81_search_keywords pf32 kws _ ND) eq_refl) as C.
  destruct (sg_unicode _ _ _ _ C) as [(v & Hv & _)|[_ E]]; [by apply Hno in Hv|exact E].
Qed.
Print Assumptions C81_readme_refuted.

(** A call: a tuple for the edit distance, [True] for the number of matches, a
    value of the wrong type, an unknown name. *)
Definition ex_call : list (str * pyval) :=
  [(name "max_edit_distance", PyTuple [PyFloat half; PyInt 3]); (name "max_matches", PyBool true); (name "max_ngram", PyInt 256);
   (name "freq_weight", PyInt 16777217); (name "max_anagram_distance", PyStr (lit "4")); (name "unicodeoffset", PyBool true)].
Example C81_ex : call_of ex_call /\ exists P, py_parameters (fun _ => None) ex_call = P /\
  p_max_edit_distance (tp_search P) = TRatioWithLimit (to_f32 half) 3 /\ p_max_matches (tp_search P) = 1 /\
  p_max_ngram (tp_search P) = 3 /\ p_max_anagram_distance (tp_search P) = TAbsolute 4 /\
  p_freq_weight (tp_search P) = S754_finite false 8388608 1 /\ p_unicodeoffsets (tp_search P) = false.
Proof.
  split; [unfold call_of; eapply bool_decide_eq_true_1; by vm_compute|]. eexists. split; [reflexivity|].
  split; [by vm_compute|]. split; [by vm_compute|]. split; [by vm_compute|]. split; [by vm_compute|]. split; by vm_compute.
Qed.
(** A whole number that is no double is rounded, twice if it becomes a 32-bit
    float. *)
Example C81_ex_rounding : float_of_int 9007199254740993 = float_of_int 9007199254740992 /\
  float_of_int (2 ^ 1024) = None /\ option_map to_f32 (float_of_int (2 ^ 128)) = Some (S754_infinity false).
Proof. by vm_compute. Qed.
Example C81_ex_assign P : assign_parameter (fun _ => None) P (name "lm_weight") (PyStr (lit "1")) = Raised ConversionError /\
  assign_parameter (fun _ => None) P (name "max_edit_distance") PyNone = Raised ValueError /\
  assign_parameter (fun _ => None) P (name "score_threshold") (PyFloat half) = Raised AttributeError.
Proof. done. Qed.
Example C81_ex_vocab : py_vocab_params [(name "vocabtype", PyStr (lit "TRANSPARENT")); (name "freqhandling", PyStr (lit "sum")); (name "index", PyInt 7)] =
  Returned (VocabParams 0 (Some 1) FSum (N.lor VT_TRANSPARENT VT_INDEXED) 7) /\
  py_vocab_params [(name "freqhandling", PyInt 1)] = Raised ConversionError.
Proof. split; by vm_compute. Qed.

(** ** C82 *)
(** Every object that a program can get holds proper numbers. *)
Theorem C82_reached pf32 P : (forall s x, pf32 s = Some x -> is_single x) -> reached pf32 P -> sound_parameters P /\ tp_lm_order P = 3.
Proof. exact (reached_sound pf32 P). Qed.
Print Assumptions C82_reached.
(** Unless a threshold has a limit, each readable attribute shows a value that
    stands for what the object has. *)
Theorem C82_readable pf32 P : (forall s x, pf32 s = Some x -> is_single x) -> reached pf32 P ->
  ~ limited (p_max_anagram_distance (tp_search P)) -> ~ limited (p_max_edit_distance (tp_search P)) ->
  readable pf32 P (shows search_getters P) /\ readable pf32 P (fun n v => (n, v) ∈ search_to_dict P).
Proof.
  intros Hpf [S _]%reached_sound L1 L2; [|done]. split; apply reads_of; try done. apply getters_dict.
Qed.
Print Assumptions C82_readable.
(** A ratio with a limit is shown as a dictionary of both. *)
Theorem C82_limited P x n : is_single x ->
  exists y, single (PyFloat y) x /\ let v := PyDict [(name "ratio", PyFloat y); (name "limit", PyInt (Z.of_nat n))] in
    (p_max_anagram_distance (tp_search P) = TRatioWithLimit x n -> shows search_getters P (name "max_anagram_distance") v) /\
    (p_max_edit_distance (tp_search P) = TRatioWithLimit x n -> shows search_getters P (name "max_edit_distance") v).
Proof.
  intros Hs. exists (to_f64 x). split; [by apply reads_single|].
  split; intros E; eexists; (split; [apply assoc_elem; reflexivity|]); cbv beta; by rewrite E.
Qed.
Print Assumptions C82_limited.
(** The dictionary is what the attributes show. *)
Theorem C82_dictionary P n v : (n, v) ∈ search_to_dict P <-> shows search_getters P n v.
Proof. split; [apply getters_dict|apply shows_dict]. Qed.
Print Assumptions C82_dictionary.
(** When the dictionary of an object makes an object like it. *)
Theorem C82_rebuilds pf32 P : (forall s x, pf32 s = Some x -> is_single x) -> reached pf32 P ->
  py_parameters pf32 (search_to_dict P) = P <->
  ~ limited (p_max_anagram_distance (tp_search P)) /\ ~ limited (p_max_edit_distance (tp_search P)) /\ p_stop_criterion (tp_search P) = Exhaustive.
Proof. intros Hpf [S O]%reached_sound; [|done]. by apply dict_rebuilds. Qed.
Print Assumptions C82_rebuilds.
Theorem C82_weights w : py_weights (weights_to_dict w) = w /\ forall n v, (n, v) ∈ weights_to_dict w <-> shows weights_getters w n v.
Proof. split; [apply weights_rebuild|]. intros n v. symmetry. apply weights_shown. Qed.
Print Assumptions C82_weights.
(** A threshold with a limit is shown as a dictionary that cannot be given
    back: as keyword argument it is ignored, assigned it is refused. *)
Theorem C82_limit_refuted pf32 P : limited (p_max_edit_distance (tp_search P)) ->
  exists v, shows search_getters P (name "max_edit_distance") v /\
    assign_parameter pf32 P (name "max_edit_distance") v = Raised ValueError /\
    p_max_edit_distance (tp_search (py_parameters pf32 [(name "max_edit_distance", v)])) = TAbsolute 3.
Proof.
  intros (x & n & E). exists (threshold_value (p_max_edit_distance (tp_search P))). split; [eexists; split; [apply assoc_elem; reflexivity|done]|].
  rewrite E. split; reflexivity.
Qed.
Print Assumptions C82_limit_refuted.
(** The dictionary does not say when the search stops. *)
Theorem C82_stop_refuted pf32 P : p_stop_criterion (tp_search P) = StopAtExactMatch -> py_parameters pf32 (search_to_dict P) <> P.
Proof.
  intros H E. apply (f_equal (fun P => p_stop_criterion (tp_search P))) in E. rewrite H in E.
  pose proof (proj1 (C81_search_keywords pf32 (search_to_dict P) _ (dict_call P)) eq_refl) as C.
  destruct (sg_stop _ _ _ _ C) as [(v & Hv & _)|[_ Ed]]; [|rewrite Ed in E; done].
  apply (elem_of_list_fmap_1 fst) in Hv. cbn [fst] in Hv. revert Hv. eapply bool_decide_eq_false_1. reflexivity.
Qed.
Print Assumptions C82_stop_refuted.

Example C82_ex : exists P, reached (fun _ => None) P /\ p_max_edit_distance (tp_search P) = TRatio (to_f32 half) /\
  p_lm_weight (tp_search P) = S754_finite false 8388608 (-22) /\ py_parameters (fun _ => None) (search_to_dict P) = P.
Proof.
  eexists. split; [|split; [|split]].
  - eapply (re_assigned _ _ (name "lm_weight") (PyInt 2)); [|done|].
    + apply (re_made _ [(name "max_edit_distance", PyFloat half)]); [unfold call_of; apply NoDup_singleton|].
      intros n v H%elem_of_list_singleton. injection H as -> ->. by vm_compute.
    + by vm_compute.
  - by vm_compute.
  - by vm_compute.
  - by vm_compute.
Qed.
Example C82_ex_limit : limited (p_max_edit_distance (tp_search (py_parameters (fun _ => None) ex_call))).
Proof. eexists _, _. by vm_compute. Qed.
Example C82_ex_stop : p_stop_criterion (tp_search (py_parameters (fun _ => None) [(name "stop_at_exact_match", PyBool true)])) = StopAtExactMatch.
Proof. by vm_compute. Qed.

(** ** C83 *)
(** What the error message asks for is accepted and means what it says; what
    else is accepted is listed. *)
Theorem C83_accepted pf32 v t : extract_distance_threshold pf32 v = Some t <-> threshold_documented pf32 v t \/ threshold_besides v t.
Proof. exact (accepted_exactly pf32 v t). Qed.
Print Assumptions C83_accepted.
Theorem C83_besides pf32 v t : threshold_besides v t -> ~ threshold_documented pf32 v t.
Proof. exact (besides_undocumented pf32 v t). Qed.
Print Assumptions C83_besides.
(** A number means what its text means. *)
Theorem C83_text pf32 s v t : threshold_documented pf32 v t -> threshold_text pf32 s t ->
  extract_distance_threshold pf32 v = extract_distance_threshold pf32 (PyStr s).
Proof.
  intros H1 H2. transitivity (Some t); [|symmetry]; apply C83_accepted; left; [done|by constructor].
Qed.
Print Assumptions C83_text.
(** Whole numbers above 255 and below 0, which should be absolute, are ratios;
    and ratios need not be between 0 and 1. *)
Theorem C83_integers_refuted pf32 z : (z < 0 \/ 255 < z)%Z -> (Z.abs z <= 2 ^ 1023)%Z -> exists x, extract_distance_threshold pf32 (PyInt z) = Some (TRatio x).
Proof.
  intros Hz [x Hx]%int_small.
  exists (to_f32 x). apply C83_accepted. right. constructor; [lia|]. exists x. split; [by apply f64_spec|done].
Qed.
Print Assumptions C83_integers_refuted.
Theorem C83_range_refuted pf32 : extract_distance_threshold pf32 (PyFloat f2) = Some (TRatio (to_f32 f2)) /\ ~ between_0_1 (to_f32 f2).
Proof. split; [reflexivity|]. by intros [_ ?]. Qed.
Print Assumptions C83_range_refuted.
Example C83_ex : extract_distance_threshold (fun _ => None) (PyInt 300) = Some (TRatio (f32_of_nat 300)) /\
  extract_distance_threshold (fun _ => None) (PyInt 3) = Some (TAbsolute 3) /\ extract_distance_threshold (fun _ => None) (PyStr (lit "3")) = Some (TAbsolute 3) /\
  extract_distance_threshold (fun _ => None) (PyFloat half) = Some (TRatio (to_f32 half)) /\
  extract_distance_threshold (fun _ => None) (PyList [PyFloat half; PyInt 3]) = None.
Proof. split; [by vm_compute|]. split; [by vm_compute|]. split; [by vm_compute|]. split; by vm_compute. Qed.
