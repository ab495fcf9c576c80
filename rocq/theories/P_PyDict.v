(** Proofs about reading the parameter objects of the Python bindings back. *)
From Coq Require String Ascii.
From Coq Require Import ZArith Lia.
From Verif Require Import M_Base M_Anahash M_Float M_Types M_Model M_Values M_Cli M_Options M_Python S_Model S_Values S_Cli S_Python.
From Verif Require Import P_Base P_Values P_Python P_PyNum.
Import String.StringSyntax Ascii.AsciiSyntax.
From stdpp Require Import options.

(** * What the objects hold *)
Lemma number_valid v x : proper v -> number v x -> is_double x.
Proof. intros Hp [->|(z & _ & E)]; [done|]. by eapply int_valid. Qed.
Lemma single_valid v x : proper v -> single v x -> is_single x.
Proof. intros Hp (y & Hy & ->). apply narrow_valid. by eapply number_valid. Qed.
Lemma threshold_valid pf32 v t : (forall s x, pf32 s = Some x -> is_single x) -> proper v -> threshold_given pf32 v t -> threshold_sound t.
Proof.
  intros Hpf Hp [n [_ H]|x H _|a b x n -> Ha [_ Hb]|s t' -> H]; cbn.
  - done.
  - by eapply single_valid.
  - destruct Hp as [Ha' _]. split; [by eapply single_valid|done].
  - destruct H as [s n (ds & _ & _ & _ & _ & Hd)|s x _ _ E _ _|s s' x n _ _ E (ds & _ & _ & _ & _ & Hd)]; cbn; [|by eapply Hpf|split; [by eapply Hpf|]]; rewrite N2Nat.id; done.
Qed.
Lemma takes_keeps {A} kws n (R : pyval -> A -> Prop) (Q : A -> Prop) d x :
  (forall v y, (name n, v) ∈ kws -> R v y -> Q y) -> Q d -> takes kws n R d x -> Q x.
Proof. intros H Hd [(v & Hv & Hr)|[_ ->]]; [by eapply H|done]. Qed.
Lemma changed_sound pf32 kws P0 P : (forall s x, pf32 s = Some x -> is_single x) -> (forall n v, (n, v) ∈ kws -> proper v) ->
  sound_parameters P0 -> search_changed pf32 kws P0 P -> sound_parameters P.
Proof.
  intros Hpf Hk S0 C. split.
  - refine (takes_keeps _ _ _ _ _ _ _ _ (sg_anagram _ _ _ _ C)); [|apply S0]. intros v y Hv. apply threshold_valid; [done|by eapply Hk].
  - refine (takes_keeps _ _ _ _ _ _ _ _ (sg_edit _ _ _ _ C)); [|apply S0]. intros v y Hv. apply threshold_valid; [done|by eapply Hk].
  - refine (takes_keeps _ _ _ (fun n => (N.of_nat n <= usize_max)%N) _ _ _ _ (sg_matches _ _ _ _ C)); [|apply S0]. by intros v y Hv [_ H].
  - refine (takes_keeps _ _ _ _ _ _ _ _ (sg_score _ _ _ _ C)); [|apply S0]. intros v y Hv. apply number_valid. by eapply Hk.
  - refine (takes_keeps _ _ _ _ _ _ _ _ (sg_cutoff _ _ _ _ C)); [|apply S0]. intros v y Hv. apply number_valid. by eapply Hk.
  - refine (takes_keeps _ _ _ (fun n => (N.of_nat n <= u8_max)%N) _ _ _ _ (sg_ngram _ _ _ _ C)); [|apply S0]. by intros v y Hv [_ H].
  - refine (takes_keeps _ _ _ (fun n => (N.of_nat n <= usize_max)%N) _ _ _ _ (sg_seq _ _ _ _ C)); [|apply S0]. by intros v y Hv [_ H].
  - refine (takes_keeps _ _ _ _ _ _ _ _ (sg_variantmodel _ _ _ _ C)); [|apply S0]. intros v y Hv. apply single_valid. by eapply Hk.
  - refine (takes_keeps _ _ _ _ _ _ _ _ (sg_lm _ _ _ _ C)); [|apply S0]. intros v y Hv. apply single_valid. by eapply Hk.
  - refine (takes_keeps _ _ _ _ _ _ _ _ (sg_contextrules _ _ _ _ C)); [|apply S0]. intros v y Hv. apply single_valid. by eapply Hk.
  - refine (takes_keeps _ _ _ _ _ _ _ _ (sg_freq _ _ _ _ C)); [|apply S0]. intros v y Hv. apply single_valid. by eapply Hk.
  - refine (takes_keeps _ _ _ _ _ _ _ _ (sg_context _ _ _ _ C)); [|apply S0]. intros v y Hv. apply single_valid. by eapply Hk.
Qed.
Lemma usual_sound : sound_parameters usual_parameters.
Proof. by split. Qed.

(** * Reading *)
Lemma reads_single x : is_single x -> single (PyFloat (to_f64 x)) x.
Proof. intros H. exists (to_f64 x). split; [by left|]. by rewrite narrow_widen. Qed.
Lemma reads_natural bound n : (N.of_nat n <= bound)%N -> natural bound (PyInt (Z.of_nat n)) n.
Proof. intros H. split; [constructor|done]. Qed.
Lemma reads_threshold pf32 t : threshold_sound t -> ~ limited t -> threshold_given pf32 (threshold_value t) t.
Proof.
  intros S L. destruct t as [x|x n|n]; cbn in *.
  - apply tg_ratio; [by apply reads_single|]. intros n [H%whole_inv _]. done.
  - destruct L. by exists x, n.
  - apply tg_absolute. by apply reads_natural.
Qed.
Lemma limited_unreadable pf32 t t' : limited t -> ~ threshold_given pf32 (threshold_value t) t'.
Proof. intros (x & n & ->) [m [H%whole_inv _]|y (z & [H|(w & H%whole_inv & _)] & _) _|a b y m [=]|s t2 [=]]; done. Qed.
Lemma reads_of pf32 P (get : str -> pyval -> Prop) : sound_parameters P -> ~ limited (p_max_anagram_distance (tp_search P)) ->
  ~ limited (p_max_edit_distance (tp_search P)) -> (forall n v, (n, v) ∈ search_to_dict P -> get n v) -> readable pf32 P get.
Proof.
  intros [] L1 L2 Hg. split; eexists; (split; [apply Hg; apply assoc_elem; reflexivity|]);
    first [by apply reads_threshold|by apply reads_natural|by apply reads_single|by left|done].
Qed.
Lemma getters_dict P n v : (n, v) ∈ search_to_dict P -> shows search_getters P n v.
Proof.
  intros H. unfold search_to_dict in H.
  repeat (apply elem_of_cons in H as [H|H]; [injection H as -> ->; eexists; (split; [apply assoc_elem; reflexivity|reflexivity])|]).
  by apply elem_of_nil in H.
Qed.
Lemma shows_dict P n v : shows search_getters P n v -> (n, v) ∈ search_to_dict P.
Proof.
  intros (g & H & ->). unfold search_getters in H.
  repeat (apply elem_of_cons in H as [H|H]; [injection H as -> ->; apply assoc_elem; reflexivity|]).
  by apply elem_of_nil in H.
Qed.
Lemma shows_once P n v v' : shows search_getters P n v -> shows search_getters P n v' -> v = v'.
Proof. intros H%shows_dict H'%shows_dict. eapply call_once; [|exact H|exact H']. unfold call_of. eapply bool_decide_eq_true_1. reflexivity. Qed.

(** * Back and forth *)
Lemma dict_call P : call_of (search_to_dict P).
Proof. unfold call_of. eapply bool_decide_eq_true_1. reflexivity. Qed.
Lemma usual_is : search_parameters_default = usual_parameters.
Proof. reflexivity. Qed.
Lemma dict_rebuilds pf32 P : sound_parameters P -> tp_lm_order P = 3 ->
  py_parameters pf32 (search_to_dict P) = P <->
  ~ limited (p_max_anagram_distance (tp_search P)) /\ ~ limited (p_max_edit_distance (tp_search P)) /\ p_stop_criterion (tp_search P) = Exhaustive.
Proof.
  intros S O. unfold py_parameters. split.
  - intros E. symmetry in E. apply search_spec in E; [|apply dict_call]. split; [|split].
    + intros L. destruct (sg_anagram _ _ _ _ E) as [(v & Hv & Hr)|[_ Ed]].
      * assert (v = threshold_value (p_max_anagram_distance (tp_search P))) as ->; [|by eapply limited_unreadable].
        eapply call_once; [apply dict_call|exact Hv|]. by left.
      * rewrite Ed in L. by destruct L as (? & ? & ?).
    + intros L. destruct (sg_edit _ _ _ _ E) as [(v & Hv & Hr)|[_ Ed]].
      * assert (v = threshold_value (p_max_edit_distance (tp_search P))) as ->; [|by eapply limited_unreadable].
        eapply call_once; [apply dict_call|exact Hv|]. right. by left.
      * rewrite Ed in L. by destruct L as (? & ? & ?).
    + destruct (sg_stop _ _ _ _ E) as [(v & Hv & Hr)|[_ Ed]]; [|done]. exfalso.
      apply (elem_of_list_fmap_1 fst) in Hv. cbn [fst] in Hv. revert Hv. eapply bool_decide_eq_false_1. reflexivity.
  - intros (L1 & L2 & E). symmetry. apply search_spec; [apply dict_call|].
    pose proof (reads_of pf32 P (fun n v => (n, v) ∈ search_to_dict P) S L1 L2 (fun _ _ H => H)) as [].
    split; try (left; assumption); [|rewrite O; reflexivity]. right. split; [|rewrite E; reflexivity]. intros v y Hv. exfalso.
    apply (elem_of_list_fmap_1 fst) in Hv. cbn [fst] in Hv. revert Hv. eapply bool_decide_eq_false_1. reflexivity.
Qed.
Lemma weights_rebuild w : py_weights (weights_to_dict w) = w.
Proof. by destruct w. Qed.
Lemma weights_shown w n v : shows weights_getters w n v <-> (n, v) ∈ weights_to_dict w.
Proof.
  split.
  - intros (g & H & ->). unfold weights_getters in H.
    repeat (apply elem_of_cons in H as [H|H]; [injection H as -> ->; apply assoc_elem; reflexivity|]). by apply elem_of_nil in H.
  - intros H. unfold weights_to_dict in H.
    repeat (apply elem_of_cons in H as [H|H]; [injection H as -> ->; eexists; (split; [apply assoc_elem; reflexivity|reflexivity])|]). by apply elem_of_nil in H.
Qed.

(** * Thresholds *)
Lemma natural_int z n : natural u8_max (PyInt z) n <-> Z.of_nat n = z /\ (N.of_nat n <= u8_max)%N.
Proof. unfold natural. rewrite whole_inv. naive_solver. Qed.
Lemma documented_accepted pf32 v t : threshold_documented pf32 v t -> threshold_given pf32 v t.
Proof.
  intros [z n E H|y H|y z n H E H'|s t' H].
  - apply tg_absolute. by apply natural_int.
  - apply tg_ratio; [exists y; split; [by left|done]|]. intros n [Hn%whole_inv _]. done.
  - eapply tg_pair; [done|exists y; split; [by left|done]|by apply natural_int].
  - by eapply tg_text.
Qed.
Lemma accepted_exactly pf32 v t : extract_distance_threshold pf32 v = Some t <-> threshold_documented pf32 v t \/ threshold_besides v t.
Proof.
  rewrite threshold_extract. split.
  - intros [n [H Hn]|x H Hno|a b x n -> Ha Hb|s t' -> H].
    + apply whole_inv in H. destruct v as [|b|z| | | | |]; try done.
      * right. replace n with (if b then 1 else 0); [constructor|destruct b; lia].
      * left. by constructor.
    + destruct H as (y & [->|(z & Hz & Ez)] & ->).
      * assert (Decision (between_0_1 (to_f32 y))) as D; [unfold between_0_1; apply _|]. destruct (decide (between_0_1 (to_f32 y))); [left|right]; by constructor.
      * right. apply whole_inv in Hz. destruct v as [|b|z'| | | | |]; try done.
        -- exfalso. apply (Hno (if b then 1 else 0)). split; [apply whole_inv; by destruct b|by destruct b].
        -- subst z'. constructor; [|exists y; split; [right; exists z; split; [constructor|done]|done]].
           intros Hz. apply (Hno (Z.to_nat z)). apply natural_int. unfold u8_max. lia.
    + assert (Decision (between_0_1 x)) as D; [unfold between_0_1; apply _|].
      destruct (decide (between_0_1 x)) as [B|B]; [|right; constructor; by auto].
      destruct a as [| | |y| | | |]; try (right; constructor; [done|done|right; left; by intros ? [=]]).
      destruct b as [| |z| | | | |]; try (right; constructor; [done|done|right; right; by intros ? [=]]).
      left. assert (x = to_f32 y) as ->. { destruct Ha as (y' & [[= <-]|(? & H%whole_inv & _)] & ->); done. }
      apply natural_int in Hb as [? ?]. by constructor.
    + left. by constructor.
  - intros [H|H]; [by apply documented_accepted|]. destruct H as [b|z x Hz H|y Hy|a b x n Ha Hb _].
    + apply tg_absolute. split; [apply whole_inv; by destruct b|by destruct b].
    + apply tg_ratio; [done|]. intros n [H1 H2]%natural_int. unfold u8_max in H2. lia.
    + apply tg_ratio; [exists y; split; [by left|done]|]. intros n [Hn%whole_inv _]. done.
    + by eapply tg_pair.
Qed.
Lemma besides_undocumented pf32 v t : threshold_besides v t -> ~ threshold_documented pf32 v t.
Proof.
  intros [b|z x Hz H|y Hy|a b x n Ha Hb H] D; inversion D; subst; try done.
  destruct H as [H|[H|H]]; [done|by eapply H|by eapply H].
Qed.
