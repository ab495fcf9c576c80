(** Proofs about the attributes of the parameter objects of the Python bindings. *)
From Coq Require String Ascii.
From Coq Require Import ZArith Lia.
From Verif Require Import M_Base M_Anahash M_Float M_Types M_Model M_Values M_Cli M_Options M_Python S_Model S_Values S_Cli S_Python.
From Verif Require Import P_Base P_Values P_Python P_PyNum P_PyDict.
Import String.StringSyntax Ascii.AsciiSyntax.
From stdpp Require Import options.

(** * Assignment *)
Lemma assign_spec {P} (setters : table P) (readable mine fixed : list str) (acceptable : Prop) (changed : P -> Prop) p n v r :
  (n ∈ mine <-> is_Some (assoc n setters)) -> (n ∈ fixed <-> n ∉ mine /\ n ∈ readable) ->
  (forall f, assoc n setters = Some f -> acceptable <-> is_Some (f v p)) ->
  (forall f p' p'', assoc n setters = Some f -> f v p = Some p' -> changed p'' <-> p'' = p') ->
  assign setters readable p n v = r <-> assigned mine fixed acceptable changed ConversionError p n r.
Proof.
  intros Hm Hf Ha Hc. unfold assign. destruct (assoc n setters) as [f|] eqn:Ef.
  - specialize (Ha f eq_refl). assert (n ∈ mine) as Hn; [by apply Hm|]. destruct (f v p) as [p'|] eqn:E.
    + split.
      * intros <-. apply as_done; [done|by apply Ha|]. by apply (Hc f p').
      * intros [p'' H1 H2 H3|H1 H2|H1|H1 H2]; [f_equal; symmetry; by eapply Hc|by destruct H2; apply Ha|by apply Hf in H1 as []|done].
    + split.
      * intros <-. apply as_refused; [done|]. by intros []%Ha.
      * intros [p'' H1 H2 H3|H1 H2|H1|H1 H2]; [by apply Ha in H2 as []|done|by apply Hf in H1 as []|done].
  - assert (n ∉ mine) as Hn; [by intros []%Hm|]. case_bool_decide as E.
    + assert (n ∈ fixed) as F; [by apply Hf|]. split; [intros <-; by apply as_fixed|]. by intros [p'' H1 H2 H3|H1 H2|H1|H1 H2].
    + assert (n ∉ fixed) as F; [by intros []%Hf|]. split; [intros <-; by apply as_other|]. by intros [p'' H1 H2 H3|H1 H2|H1|H1 H2].
Qed.
Lemma assoc_some {A} n (l : list (str * A)) : is_Some (assoc n l) <-> n ∈ map fst l.
Proof.
  induction l as [|[k x] l IH]; cbn [assoc map fst]; [split; [by intros []|by intros ?%elem_of_nil]|].
  rewrite elem_of_cons. case_bool_decide as E; [subst; split; [by left|done]|]. rewrite IH. split; [by right|]. by intros [|].
Qed.
Lemma call_single n v : call_of [(n, v)].
Proof. unfold call_of. cbn. apply NoDup_singleton. Qed.
(** keyword arguments that do the same as an assignment *)
Definition follows {P} (kwargs setters : table P) : Prop :=
  forall n v p f, assoc n setters = Some f -> exists g, assoc n kwargs = Some g /\ g v p = f v p.
Lemma follows_with {P} (kwargs setters : table P) n v p f p' : follows kwargs setters -> assoc n setters = Some f -> f v p = Some p' ->
  with_kwargs kwargs p [(n, v)] = p'.
Proof.
  intros F Ef E. destruct (F n v p f Ef) as (g & Eg & Hg). cbn. unfold kwarg. cbn. by rewrite Eg, Hg, E.
Qed.
Ltac follow := let n := fresh "n" in let Hf := fresh "Hf" in intros n ? ? ? Hf%assoc_elem;
  repeat (apply elem_of_cons in Hf as [Hf|Hf]; [injection Hf as -> ->; eexists; (split; [reflexivity|]); cbn [snd]; rewrite ?passed_some by done; reflexivity|]); by apply elem_of_nil in Hf.
Lemma weights_follows : follows weights_kwargs weights_setters.
Proof. follow. Qed.
Lemma search_follows pf32 : follows (search_kwargs pf32) (search_setters pf32).
Proof. follow. Qed.

Lemma is_Some_map {A B} (h : A -> B) x : is_Some (option_map h x) <-> exists a, x = Some a.
Proof. destruct x; cbn; split; intros []; [by eexists|done..]. Qed.
Lemma weights_assign w n v r : assign weights_setters (map fst weights_getters) w n v = r <-> weights_assigned w n v r.
Proof.
  unfold weights_assigned. apply assign_spec.
  - rewrite assoc_some. done.
  - split; [by intros ?%elem_of_nil|]. intros [H1 H2]. done.
  - intros f Hf%assoc_elem.
    repeat (apply elem_of_cons in Hf as [Hf|Hf]; [injection Hf as _ ->; rewrite is_Some_map; by setoid_rewrite f64_spec|]). by apply elem_of_nil in Hf.
  - intros f p' p'' Ef E. rewrite <- weights_spec by apply call_single. by rewrite (follows_with _ _ _ _ _ _ _ weights_follows Ef E).
Qed.
Lemma of_type_in {A} l (R : pyval -> A -> Prop) n v : n ∈ l -> of_type l R n v <-> exists x, R v x.
Proof. unfold of_type. tauto. Qed.
Lemma of_type_out {A} l (R : pyval -> A -> Prop) n v : n ∉ l -> of_type l R n v <-> False.
Proof. unfold of_type. tauto. Qed.
Lemma search_assign pf32 P n v r : assign_parameter pf32 P n v = r <-> search_assigned pf32 P n v r.
Proof.
  assert (forall r, assign (search_setters pf32) (map fst search_getters) P n v = r <->
    assigned search_attributes [name "score_threshold"; name "cutoff_threshold"] (search_accepts pf32 n v) (search_changed pf32 [(n, v)] P) ConversionError P n r) as H.
  { clear r. intros r. apply assign_spec.
    - rewrite assoc_some. cbn [map fst search_setters entry]. unfold search_attributes, threshold_attributes, size_attributes, weight_attributes, flag_attributes. cbn [app].
      rewrite !elem_of_cons, elem_of_nil. change name with lit. tauto.
    - cbn [map fst search_getters]. unfold search_attributes, threshold_attributes, size_attributes, weight_attributes, flag_attributes. cbn [app].
      rewrite !elem_of_cons, !elem_of_nil. change name with lit. split; [|tauto]. intros [->|[->|[]]]; (split; [|tauto]); intros Hn; repeat (destruct Hn as [Hn|Hn]; [done|]); done.
    - intros f Hf%assoc_elem. unfold search_accepts.
      repeat (apply elem_of_cons in Hf as [Hf|Hf]; [injection Hf as -> ->; rewrite is_Some_map;
        repeat first [rewrite of_type_in by (eapply bool_decide_eq_true_1; reflexivity)|rewrite of_type_out by (eapply bool_decide_eq_false_1; reflexivity)];
        setoid_rewrite threshold_extract || setoid_rewrite usize_spec || setoid_rewrite u8_spec || setoid_rewrite f32_spec || setoid_rewrite bool_spec; tauto|]).
      by apply elem_of_nil in Hf.
    - intros f p' p'' Ef E. rewrite <- search_spec by apply call_single. by rewrite (follows_with _ _ _ _ _ _ _ (search_follows pf32) Ef E). }
  unfold assign_parameter, search_assigned. destruct (assign _ _ _ _ _) as [P'|e|q] eqn:E.
  - pose proof (proj1 (H _) eq_refl) as HA. split.
    + intros <-. by inversion HA; subst; [apply as_done|apply as_other].
    + intros HB. inversion HB as [P'' H1 H2 H3 E'|H1 H2 E'|H1 E'|H1 H2 E']; subst r.
      * apply H. by apply as_done.
      * assert (Returned P' = Raised ConversionError); [|done]. apply H. by apply as_refused.
      * apply H. by apply as_fixed.
      * apply H. by apply as_other.
  - pose proof (proj1 (H _) eq_refl) as HA. assert (e = ConversionError \/ e = AttributeError) as He; [inversion HA; subst; auto|].
    destruct He as [-> | ->].
    + inversion HA as [|H1 H2| |]; subst. change [lit "max_anagram_distance"; lit "max_edit_distance"] with threshold_attributes. split.
      * intros <-. destruct (decide (n ∈ threshold_attributes)) as [D|D]; [rewrite bool_decide_true by done|rewrite bool_decide_false by done].
        -- by apply as_refused.
        -- by apply as_refused.
      * intros HB. inversion HB as [P'' G1 G2 G3 E'|G1 G2 E'|G1 E'|G1 G2 E']; subst r; try done.
        -- destruct (decide (n ∈ threshold_attributes)) as [D|D]; [by rewrite bool_decide_true|by rewrite bool_decide_false].
        -- assert (Raised ConversionError = Raised (A := tool_parameters) AttributeError); [|done]. apply H. by apply as_fixed.
    + inversion HA as [| |H1|]; subst. split.
      * intros <-. by apply as_fixed.
      * intros HB. inversion HB as [P'' G1 G2 G3 E'|G1 G2 E'|G1 E'|G1 G2 E']; subst r; try done.
        -- apply H. by apply as_done.
        -- assert (Raised (A := tool_parameters) AttributeError = Raised ConversionError); [|done]. apply H. by apply as_refused.
  - pose proof (proj1 (H _) eq_refl) as HA. inversion HA.
Qed.

Lemma takes_one {A} n v (R : pyval -> A -> Prop) d x : R v x -> takes [(name n, v)] n R d x.
Proof. intros H. left. exists v. split; [by apply elem_of_list_singleton|done]. Qed.
Lemma takes_other {A} k n v (R : pyval -> A -> Prop) d : k <> name n -> takes [(k, v)] n R d d.
Proof. intros H. right. split; [|done]. intros w y Hw. apply elem_of_list_singleton in Hw. injection Hw as E _. by rewrite E in H. Qed.
Lemma vocab_assign p n v r : assign vocab_setters (map fst vocab_getters) p n v = r <-> vocab_assigned p n v r.
Proof.
  unfold vocab_assigned. apply assign_spec.
  - rewrite assoc_some. done.
  - split; [by intros ?%elem_of_nil|]. intros [H1 H2]. done.
  - intros f Hf%assoc_elem. apply elem_of_cons in Hf as [Hf|Hf]; [|apply elem_of_cons in Hf as [Hf|Hf]; [|apply elem_of_cons in Hf as [Hf|Hf]; [|by apply elem_of_nil in Hf]]]; injection Hf as -> ->; rewrite is_Some_map.
    + setoid_rewrite u8_spec. split; [intros [[? _]|]; done|by right].
    + unfold extract_option. split.
      * intros [[_ ->]|[x Hx]]; [by eexists|]. exists (Some x). apply u8_spec in Hx. destruct v; try done; by rewrite Hx.
      * intros [x Hx]. assert (v = PyNone \/ exists y, extract_u8 v = Some y) as [->|[y Hy]]; [|by left|right; exists y; by apply u8_spec].
        destruct v; [by left|..]; right; match type of Hx with option_map _ ?e = _ => destruct e as [y|]; [by exists y|done] end.
    + setoid_rewrite u8_spec. split; [intros [[? _]|]; done|by right].
  - intros f p' p'' Hf%assoc_elem E.
    assert (vocab_changed [(n, v)] p p') as Hc.
    { apply elem_of_cons in Hf as [Hf|Hf]; [|apply elem_of_cons in Hf as [Hf|Hf]; [|apply elem_of_cons in Hf as [Hf|Hf]; [|by apply elem_of_nil in Hf]]]; injection Hf as -> ->.
      - destruct (extract_u8 v) as [x|] eqn:Ex; [|done]. injection E as <-. split; try by apply takes_other. apply takes_one. by apply u8_spec.
      - destruct (extract_option extract_u8 v) as [x|] eqn:Ex; [|done]. injection E as <-. split; try by apply takes_other. apply takes_one. cbn.
        destruct v; cbn [extract_option] in Ex; [by injection Ex as <-|..]; match type of Ex with option_map _ ?e = _ => destruct e as [y|] eqn:Ey; [|done] end; injection Ex as <-; cbn; by apply u8_spec.
      - destruct (extract_u8 v) as [x|] eqn:Ex; [|done]. injection E as <-. split; try by apply takes_other. apply takes_one. cbn. rewrite Nat2N.id. by apply u8_spec. }
    split; [intros H; by eapply vocab_det; [apply call_single|..]|by intros ->].
Qed.

(** * Objects that can be reached *)
Lemma reached_sound pf32 P : (forall s x, pf32 s = Some x -> is_single x) -> reached pf32 P -> sound_parameters P /\ tp_lm_order P = 3.
Proof.
  intros Hpf H. induction H as [kws ND Hk|P n v P' _ [IH IO] Hv E].
  - pose proof (proj1 (search_spec pf32 kws search_parameters_default (py_parameters pf32 kws) ND) eq_refl) as C.
    split; [eapply changed_sound; [done|done|apply usual_sound|exact C]|]. by rewrite (sg_order _ _ _ _ C).
  - apply search_assign in E. inversion E as [P'' H1 H2 C E'|H1 H2 E'|H1 E'|H1 H2 E']; subst; [|done].
    split; [|by rewrite (sg_order _ _ _ _ C)]. eapply changed_sound; [done| |exact IH|exact C]. intros n' v' H%elem_of_list_singleton. by injection H as -> ->.
Qed.
