(** Proofs about confusable patterns. *)
From Verif Require Import M_Base M_Utf8 M_Anahash M_Float M_Types M_Model M_Confusable M_ConfList M_Search S_Model S_Search S_Confusable P_Base P_Model P_Vocab P_Anahash P_Utf8 P_Score.
From stdpp Require Import options.

(** ** One instruction *)
Lemma identity_test_spec j l s t : j < l -> identity_test j l s t = true <-> covers KIdentity (place_of j l) s t.
Proof.
  intros Hj. unfold identity_test, place_of, covers. destruct j as [|j].
  - change (0 =? 0) with true. cbn [andb]. destruct l as [|[|l]]; [lia| |].
    + cbn. apply bool_decide_eq_true.
    + destruct (Nat.eqb_spec 0 (S (S l) - 1)); [lia|]. cbn. apply is_suffix_spec.
  - change (S j =? 0) with false. cbn [andb].
    destruct (Nat.eqb_spec (S j) (l - 1)), (decide (S (S j) = l)) as [E|E]; try lia.
    + apply is_prefix_spec.
    + apply bool_decide_eq_true.
Qed.
Lemma existsb_elem {A} (f : A -> bool) l : existsb f l = true <-> exists x, x ∈ l /\ f x = true.
Proof. rewrite existsb_exists. split; intros (x & H & E); exists x; (split; [by apply elem_of_list_In|done]). Qed.
Lemma test_spec j l e r : j < l -> instruction_test j l e r = true <-> fits (place_of j l) e r.
Proof.
  intros Hj. unfold fits.
  assert (forall s t, covers KInsertion (place_of j l) s t <-> is_suffix s t = true) as CI by (intros; symmetry; apply is_suffix_spec).
  assert (forall s t, covers KDeletion (place_of j l) s t <-> is_suffix s t = true) as CD by (intros; symmetry; apply is_suffix_spec).
  assert (forall s t, covers KIdentity (place_of j l) s t <-> identity_test j l s t = true) as CE by (intros; by rewrite identity_test_spec).
  unfold plain. destruct e as [s|s|s|v|v|v], r as [t|t|t|w|w|w]; cbn [instruction_test kind_of texts_of];
    try (split; [done|intros [E (s' & t' & _ & [E'|[E'|E']] & _)]; done]).
  1-3: (split; [intros H; split; [done|]; exists s, t; split; [by apply elem_of_list_singleton|]; split; [by auto|]; by (apply CI || apply CD || apply CE)|]);
    intros [_ (s' & t' & Hs%elem_of_list_singleton & Ht & H)]; subst s'; assert (t' = t) as -> by (naive_solver); by (apply CI || apply CD || apply CE).
  all: rewrite existsb_elem; split; [intros (s & Hs & H); split; [done|]; exists s, t; split; [done|]; split; [by auto|]; by (apply CI || apply CD || apply CE)|];
    intros [_ (s' & t' & Hs & Ht & H)]; assert (t' = t) as -> by (naive_solver); exists s'; split; [done|]; by (apply CI || apply CD || apply CE).
Qed.

Lemma nth_error_lookup {A} (l : list A) i : nth_error l i = l !! i.
Proof. revert i. induction l as [|x l IH]; intros [|i]; try done. apply IH. Qed.

(** ** The scan *)
Lemma fits_upto_snoc pat sc i k e r : fits_upto pat sc i k -> pat !! k = Some e -> sc !! (i + k) = Some r ->
  fits (place_of k (length pat)) e r -> fits_upto pat sc i (S k).
Proof.
  intros H He Hr Hf j e' Hj He'. destruct (decide (j = k)) as [->|]; [|apply H; [lia|done]]. exists r. split; [done|]. congruence.
Qed.
Lemma fits_upto_le pat sc i k k' : k' <= k -> fits_upto pat sc i k -> fits_upto pat sc i k'.
Proof. intros Hk H j e Hj. apply H. lia. Qed.

Section scan.
  Context (c : confusable) (sc : list edit_instruction).
  Notation pat := (cf_editscript c).
  Notation l := (length (cf_editscript c)).
  Notation n := (length sc).

  (** state of the scan: at position [i], the first [k] instructions matched just before *)
  Lemma loop_sound : forall refs i k, sc = take i sc ++ refs -> i = n - length refs -> length refs <= n -> k <= i -> k < l ->
    fits_upto pat sc (i - k) k -> (cf_strictbegin c = true -> i = k) ->
    found_loop c n i k refs = true -> exists p, occurs_at c sc p.
  Proof.
    induction refs as [|r refs IH]; intros i k Esc Ei Hlen Hki Hkl Hfit Hsb; [done|]. cbn [found_loop].
    cbn [length] in Ei, Hlen.
    assert (sc !! i = Some r) as Hr.
    { rewrite Esc, lookup_app_r by (rewrite take_length; lia). rewrite take_length. replace (i - i `min` n) with 0 by lia. done. }
    assert (sc = take (S i) sc ++ refs) as Esc'.
    { rewrite (take_S_r _ _ _ Hr), <- app_assoc. exact Esc. }
    destruct (nth_error pat k) as [e|] eqn:Hn; [|apply nth_error_None in Hn; lia].
    rewrite nth_error_lookup in Hn.
    destruct (instruction_test k l e r) eqn:Ht.
    - apply test_spec in Ht; [|lia].
      assert (fits_upto pat sc (i - k) (S k)) as Hfit'.
      { eapply fits_upto_snoc; [done|exact Hn| |exact Ht]. by replace (i - k + k) with i by lia. }
      destruct (Nat.eqb_spec (S k) l) as [El|El].
      + intros Hend. exists (i - k). split; [by destruct pat|]. split; [by rewrite <- El|]. split.
        * intros Hs. specialize (Hsb Hs). lia.
        * intros Hs. rewrite Hs in Hend. apply Nat.eqb_eq in Hend. lia.
      + apply IH; [done|lia|lia|lia|lia| |].
        * by replace (S i - S k) with (i - k) by lia.
        * intros Hs. specialize (Hsb Hs). lia.
    - destruct (cf_strictbegin c) eqn:Hs; [done|].
      apply IH; [done|lia|lia|lia|lia| |done]. intros j e' Hj. lia.
  Qed.

  (** [i] is reached while the scan is at [i0] with [k] instructions matched *)
  Lemma loop_complete p : occurs_at c sc p ->
    (forall s, s < p -> fits_upto pat sc s (Nat.min l (p - s)) -> cf_strictend c = false /\ s + l <= p) ->
    forall refs i k, sc = take i sc ++ refs -> i = n - length refs -> length refs <= n -> k <= i -> k < l ->
    fits_upto pat sc (i - k) k -> i - k <= p -> (cf_strictbegin c = true -> i = k) ->
    found_loop c n i k refs = true.
  Proof.
    intros (Hne & Hocc & Hb & He) Hno. induction refs as [|r refs IH]; intros i k Esc Ei Hlen Hki Hkl Hfit Hp Hsb.
    - exfalso. cbn in Ei.
      (* the pattern ends within the script *)
      assert (p + l <= n) as Hpl.
      { destruct (pat !! (l - 1)) as [e|] eqn:E; [|apply lookup_ge_None in E; lia].
        destruct (Hocc (l - 1) e) as (r & Hr & _); [lia|done|]. apply lookup_lt_Some in Hr. lia. }
      destruct (decide (i - k = p)) as [E|E].
      + lia.
      + destruct (Hno (i - k)) as [_ H]; [lia| |lia]. apply (fits_upto_le _ _ _ k); [lia|done].
    - cbn [found_loop]. cbn [length] in Ei, Hlen.
      assert (sc !! i = Some r) as Hr.
      { rewrite Esc, lookup_app_r by (rewrite take_length; lia). rewrite take_length. replace (i - i `min` n) with 0 by lia. done. }
      assert (sc = take (S i) sc ++ refs) as Esc'.
      { rewrite (take_S_r _ _ _ Hr), <- app_assoc. exact Esc. }
      destruct (nth_error pat k) as [e|] eqn:Hn; [|apply nth_error_None in Hn; lia].
      rewrite nth_error_lookup in Hn.
      destruct (instruction_test k l e r) eqn:Ht.
      + apply test_spec in Ht; [|lia].
        assert (fits_upto pat sc (i - k) (S k)) as Hfit'.
        { eapply fits_upto_snoc; [done|exact Hn| |exact Ht]. by replace (i - k + k) with i by lia. }
        destruct (Nat.eqb_spec (S k) l) as [El|El].
        * destruct (cf_strictend c) eqn:Hse; [|done]. apply Nat.eqb_eq.
          destruct (decide (i - k = p)) as [E|E]; [specialize (He eq_refl); lia|].
          destruct (Hno (i - k)) as [H _]; [lia| |done]. apply (fits_upto_le _ _ _ (S k)); [lia|done].
        * apply IH; [done|lia|lia|lia|lia| |lia|].
          -- by replace (S i - S k) with (i - k) by lia.
          -- intros Hs. specialize (Hsb Hs). lia.
      + (* a mismatch at [i] means that the attempt did not start at [p] and does not reach it *)
        assert (i < p) as Hip.
        { destruct (decide (i - k = p)) as [E|E].
          - destruct (Hocc k e) as (r' & Hr' & Hf); [lia|done|]. replace (p + k) with i in Hr' by lia.
            rewrite Hr in Hr'. injection Hr' as <-. apply test_spec in Hf; [congruence|lia].
          - destruct (decide (i < p)) as [H|H]; [done|]. exfalso.
            destruct (Hno (i - k)) as [_ H']; [lia| |lia]. apply (fits_upto_le _ _ _ k); [lia|done]. }
        destruct (cf_strictbegin c) eqn:Hs; [specialize (Hb eq_refl); lia|].
        apply IH; [done|lia|lia|lia|lia| |lia|done]. intros j e' Hj. lia.
  Qed.

  Lemma found_sound : found_in c sc = true -> exists p, occurs_at c sc p.
  Proof.
    unfold found_in. destruct (decide (pat = [])) as [E|E].
    - assert (forall refs i, found_loop c n i 0 refs = false) as H.
      { induction refs as [|r refs IH]; intros i; [done|]. cbn. rewrite E. cbn. apply IH. }
      by rewrite H.
    - apply loop_sound; [done|lia|lia|lia| |intros j e Hj; lia|done]. destruct pat; [done|cbn; lia].
  Qed.
  Lemma found_complete p : occurs_at c sc p ->
    (forall s, s < p -> fits_upto pat sc s (Nat.min l (p - s)) -> cf_strictend c = false /\ s + l <= p) ->
    found_in c sc = true.
  Proof.
    intros Ho Hno. apply (loop_complete p Ho Hno); [done|lia|lia|lia| |intros j e Hj; lia|lia|done].
    destruct Ho as [H _]. destruct pat; [done|cbn; lia].
  Qed.
  Lemma found_anchored : cf_strictbegin c = true -> (found_in c sc = true <-> occurs_at c sc 0).
  Proof.
    intros Hs. split.
    - intros H. destruct (found_sound H) as (p & Hp). assert (p = 0) as -> by (by apply Hp). done.
    - intros H. apply (found_complete 0 H). intros s Hs'. lia.
  Qed.
  (** patterns of at most two instructions *)
  Lemma found_short : cf_strictend c = false -> l <= 2 -> alternating sc ->
    (found_in c sc = true <-> exists p, occurs_at c sc p).
  Proof.
    intros He Hl Ha. split; [apply found_sound|]. intros (p & Hp). apply (found_complete p Hp).
    intros s Hs Hf. split; [done|]. destruct (decide (s + l <= p)) as [H|H]; [done|]. exfalso.
    (* then there are two instructions and the attempt starts just before [p] *)
    assert (l = 2 /\ p = S s) as [El ->] by lia.
    destruct (pat !! 0) as [e|] eqn:E; [|apply lookup_ge_None in E; lia].
    destruct (Hf 0 e) as (r & Hr & Hk & _); [lia|done|]. destruct Hp as (_ & Hp & _).
    destruct (Hp 0 e) as (r' & Hr' & Hk' & _); [lia|done|]. rewrite Nat.add_0_r in Hr, Hr'.
    apply (Ha s r r' Hr Hr'). congruence.
  Qed.
End scan.

(** ** Weights *)
Lemma product_foldl l : product_of l (foldl fmul f1 l).
Proof.
  induction l as [|w l IH] using rev_ind; [constructor|]. rewrite foldl_app. by constructor.
Qed.
Lemma product_fun l x y : product_of l x -> product_of l y -> x = y.
Proof.
  intros H. revert y. induction H as [|l x w H IH]; intros y Hy.
  - inversion Hy as [|l' x' w' H' E]; [done|]. by destruct l'.
  - inversion Hy as [E|l' x' w' H' E]; [by destruct l|]. apply app_inj_2 in E as [-> E]; [|done]. injection E as ->.
    by rewrite (IH x').
Qed.
Lemma foldl_weights (P : confusable -> bool) cs : forall x,
  foldl (fun w c => if P c then fmul w (cf_weight c) else w) x cs = foldl fmul x (map cf_weight (List.filter P cs)).
Proof. induction cs as [|c cs IH]; intros x; [done|]. cbn. rewrite IH. by destruct (P c). Qed.
Lemma selects_filter {A} (P : A -> bool) l : selects (fun x => P x = true) l (List.filter P l).
Proof.
  induction l as [|x l IH]; cbn; [constructor|]. destruct (P x) eqn:E; constructor; try done. congruence.
Qed.
Lemma selects_fun {A} (P : A -> Prop) l a b : selects P l a -> selects P l b -> a = b.
Proof.
  intros H. revert b. induction H as [|x l l' Hx H IH|x l l' Hx H IH]; intros b Hb; inversion Hb; subst; try done.
  - f_equal. by apply IH.
  - by apply IH.
Qed.
Lemma weight_product ses m input id v cs : m_decoder m !! id = Some v ->
  selects (fun c => found_in c (ses input (vv_text v)) = true) (m_confusables m) cs ->
  product_of (map cf_weight cs) (confusable_weight ses m input id).
Proof.
  intros Hv Hs. unfold confusable_weight. rewrite Hv. cbn zeta. rewrite foldl_weights.
  rewrite (selects_fun _ _ _ _ Hs (selects_filter _ _)). apply product_foldl.
Qed.
Lemma rescored ses m l input :
  Forall2 (fun r r' => vr_id r' = vr_id r /\ vr_freq r' = vr_freq r /\ vr_via r' = vr_via r /\
    vr_dist r' = fmul (vr_dist r) (confusable_weight ses m input (vr_id r))) l (rescore_confusables ses m l input).
Proof. unfold rescore_confusables. induction l; constructor; [done|done]. Qed.

(** ** Loading *)
Lemma ascii_len c : (utf8_len c =? 1)%nat = true <-> (c < 128)%N.
Proof.
  unfold utf8_len. destruct (N.ltb_spec c 128); [split; done|]. split; [|lia]. by repeat case_match.
Qed.
Lemma first_byte_ok s b : first_byte s = Ok b <-> head s = Some b /\ (b < 128)%N.
Proof.
  unfold first_byte. destruct s as [|c s]; [split; [done|by intros []]|]. destruct (utf8_len c =? 1)%nat eqn:E.
  - apply ascii_len in E. split; [by intros [= <-]|by intros [[= <-] _]].
  - split; [done|]. intros [[= <-] H]. apply ascii_len in H. congruence.
Qed.
Lemma last_byte_ok s b : last_byte s = Ok b <-> last s = Some b /\ (b < 128)%N.
Proof.
  unfold last_byte. destruct (last s) as [c|]; [|split; [done|by intros []]]. destruct (utf8_len c =? 1)%nat eqn:E.
  - apply ascii_len in E. split; [by intros [= <-]|by intros [[= <-] _]].
  - split; [done|]. intros [[= <-] H]. apply ascii_len in H. congruence.
Qed.

Lemma take_last (s : str) e : last s = Some e -> s = take (length s - 1) s ++ [e].
Proof.
  intros H. destruct s as [|x s'] using rev_ind; [done|]. rewrite last_snoc in H. injection H as ->.
  rewrite app_length. cbn. replace (length s' + 1 - 1) with (length s') by lia. by rewrite take_app.
Qed.
Lemma drop_head (s : str) b : head s = Some b -> s = b :: drop 1 s.
Proof. destruct s; [done|]. by intros [= ->]. Qed.

(** what is between the anchors *)
Definition anchor (b : bool) (c : N) : str := if b then [c] else [].
Lemma body_spec t b e : head t = Some b -> last t = Some e ->
  forall body, (t = anchor (b =? 94)%N 94 ++ body ++ anchor (e =? 36)%N 36) <->
  body = (if (b =? 94)%N && (e =? 36)%N then drop 1 (take (length t - 1) t)
    else if (b =? 94)%N then drop 1 t else if (e =? 36)%N then take (length t - 1) t else t).
Proof.
  intros Hb He body. unfold anchor. destruct (N.eqb_spec b 94) as [->|Nb], (N.eqb_spec e 36) as [->|Ne]; cbn [andb].
  - pose proof (take_last t _ He) as E. destruct (take (length t - 1) t) as [|x t'] eqn:Et.
    { cbn in E. rewrite E in Hb. done. }
    assert (x = 94%N) as -> by (rewrite E in Hb; by injection Hb).
    assert (drop 1 (94%N :: t') = t') as -> by (by destruct t'). rewrite E. cbn. split; [|by intros ->].
    intros H. injection H as H. by apply app_inj_2 in H as [-> _].
  - rewrite app_nil_r. rewrite (drop_head t _ Hb) at 1. cbn. split; [by intros [= ->]|by intros ->].
  - cbn. rewrite (take_last t _ He) at 1. split; [|by intros ->]. intros H. by apply app_inj_2 in H as [-> _].
  - cbn. rewrite app_nil_r. split; [by intros <-|by intros ->].
Qed.

Section loading.
  #[local] Set Default Proof Using "Type".
  Context (ps : str -> option (list edit_instruction)) (pf : str -> option f64).
  Lemma new_spec t w c : confusable_new ps t w = Ok (Some c) <->
    exists body, t = anchor (cf_strictbegin c) 94 ++ body ++ anchor (cf_strictend c) 36 /\
    (exists b, head t = Some b /\ (b < 128)%N /\ (cf_strictbegin c = true <-> b = 94%N)) /\
    (exists e, last t = Some e /\ (e < 128)%N /\ (cf_strictend c = true <-> e = 36%N)) /\
    ps body = Some (cf_editscript c) /\ cf_weight c = w.
  Proof.
    unfold confusable_new. split.
    - intros H. apply rbind_ok in H as (b & [Hb Ab]%first_byte_ok & H). apply rbind_ok in H as (e & [He Ae]%last_byte_ok & H).
      cbn zeta in H. pose proof (body_spec t b e Hb He) as B.
      match type of H with context [ps ?x] => set (body := x) in * end. destruct (ps body) as [sc|] eqn:Eb; [|done].
      injection H as <-. cbn [cf_strictbegin cf_strictend cf_editscript cf_weight]. exists body. split; [by apply B|].
      split; [exists b; split; [done|]; split; [done|apply N.eqb_eq]|].
      split; [exists e; split; [done|]; split; [done|apply N.eqb_eq]|]. done.
    - intros (body & Ht & (b & Hb & Ab & Eb) & (e & He & Ae & Ee) & Hp & Hw). destruct c as [sc w' sb se].
      cbn [cf_strictbegin cf_strictend cf_editscript cf_weight] in *. subst w'.
      assert (sb = (b =? 94)%N) as -> by (apply eq_true_iff_eq; rewrite N.eqb_eq; done).
      assert (se = (e =? 36)%N) as -> by (apply eq_true_iff_eq; rewrite N.eqb_eq; done).
      rewrite (proj2 (first_byte_ok t b) (conj Hb Ab)). cbn [rbind]. rewrite (proj2 (last_byte_ok t e) (conj He Ae)). cbn [rbind].
      apply body_spec in Ht as Hbody; [|done|done]. rewrite <- Hbody, Hp. done.
  Qed.

  Definition add_line (st : model * bool) (line : str) : res (model * bool) :=
    if (st.2 : bool) then
      match line with
      | [] => Ok st
      | _ =>
          let fields := split_on 9 line in
          let* weight := match fields with _ :: s :: _ => rexpect (pf s) | _ => Ok f1 end in
          let* text := rexpect (fields !! 0) in
          add_to_confusables ps st.1 text weight
      end
    else Ok st.
  Definition extended (m : model) (cs : list confusable) : model :=
    with_confusables m (m_confusables m ++ cs) (m_confusables_before_pruning m).
  Lemma add_line_ok m line m' : line <> [] ->
    (add_line (m, true) line = Ok (m', true)) <-> exists c, line_confusable ps pf line c /\ m' = extended m [c].
  Proof.
    intros Hl. unfold add_line. cbn [snd fst]. destruct line as [|x line]; [done|]. clear Hl. set (ln := x :: line).
    pose proof (split_on_fields 9 ln) as F.
    split.
    - intros H. cbn zeta in H. apply rbind_ok in H as (w & Hw & H). apply rbind_ok in H as (t & Ht%rexpect_ok & H).
      unfold add_to_confusables in H. apply rbind_ok in H as (oc & Hc & H). destruct oc as [c|]; [|done]. injection H as <-.
      exists c. split; [|done]. apply new_spec in Hc as (body & H1 & H2 & H3 & H4 & H5). exists (split_on 9 ln), t, body.
      do 5 (split; [done|]). split; [done|]. destruct (split_on 9 ln) as [|a [|s fs]]; [done| |]; cbn.
      + by injection Hw as <-.
      + apply rexpect_ok in Hw. by subst.
    - intros (c & (fs & t & body & F' & Ht & H1 & H2 & H3 & H4 & H5) & ->).
      assert (fs = split_on 9 ln) as -> by (by apply fields_det). cbn zeta.
      assert (match split_on 9 ln with _ :: s :: _ => rexpect (pf s) | _ => Ok f1 end = Ok (cf_weight c)) as ->.
      { destruct (split_on 9 ln) as [|a [|s fs]]; [done| |]; cbn in H5; [by rewrite H5|by rewrite H5]. }
      cbn [rbind]. rewrite Ht. cbn [rexpect rbind]. unfold add_to_confusables.
      rewrite (proj2 (new_spec t (cf_weight c) c)); [done|]. by exists body.
  Qed.
  Lemma add_line_false m lines m' b : rfoldl add_line (m, false) lines = Ok (m', b) -> b = false.
  Proof. induction lines as [|l lines IH]; [by intros [= _ <-]|]. cbn. done. Qed.
  Lemma extended_nil m : extended m [] = m.
  Proof. unfold extended. rewrite app_nil_r. by destruct m. Qed.
  Lemma extended_app m c cs : extended (extended m [c]) cs = extended m (c :: cs).
  Proof. unfold extended. cbn. by rewrite <- app_assoc. Qed.
  Lemma read_spec lines : forall m m', read_confusablelist ps pf m lines = Ok (m', true) <->
    exists ls cs, selects (fun l => l <> []) lines ls /\ Forall2 (line_confusable ps pf) ls cs /\ m' = extended m cs.
  Proof.
    unfold read_confusablelist. fold add_line. induction lines as [|line lines IH]; intros m m'.
    - cbn. split.
      + intros [= <-]. exists [], []. split; [constructor|]. split; [constructor|]. by rewrite extended_nil.
      + intros (ls & cs & H1 & H2 & ->). inversion H1; subst. inversion H2; subst. by rewrite extended_nil.
    - destruct (decide (line = [])) as [->|Hl].
      + change (rfoldl add_line (m, true) ([] :: lines)) with (rfoldl add_line (m, true) lines). rewrite IH. split.
        * intros (ls & cs & H1 & H2). exists ls, cs. split; [|done]. constructor; [|done]. by intros [].
        * intros (ls & cs & H1 & H2). exists ls, cs. split; [|done]. by inversion H1.
      + cbn [rfoldl]. split.
        * intros H. apply rbind_ok in H as ([m1 b] & Ha & H). destruct b; [|by apply add_line_false in H].
          apply add_line_ok in Ha as (c & Hc & ->); [|done]. apply IH in H as (ls & cs & H1 & H2 & ->).
          exists (line :: ls), (c :: cs). split; [by constructor|]. split; [by constructor|]. apply extended_app.
        * intros (ls & cs & H1 & H2 & ->). inversion H1 as [|x l1 l2 Hx H1'|x l1 l2 Hx H1']; subst; [|done].
          inversion H2 as [|x c l3 cs' Hc H2']; subst.
          assert (add_line (m, true) line = Ok (extended m [c], true)) as -> by (apply add_line_ok; [done|]; by exists c).
          cbn [rbind]. apply IH. exists l2, cs'. split; [done|]. split; [done|]. by rewrite extended_app.
  Qed.
End loading.

Lemma unit_mul_1 x : unit_score x -> fmul x f1 = x.
Proof.
  intros (D & H0 & H1). apply (P_Score.fmul_1_r (Weights f1 f1 f1 f1 f1)); [|done|destruct x as [|[]| |]; done].
  split; [|by vm_compute]. by repeat (constructor; [by vm_compute|]).
Qed.
Lemma nothing_found ses m l input :
  Forall (fun r => unit_score (vr_dist r) /\ forall v c, m_decoder m !! vr_id r = Some v -> c ∈ m_confusables m ->
    found_in c (ses input (vv_text v)) = false) l ->
  rescore_confusables ses m l input = l.
Proof.
  unfold rescore_confusables. induction 1 as [|r l [Hu Hn] H IH]; [done|]. cbn. rewrite IH. f_equal.
  assert (confusable_weight ses m input (vr_id r) = f1) as ->.
  { unfold confusable_weight. destruct (m_decoder m !! vr_id r) as [v|]; [|done]. cbn zeta. rewrite foldl_weights.
    assert (List.filter (fun c => found_in c (ses input (vv_text v))) (m_confusables m) = []) as ->; [|done].
    assert (forall c, c ∈ m_confusables m -> found_in c (ses input (vv_text v)) = false) as Hc by (intros c; by apply Hn). clear Hn H IH.
    induction (m_confusables m) as [|c cs IH2]; [done|]. cbn. rewrite Hc by constructor. apply IH2. intros c' Hc'. apply Hc. by constructor. }
  assert (fmul (vr_dist r) f1 = vr_dist r) as ->; [|by destruct r].
  by apply unit_mul_1.
Qed.
