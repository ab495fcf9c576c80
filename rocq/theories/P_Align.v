(** Alignments: a normal form for edit sequences, with or without
    transpositions.  Minimal alignment cost = minimal number of edits. *)
From Coq Require Import Lia.
From Verif Require Import M_Base S_Distance.
From stdpp Require Import options.
#[local] Set Default Proof Using "Type*".

Section align.
  Context {A : Type} `{EqDecision A}.
  Implicit Types (s t u v w p q : list A) (a b c d x y : A) (k n : nat).

  Definition neq_cost a b : nat := if decide (a = b) then 0 else 1.
  Lemma neq_cost_le a b : neq_cost a b <= 1.
  Proof. unfold neq_cost. destruct (decide (a = b)); lia. Qed.
  Lemma neq_cost_refl a : neq_cost a a = 0.
  Proof. unfold neq_cost. destruct (decide (a = a)); done. Qed.

  Inductive alg (sw : bool) : nat -> list A -> list A -> Prop :=
  | al_nil : alg sw 0 [] []
  | al_del k a s t : alg sw k s t -> alg sw (S k) (a :: s) t
  | al_ins k b s t : alg sw k s t -> alg sw (S k) s (b :: t)
  | al_sub k a b s t : alg sw k s t -> alg sw (k + neq_cost a b) (a :: s) (b :: t)
  | al_tr k a u b v s t : sw = true -> alg sw k s t ->
      alg sw (k + length u + length v + 1) (a :: u ++ b :: s) (b :: v ++ a :: t).

  (** cost at most *)
  Definition algle (sw : bool) n s t : Prop := exists k, k <= n /\ alg sw k s t.

  Context (sw : bool).
  Local Notation al := (alg sw).
  Local Notation alle := (algle sw).

  Lemma al_eq k k' s t : al k s t -> k = k' -> al k' s t.
  Proof. by intros ? <-. Qed.
  Lemma alle_mono n n' s t : alle n s t -> n <= n' -> alle n' s t.
  Proof. intros (k & ? & ?) ?. exists k. split; [lia|done]. Qed.
  Lemma al_alle k s t : al k s t -> alle k s t.
  Proof. exists k. done. Qed.

  Lemma alle_del n a s t : alle n s t -> alle (S n) (a :: s) t.
  Proof. intros (k & ? & ?). exists (S k). split; [lia|]. by constructor. Qed.
  Lemma alle_ins n b s t : alle n s t -> alle (S n) s (b :: t).
  Proof. intros (k & ? & ?). exists (S k). split; [lia|]. by constructor. Qed.
  Lemma alle_match n a s t : alle n s t -> alle n (a :: s) (a :: t).
  Proof.
    intros (k & ? & ?). exists k. split; [lia|]. eapply al_eq; [by constructor|].
    rewrite neq_cost_refl. lia.
  Qed.
  Lemma alle_sub n a b s t : alle n s t -> alle (S n) (a :: s) (b :: t).
  Proof.
    intros (k & ? & ?). exists (k + neq_cost a b). split; [pose proof (neq_cost_le a b); lia|].
    by constructor.
  Qed.
  Lemma alle_tr n a u b v s t :
    sw = true -> alle n s t -> alle (n + length u + length v + 1) (a :: u ++ b :: s) (b :: v ++ a :: t).
  Proof. intros ? (k & ? & ?). exists (k + length u + length v + 1). split; [lia|]. by constructor. Qed.
  Lemma alle_dels n w s t : alle n s t -> alle (n + length w) (w ++ s) t.
  Proof.
    intros H. induction w as [|a w IH]; cbn; [by rewrite Nat.add_0_r|].
    rewrite Nat.add_succ_r. by apply alle_del.
  Qed.
  Lemma alle_inss n w s t : alle n s t -> alle (n + length w) s (w ++ t).
  Proof.
    intros H. induction w as [|a w IH]; cbn; [by rewrite Nat.add_0_r|].
    rewrite Nat.add_succ_r. by apply alle_ins.
  Qed.
  Lemma al_dels k w s t : al k s t -> al (k + length w) (w ++ s) t.
  Proof.
    intros H. induction w as [|a w IH]; cbn; [by rewrite Nat.add_0_r|].
    rewrite Nat.add_succ_r. by constructor.
  Qed.

  Lemma al_refl s : al 0 s s.
  Proof.
    induction s as [|a s IH]; [constructor|].
    eapply al_eq; [apply al_sub, IH|]. rewrite neq_cost_refl. done.
  Qed.

  (** what happens to the first character of the target *)
  Lemma al_inv_cons k s y t :
    al k s (y :: t) -> exists w s' k', s = w ++ s' /\
      ((al k' s' t /\ k = length w + 1 + k') \/
       (exists x s1, s' = x :: s1 /\ al k' s1 t /\ k = length w + neq_cost x y + k') \/
       (exists x u v s1 t1, sw = true /\ s' = x :: u ++ y :: s1 /\ t = v ++ x :: t1 /\ al k' s1 t1 /\
          k = length w + length u + length v + 1 + k')).
  Proof.
    remember (y :: t) as ty eqn:E. intros H. revert y t E.
    induction H as [|k a s t H IH|k b s t H IH|k a b s t H IH|k a u b v s t Hsw H IH]; intros y t0 E.
    - done.
    - destruct (IH _ _ E) as (w & s' & k' & -> & Hc). exists (a :: w), s', k'. split; [done|].
      destruct Hc as [[H1 ->]|[(x & s1 & -> & H1 & ->)|(x & u & v & s1 & t1 & Hs & -> & -> & H1 & ->)]].
      + left. split; [done|]. cbn. lia.
      + right. left. exists x, s1. split_and!; [done..|]. cbn. lia.
      + right. right. exists x, u, v, s1, t1. split_and!; [done..|]. cbn. lia.
    - injection E as -> ->. exists [], s, k. split; [done|]. left. split; [done|]. cbn. lia.
    - injection E as -> ->. exists [], (a :: s), k. split; [done|]. right. left. exists a, s.
      split_and!; [done..|]. cbn. lia.
    - injection E as -> <-. exists [], (a :: u ++ y :: s), k. split; [done|]. right. right.
      exists a, u, v, s, t. split_and!; [done..|]. cbn. lia.
  Qed.

  (** ** Single edits, head first *)
  Inductive ed : list A -> list A -> Prop :=
  | ed_ins c t : ed t (c :: t)
  | ed_del c t : ed (c :: t) t
  | ed_sub c d t : ed (c :: t) (d :: t)
  | ed_swap c d t : sw = true -> ed (c :: d :: t) (d :: c :: t)
  | ed_cons c t t' : ed t t' -> ed (c :: t) (c :: t').

  Lemma ed_prefix p t t' : ed t t' -> ed (p ++ t) (p ++ t').
  Proof. intros H. induction p as [|c p IH]; cbn; [done|by constructor]. Qed.

  Lemma edit1_ed s t : edit1 sw s t <-> ed s t.
  Proof.
    split.
    - intros [p c q|p c q|p c d q|p c d q Hs]; apply ed_prefix; by constructor.
    - induction 1 as [c t|c t|c d t|c d t Hs|c t t' H IH].
      + apply (e_ins sw [] c t).
      + apply (e_del sw [] c t).
      + apply (e_sub sw [] c d t).
      + by apply (e_swap sw [] c d t).
      + destruct IH as [p x q|p x q|p x y q|p x y q Hs].
        * apply (e_ins sw (c :: p) x q).
        * apply (e_del sw (c :: p) x q).
        * apply (e_sub sw (c :: p) x y q).
        * by apply (e_swap sw (c :: p) x y q).
  Qed.

  Lemma ed_inv b t r :
    ed (b :: t) r ->
    (exists c, r = c :: b :: t) \/ r = t \/ (exists d, r = d :: t) \/
    (exists d t0, sw = true /\ t = d :: t0 /\ r = d :: b :: t0) \/ (exists t', ed t t' /\ r = b :: t').
  Proof.
    intros H. inversion H; subst; [left; eauto|right; left; done|right; right; left; eauto|
      do 3 right; left; eauto|do 4 right; eauto].
  Qed.

  (** an edit of [v ++ a :: t] hits [v], or [a], or [t] *)
  Lemma ed_split v a t r :
    ed (v ++ a :: t) r ->
    (exists v', r = v' ++ a :: t /\ length v' <= S (length v)) \/
    (exists v' c, sw = true /\ v = v' ++ [c] /\ r = v' ++ a :: c :: t) \/
    (r = v ++ t) \/
    (exists d, r = v ++ d :: t) \/
    (exists d t', sw = true /\ t = d :: t' /\ r = v ++ d :: a :: t') \/
    (exists t', ed t t' /\ r = v ++ a :: t').
  Proof.
    revert r. induction v as [|b v IH]; intros r H; cbn in H.
    - apply ed_inv in H as [(c & ->)|[->|[(d & ->)|[(d & t0 & Hs & -> & ->)|(t' & Hed & ->)]]]].
      + left. exists [c]. cbn. split; [done|lia].
      + right. right. left. done.
      + do 3 right. left. exists d. done.
      + do 4 right. left. exists d, t0. done.
      + do 5 right. exists t'. done.
    - apply ed_inv in H as [(c & ->)|[->|[(d & ->)|[(d & t0 & Hs & E & ->)|(t' & Hed & ->)]]]].
      + left. exists (c :: b :: v). cbn. split; [done|lia].
      + left. exists v. split; [done|cbn; lia].
      + left. exists (d :: v). split; [done|cbn; lia].
      + destruct v as [|c v].
        * cbn in E. injection E as -> ->. right. left. exists [], b. done.
        * cbn in E. injection E as <- <-. left. exists (c :: b :: v). split; [done|cbn; lia].
      + destruct (IH _ Hed) as [(v' & -> & Hl)|[(v' & x & Hs & -> & ->)|[->|[(d & ->)|[(d & t1 & Hs & -> & ->)|(t1 & H1 & ->)]]]]].
        * left. exists (b :: v'). split; [done|cbn; lia].
        * right. left. exists (b :: v'), x. done.
        * right. right. left. done.
        * do 3 right. left. exists d. done.
        * do 4 right. left. exists d, t1. done.
        * do 5 right. exists t1. done.
  Qed.

  (** ** An edit of the target costs at most one more *)
  Lemma al_ed k s t t' : al k s t -> ed t t' -> alle (S k) s t'.
  Proof.
    intros H. revert t'.
    induction H as [|k a s t H IH|k b s t H IH|k a b s t H IH|k a u b v s t Hsw H IH]; intros t' He.
    - inversion He; subst. apply alle_ins, al_alle. constructor.
    - apply alle_del, IH. done.
    - apply ed_inv in He as [(c & ->)|[->|[(d & ->)|[(d & t0 & Hs & -> & ->)|(t1 & Hed & ->)]]]].
      + apply alle_ins, al_alle. by constructor.
      + eapply alle_mono; [by apply al_alle|lia].
      + eapply alle_mono; [by apply alle_ins, al_alle|lia].
      + eapply alle_mono; [apply IH, ed_cons, ed_ins|lia].
      + apply alle_ins, IH. done.
    - apply ed_inv in He as [(c & ->)|[->|[(d & ->)|[(d & t0 & Hs & -> & ->)|(t1 & Hed & ->)]]]].
      + apply alle_ins, al_alle. by constructor.
      + eapply alle_mono; [by apply alle_del, al_alle|lia].
      + eapply alle_mono; [by apply alle_sub, al_alle|lia].
      + unfold neq_cost. destruct (decide (a = b)) as [->|Hab].
        * apply al_inv_cons in H as (w & s' & k' & -> & Hc).
          destruct Hc as [[H1 ->]|[(x & s1 & -> & H1 & ->)|(x & u & v & s1 & t1 & _ & -> & -> & H1 & ->)]].
          -- eapply alle_mono; [apply alle_ins, alle_match, alle_dels, al_alle, H1|lia].
          -- unfold neq_cost. destruct (decide (x = d)) as [->|Hx].
             ++ eapply alle_mono; [eapply (alle_tr _ b w d []); [done|by eapply al_alle]|cbn; lia].
             ++ eapply alle_mono; [apply alle_ins, alle_match, alle_dels, alle_del, al_alle, H1|lia].
          -- eapply alle_mono.
             ++ apply alle_ins, alle_match, alle_dels, alle_inss, alle_match, alle_dels, alle_del, al_alle, H1.
             ++ lia.
        * eapply alle_mono; [apply alle_del, IH, ed_cons, ed_ins|lia].
      + destruct (IH _ Hed) as (k1 & Hk1 & H1). exists (k1 + neq_cost a b). split; [lia|]. by constructor.
    - apply ed_inv in He as [(c & ->)|[->|[(d & ->)|[(d & t0 & Hs & E & ->)|(t1 & Hed & ->)]]]].
      + apply alle_ins, al_alle. by constructor.
      + eapply alle_mono; [apply alle_inss, alle_match, alle_dels, alle_del, al_alle, H|lia].
      + eapply alle_mono; [apply alle_ins, alle_inss, alle_match, alle_dels, alle_del, al_alle, H|lia].
      + destruct v as [|x v].
        * cbn in E. injection E as <- <-.
          eapply alle_mono; [apply alle_match, alle_dels, alle_match, al_alle, H|cbn; lia].
        * cbn in E. injection E as <- <-.
          eapply alle_mono; [apply alle_ins; eapply (alle_tr _ a u b v); [done|by eapply al_alle]|cbn; lia].
      + apply ed_split in Hed as
          [(v' & -> & Hl)|[(v' & x & Hs & -> & ->)|[->|[(d & ->)|[(d & t2 & Hs & -> & ->)|(t2 & H1 & ->)]]]]].
        * eapply alle_mono; [eapply (alle_tr _ a u b v'); [done|by apply al_alle]|lia].
        * eapply alle_mono; [eapply (alle_tr _ a u b v'); [done|by apply alle_ins, al_alle]|].
          rewrite app_length. cbn. lia.
        * eapply alle_mono; [apply alle_del, alle_dels, alle_match, alle_inss, al_alle, H|lia].
        * eapply alle_mono; [apply alle_del, alle_dels, alle_match, alle_inss, alle_ins, al_alle, H|lia].
        * apply al_inv_cons in H as (w & s' & k' & -> & Hc).
          assert (Hva : forall r, v ++ d :: a :: r = (v ++ [d]) ++ a :: r) by (intros r; by rewrite <- app_assoc).
          destruct Hc as [[H1 ->]|[(x & s1 & -> & H1 & ->)|(x & u1 & v1 & s1 & t1 & _ & -> & -> & H1 & ->)]].
          -- rewrite Hva. eapply alle_mono; [eapply (alle_tr _ a u b (v ++ [d])); [done|by apply alle_dels, al_alle]|].
             rewrite app_length. cbn. lia.
          -- unfold neq_cost. destruct (decide (x = d)) as [->|Hx].
             ++ eapply alle_mono.
                ** apply alle_del, alle_dels, alle_match, alle_inss, alle_dels, alle_match, alle_ins, al_alle, H1.
                ** lia.
             ++ rewrite Hva. eapply alle_mono; [eapply (alle_tr _ a u b (v ++ [d])); [done|by apply alle_dels, alle_del, al_alle]|].
                rewrite app_length. cbn. lia.
          -- rewrite Hva. eapply alle_mono.
             ++ eapply (alle_tr _ a u b (v ++ [d])); [done|].
                apply alle_dels, alle_inss, alle_match, alle_dels, alle_del, al_alle, H1.
             ++ rewrite app_length. cbn. lia.
        * destruct (IH _ H1) as (k1 & Hk1 & H2). eapply alle_mono; [apply (alle_tr k1 a u b v); [done|by apply al_alle]|lia].
  Qed.

  Lemma edits_al n s t : edits sw n s t -> alle n s t.
  Proof.
    induction 1 as [s|n s u t H IH He]; [apply al_alle, al_refl|].
    destruct IH as (k & Hk & Hal). eapply alle_mono; [eapply al_ed; [done|by apply edit1_ed]|lia].
  Qed.

  (** ** Edit sequences *)
  Lemma edits_trans n m s t r : edits sw n s t -> edits sw m t r -> edits sw (n + m) s r.
  Proof.
    intros H. induction 1 as [t|m t u r H2 IH He]; [by rewrite Nat.add_0_r|].
    rewrite Nat.add_succ_r. econstructor; [by apply IH|done].
  Qed.
  Lemma edits_1 s t : ed s t -> edits sw 1 s t.
  Proof. intros H. econstructor; [constructor|]. by apply edit1_ed. Qed.
  Lemma edits_prefix p n s t : edits sw n s t -> edits sw n (p ++ s) (p ++ t).
  Proof.
    induction 1 as [s|n s u t H IH He]; [constructor|]. econstructor; [exact IH|].
    apply edit1_ed, ed_prefix, edit1_ed, He.
  Qed.
  Lemma edits_cons a n s t : edits sw n s t -> edits sw n (a :: s) (a :: t).
  Proof. apply (edits_prefix [a]). Qed.
  Lemma edits_del w s : edits sw (length w) (w ++ s) s.
  Proof.
    induction w as [|a w IH]; cbn; [constructor|].
    change (S (length w)) with (1 + length w). eapply edits_trans; [|exact IH].
    apply edits_1, ed_del.
  Qed.
  Lemma edits_ins w s : edits sw (length w) s (w ++ s).
  Proof.
    induction w as [|a w IH]; cbn; [constructor|].
    replace (S (length w)) with (length w + 1) by lia. eapply edits_trans; [exact IH|].
    apply edits_1, ed_ins.
  Qed.

  Lemma al_edits k s t : al k s t -> edits sw k s t.
  Proof.
    induction 1 as [|k a s t H IH|k b s t H IH|k a b s t H IH|k a u b v s t Hsw H IH].
    - constructor.
    - change (S k) with (1 + k). eapply edits_trans; [apply edits_1, ed_del|done].
    - replace (S k) with (k + 1) by lia. eapply edits_trans; [exact IH|apply edits_1, ed_ins].
    - unfold neq_cost. destruct (decide (a = b)) as [->|Hn].
      + rewrite Nat.add_0_r. by apply edits_cons.
      + eapply edits_trans; [apply edits_cons, IH|apply edits_1, ed_sub].
    - replace (k + length u + length v + 1) with (length u + (1 + (length v + k))) by lia.
      eapply edits_trans; [apply edits_cons, edits_del|].
      eapply edits_trans; [apply edits_1, ed_swap, Hsw|].
      eapply edits_trans; [apply edits_cons, (edits_ins v)|].
      apply edits_cons, edits_prefix, edits_cons, IH.
  Qed.

  Definition aldist s t k : Prop := al k s t /\ forall k', al k' s t -> k <= k'.

  Lemma aldist_min_edits s t k : aldist s t k <-> min_edits sw s t k.
  Proof.
    split; intros [H1 H2]; split.
    - by apply al_edits.
    - intros n H. apply edits_al in H as (k' & Hk & H). specialize (H2 _ H). lia.
    - apply edits_al in H1 as (k' & Hk & H). assert (k <= k') by (apply H2, al_edits, H).
      assert (k' = k) as <- by lia. done.
    - intros k' H. apply H2, al_edits, H.
  Qed.

  Lemma min_edits_unique s t k k' : min_edits sw s t k -> min_edits sw s t k' -> k = k'.
  Proof. intros [H1 H2] [H3 H4]. specialize (H2 _ H3). specialize (H4 _ H1). lia. Qed.

  (** ** Symmetry and reversal *)
  Lemma ed_sym s t : ed s t -> ed t s.
  Proof. induction 1; by constructor. Qed.
  Lemma edits_sym n s t : edits sw n s t -> edits sw n t s.
  Proof.
    induction 1 as [s|n s u t H IH He]; [constructor|].
    change (S n) with (1 + n). eapply edits_trans; [|exact IH]. apply edits_1, ed_sym, edit1_ed, He.
  Qed.
  Lemma edit1_rev s t : edit1 sw s t -> edit1 sw (reverse s) (reverse t).
  Proof.
    intros [p c q|p c q|p c d q|p c d q Hs]; rewrite !reverse_app, !reverse_cons, <- ?app_assoc; cbn.
    - apply (e_ins sw (reverse q) c (reverse p)).
    - apply (e_del sw (reverse q) c (reverse p)).
    - apply (e_sub sw (reverse q) c d (reverse p)).
    - by apply (e_swap sw (reverse q) d c (reverse p)).
  Qed.
  Lemma edits_rev n s t : edits sw n s t -> edits sw n (reverse s) (reverse t).
  Proof.
    induction 1 as [s|n s u t H IH He]; [constructor|]. econstructor; [exact IH|]. by apply edit1_rev.
  Qed.
  Lemma min_edits_rev s t k : min_edits sw (reverse s) (reverse t) k <-> min_edits sw s t k.
  Proof.
    split; intros [H1 H2]; split.
    - apply edits_rev in H1. rewrite !reverse_involutive in H1. done.
    - intros n H. apply H2, edits_rev, H.
    - by apply edits_rev.
    - intros n H. apply H2. apply edits_rev in H. rewrite !reverse_involutive in H. done.
  Qed.

  (** ** Bounds *)
  Lemma al_lower k s t : al k s t -> length s - length t <= k /\ length t - length s <= k.
  Proof.
    induction 1 as [|k a s t H IH|k b s t H IH|k a b s t H IH|k a u b v s t Hsw H IH]; cbn;
      rewrite ?app_length; cbn; lia.
  Qed.
  Lemma al_upper s t : al (length s + length t) s t.
  Proof.
    induction s as [|a s IH]; cbn.
    - induction t as [|b t IH]; cbn; [constructor|by constructor].
    - by constructor.
  Qed.
  Lemma al_upper_max s t : alle (Nat.max (length s) (length t)) s t.
  Proof.
    revert t. induction s as [|a s IH]; intros [|b t]; cbn.
    - apply al_alle. constructor.
    - apply al_alle. apply (al_upper [] (b :: t)).
    - apply al_alle. replace (S (length s)) with (length (a :: s) + length (@nil A)) by (cbn; lia).
      apply (al_upper (a :: s) []).
    - apply alle_sub, IH.
  Qed.

  Lemma aldist_nil_l t : aldist [] t (length t).
  Proof.
    split; [apply (al_upper [] t)|]. intros k H. apply al_lower in H. cbn in H. lia.
  Qed.
  Lemma aldist_nil_r s : aldist s [] (length s).
  Proof.
    split.
    - eapply al_eq; [apply (al_upper s [])|]. cbn. lia.
    - intros k H. apply al_lower in H. cbn in H. lia.
  Qed.
  Lemma aldist_le_max s t k : aldist s t k -> k <= Nat.max (length s) (length t).
  Proof. intros [_ H]. destruct (al_upper_max s t) as (k' & Hk & H'). specialize (H _ H'). lia. Qed.


  (** ** The recurrence *)
  Lemma first_occ (b : A) u s1 u0 s2 :
    u ++ b :: s1 = u0 ++ b :: s2 -> b ∉ u0 ->
    (u = u0 /\ s1 = s2) \/ (exists u1, u = u0 ++ b :: u1 /\ s2 = u1 ++ b :: s1).
  Proof.
    revert u0. induction u as [|x u IH]; intros [|y u0] E Hn; cbn in E.
    - injection E as ->. left. done.
    - injection E as -> _. exfalso. apply Hn. left.
    - injection E as -> <-. right. exists u. done.
    - injection E as -> E. apply not_elem_of_cons in Hn as [_ Hn].
      destruct (IH _ E Hn) as [[-> ->]|(u1 & -> & ->)]; [left; done|right; exists u1; done].
  Qed.

  Lemma al_inv_cons2 k a s b t :
    al k (a :: s) (b :: t) ->
    (exists k', al k' s (b :: t) /\ k = S k') \/
    (exists k', al k' (a :: s) t /\ k = S k') \/
    (exists k', al k' s t /\ k = k' + neq_cost a b) \/
    (exists k' u v s1 t1, sw = true /\ s = u ++ b :: s1 /\ t = v ++ a :: t1 /\ al k' s1 t1 /\
       k = k' + length u + length v + 1).
  Proof.
    intros H. inversion H; subst.
    - left. eauto.
    - right. left. eauto.
    - right. right. left. eauto.
    - do 3 right. eexists _, _, _, _, _. split_and!; [done|reflexivity|reflexivity|eassumption|done].
  Qed.

  Lemma aldist_step_notr a s b t (d1 d2 d3 : nat) :
    aldist (a :: s) t d1 -> aldist s (b :: t) d2 -> aldist s t d3 ->
    (sw = false \/ b ∉ s \/ a ∉ t) ->
    aldist (a :: s) (b :: t) (Nat.min (Nat.min (d1 + 1) (d2 + 1)) (d3 + neq_cost a b)).
  Proof.
    intros [A1 M1] [A2 M2] [A3 M3] Hno. split.
    - destruct (Nat.min_spec (Nat.min (d1 + 1) (d2 + 1)) (d3 + neq_cost a b)) as [[_ ->]|[_ ->]].
      + destruct (Nat.min_spec (d1 + 1) (d2 + 1)) as [[_ ->]|[_ ->]].
        * eapply al_eq; [apply al_ins, A1|lia].
        * eapply al_eq; [apply al_del, A2|lia].
      + apply al_sub, A3.
    - intros k H. apply al_inv_cons2 in H as
        [(k' & H & ->)|[(k' & H & ->)|[(k' & H & ->)|(k' & u & v & s1 & t1 & Hsw & -> & -> & H & ->)]]].
      + specialize (M2 _ H). lia.
      + specialize (M1 _ H). lia.
      + specialize (M3 _ H). lia.
      + exfalso. destruct Hno as [Hno|[Hno|Hno]]; [congruence| |];
          apply Hno, elem_of_app; right; left.
  Qed.

  Lemma aldist_step_tr a b u v s t (d1 d2 d3 d4 : nat) :
    aldist (a :: u ++ b :: s) (v ++ a :: t) d1 -> aldist (u ++ b :: s) (b :: v ++ a :: t) d2 ->
    aldist (u ++ b :: s) (v ++ a :: t) d3 -> aldist s t d4 ->
    sw = true -> b ∉ u -> a ∉ v ->
    aldist (a :: u ++ b :: s) (b :: v ++ a :: t)
      (Nat.min (Nat.min (Nat.min (d1 + 1) (d2 + 1)) (d3 + neq_cost a b)) (d4 + length u + 1 + length v)).
  Proof.
    intros [A1 M1] [A2 M2] [A3 M3] [A4 M4] Hsw Hbu Hav. split.
    - destruct (Nat.min_spec (Nat.min (Nat.min (d1 + 1) (d2 + 1)) (d3 + neq_cost a b))
         (d4 + length u + 1 + length v)) as [[_ ->]|[_ ->]].
      + destruct (Nat.min_spec (Nat.min (d1 + 1) (d2 + 1)) (d3 + neq_cost a b)) as [[_ ->]|[_ ->]].
        * destruct (Nat.min_spec (d1 + 1) (d2 + 1)) as [[_ ->]|[_ ->]].
          -- eapply al_eq; [apply al_ins, A1|lia].
          -- eapply al_eq; [apply al_del, A2|lia].
        * apply al_sub, A3.
      + eapply al_eq; [apply (al_tr _ d4 a u b v); [done|exact A4]|lia].
    - intros k H. apply al_inv_cons2 in H as
        [(k' & H & ->)|[(k' & H & ->)|[(k' & H & ->)|(k' & u' & v' & s1 & t1 & _ & E1 & E2 & H & ->)]]].
      + specialize (M2 _ H). lia.
      + specialize (M1 _ H). lia.
      + specialize (M3 _ H). lia.
      + symmetry in E1, E2. apply first_occ in E1; [|done]. apply first_occ in E2; [|done].
        assert (alle (k' + (length u' - length u) + (length v' - length v)) s t /\
                length u <= length u' /\ length v <= length v') as (Hal & Hu & Hv).
        { destruct E1 as [[-> ->]|(u1 & -> & ->)]; destruct E2 as [[-> ->]|(v1 & -> & ->)];
            rewrite ?app_length; cbn.
          - split; [|lia]. eapply alle_mono; [apply al_alle, H|lia].
          - split; [|lia]. eapply alle_mono; [apply alle_inss, alle_ins, al_alle, H|lia].
          - split; [|lia]. eapply alle_mono; [apply alle_dels, alle_del, al_alle, H|lia].
          - split; [|lia].
            eapply alle_mono; [apply alle_inss, alle_ins, alle_dels, alle_del, al_alle, H|lia]. }
        destruct Hal as (k4 & Hk4 & H4). specialize (M4 _ H4). lia.
  Qed.

  (** ** Metric properties *)
  Lemma edits_0_eq s t : edits sw 0 s t -> s = t.
  Proof. inversion 1. done. Qed.

  (** ** Bags *)
  Lemma al_bag k s t : al k s t ->
    exists c x y : list A, s ≡ₚ c ++ x /\ t ≡ₚ c ++ y /\ length x + length y <= 2 * k.
  Proof.
    induction 1 as [|k a s t H IH|k b s t H IH|k a b s t H IH|k a u b v s t Hsw H IH].
    - exists [], [], []. cbn. done.
    - destruct IH as (c & x & y & Es & Et & Hl). exists c, (a :: x), y. split_and!; [|done|cbn; lia].
      rewrite Es. apply Permutation_middle.
    - destruct IH as (c & x & y & Es & Et & Hl). exists c, x, (b :: y). split_and!; [done| |cbn; lia].
      rewrite Et. apply Permutation_middle.
    - destruct IH as (c & x & y & Es & Et & Hl). unfold neq_cost. destruct (decide (a = b)) as [->|Hn].
      + exists (b :: c), x, y. split_and!; [by rewrite Es|by rewrite Et|lia].
      + exists c, (a :: x), (b :: y).
        split_and!; [rewrite Es; apply Permutation_middle|rewrite Et; apply Permutation_middle|cbn; lia].
    - destruct IH as (c & x & y & Es & Et & Hl). exists (a :: b :: c), (u ++ x), (v ++ y). split_and!.
      + cbn. f_equiv. rewrite <- Permutation_middle. f_equiv. rewrite Es, !app_assoc.
        by rewrite (Permutation_app_comm u c).
      + cbn. rewrite <- Permutation_middle. rewrite (Permutation_swap a b). f_equiv. f_equiv.
        rewrite Et, !app_assoc. by rewrite (Permutation_app_comm v c).
      + rewrite !app_length. lia.
  Qed.
End align.
