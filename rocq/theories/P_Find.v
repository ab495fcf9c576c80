(** Proofs about scoring, expanding, ranking and cropping the instances. *)
From Coq Require Import Lia Reals Lra Sorted.
From Verif Require Import M_Base M_Anahash M_Iter M_Distance M_Float M_Types M_Model M_Confusable M_Search.
From Verif Require Import S_Anahash S_Iter S_Distance S_Model S_Search P_Base P_Float P_Score P_Rank.
From stdpp Require Import options.

(** ** Expansion *)
Definition expansion (m : model) (r : variant_result) (ref : variant_ref) : option variant_result :=
  match ref with
  | VariantOf t s =>
      match m_decoder m !! t with
      | Some item =>
          let tf := f64_of_N (vv_frequency item) in
          Some (VariantResult t (fmul (vr_dist r) s) (if flt tf (vr_freq r) then tf else vr_freq r) (Some (vr_id r)))
      | None => None
      end
  | ReferenceFor _ _ => None
  end.
Definition expansions (m : model) (r : variant_result) : list variant_result :=
  match m_decoder m !! vr_id r with
  | Some item => omap (expansion m r) (default [] (vv_variants item)) ++
      (if vt_check (vv_type item) VT_TRANSPARENT then [] else [r])
  | None => []
  end.
Lemma expand_refs_ok m r refs : forall acc,
  (forall t s, VariantOf t s ∈ refs -> t < length (m_decoder m)) ->
  rfoldl (expand_ref m r) acc refs = Ok (acc ++ omap (expansion m r) refs).
Proof.
  induction refs as [|ref refs IH]; intros acc H; [cbn; by rewrite app_nil_r|]. cbn [rfoldl].
  assert (forall t s, VariantOf t s ∈ refs -> t < length (m_decoder m)) as H' by (intros t s Hin; apply (H t s); by right).
  destruct ref as [t s|t s].
  - unfold expand_ref at 1. cbn [rbind]. by rewrite IH.
  - destruct (lookup_lt_is_Some_2 (m_decoder m) t) as [item Hi]; [apply (H t s); left|].
    unfold expand_ref at 1. rewrite Hi. cbn [rexpect rbind]. rewrite IH by done. cbn [omap list_omap]. unfold expansion at 2.
    rewrite Hi. cbn. by rewrite <- app_assoc.
Qed.
Lemma expand_variants_ok m l : links_inside m -> Forall (fun r => vr_id r < length (m_decoder m)) l ->
  expand_variants m l = Ok (mjoin (map (expansions m) l)).
Proof.
  intros HL Hl. unfold expand_variants.
  enough (forall acc, rfoldl (expand_one m) acc l = Ok (acc ++ mjoin (map (expansions m) l))) as -> by done.
  induction l as [|r l IH]; intros acc; [cbn; by rewrite app_nil_r|]. apply Forall_cons in Hl as [Hr Hl].
  destruct (lookup_lt_is_Some_2 (m_decoder m) (vr_id r)) as [item Hi]; [done|]. cbn [rfoldl map mjoin list_join].
  unfold expand_one at 1, expansions at 1. rewrite Hi. cbn [rexpect rbind].
  assert ((match vv_variants item with Some refs => rfoldl (expand_ref m r) acc refs | None => Ok acc end) =
    Ok (acc ++ omap (expansion m r) (default [] (vv_variants item)))) as ->.
  { destruct (vv_variants item) as [refs|] eqn:E; cbn [default]; [|cbn; by rewrite app_nil_r].
    apply expand_refs_ok. intros t s Hin. apply (HL _ item t s Hi). unfold stored_references. rewrite E. cbn.
    apply elem_of_list_omap. by exists (VariantOf t s). }
  cbn [rbind]. destruct (vt_check _ _); rewrite IH by done; by rewrite ?app_nil_r, <- ?app_assoc.
Qed.

Lemma expand_refs_inv m r refs : forall acc x, rfoldl (expand_ref m r) acc refs = Ok x -> x = acc ++ omap (expansion m r) refs.
Proof.
  induction refs as [|ref refs IH]; intros acc x H; [injection H as <-; by rewrite app_nil_r|]. cbn [rfoldl] in H.
  destruct ref as [t s|t s]; unfold expand_ref at 1 in H.
  - by apply IH in H.
  - destruct (m_decoder m !! t) as [item|] eqn:Ht; [|done]. cbn [rexpect rbind] in H. apply IH in H as ->.
    cbn [omap list_omap]. unfold expansion at 2. rewrite Ht. cbn. by rewrite <- app_assoc.
Qed.
Lemma expand_variants_inv m l x : expand_variants m l = Ok x -> x = mjoin (map (expansions m) l).
Proof.
  unfold expand_variants.
  enough (forall acc x, rfoldl (expand_one m) acc l = Ok x -> x = acc ++ mjoin (map (expansions m) l)) as E by (intros H; by apply E in H).
  clear x. induction l as [|r l IH]; intros acc x H; [injection H as <-; cbn; by rewrite app_nil_r|]. cbn [rfoldl map mjoin list_join] in *.
  apply rbind_ok in H as (acc' & E & H). apply IH in H as ->. unfold expand_one in E. unfold expansions at 2.
  destruct (m_decoder m !! vr_id r) as [item|]; [|done]. cbn [rexpect rbind] in E. apply rbind_ok in E as (acc2 & E2 & E).
  assert (acc2 = acc ++ omap (expansion m r) (default [] (vv_variants item))) as ->.
  { destruct (vv_variants item); [by apply expand_refs_inv in E2|injection E2 as <-; cbn; by rewrite app_nil_r]. }
  injection E as <-. destruct (vt_check _ _); by rewrite ?app_nil_r, <- ?app_assoc.
Qed.

Section pipeline.
  Context (ses : str -> str -> list edit_instruction).
  Context (m : model) (inst : list (vocab_id * distance)) (q : str) (len : nat) (thr cut : f64) (mm : nat) (fw : f32).
  #[local] Set Default Proof Using "Type*".

  Definition scored (x : vocab_id * distance) : option variant_result :=
    match m_decoder m !! x.1 with
    | None => None
    | Some item =>
        let s := distance_score (m_weights m) len x.2 in
        if fge s thr then Some (VariantResult x.1 s (absolute_freq m item) None) else None
    end.
  Definition linked (x : vocab_id * distance) : bool :=
    match m_decoder m !! x.1 with Some item => if vv_variants item then true else false | None => false end.
  Definition raw_max (mf : f64) (l : list (vocab_id * distance)) : f64 :=
    foldl (fun mf x => match m_decoder m !! x.1 with
      | Some item => if fgt (absolute_freq m item) mf then absolute_freq m item else mf | None => mf end) mf l.

  Definition with_conf : bool := negb (bool_decide (length (m_confusables m) = 0)).
  Definition early : bool := with_conf && m_confusables_before_pruning m.
  Definition late : bool := with_conf && negb (m_confusables_before_pruning m).
  Definition expandable : bool := existsb linked inst.
  Definition listA : list variant_result := omap scored inst.
  Definition listB : list variant_result := if early then rescore_confusables ses m listA q else listA.
  Definition listC : list variant_result := if expandable then mjoin (map (expansions m) listB) else listB.
  Definition top_freq : f64 := if expandable then max_freq_of (raw_max f0 inst) listC else raw_max f0 inst.
  Definition listD : list variant_result := normalize_freq top_freq listC.
  Definition listE : list variant_result := sort_by (after_of fw) listD.
  Definition listF : list variant_result := if expandable then dedup listE else listE.
  Definition listG : list variant_result := take (crop_n mm fw listF) listF.
  Definition listH : list variant_result := if late then sort_by (after_of fw) (rescore_confusables ses m listG q) else listG.

  Lemma listA_elem r : r ∈ listA <-> exists id d v, (id, d) ∈ inst /\ m_decoder m !! id = Some v /\
    fge (distance_score (m_weights m) len d) thr = true /\
    r = VariantResult id (distance_score (m_weights m) len d) (absolute_freq m v) None.
  Proof.
    unfold listA. rewrite elem_of_list_omap. split.
    - intros ([id d] & Hx & E). unfold scored in E. cbn [fst snd] in E. destruct (m_decoder m !! id) as [v|] eqn:Hv; [|done].
      cbv zeta in E. destruct (fge _ thr) eqn:Et; [|done]. injection E as <-. eauto 10.
    - intros (id & d & v & Hx & Hv & Et & ->). exists (id, d). split; [done|]. unfold scored. cbn [fst snd]. rewrite Hv. cbv zeta. by rewrite Et.
  Qed.
  Lemma listA_ids : NoDup (map fst inst) -> NoDup (map vr_id listA).
  Proof.
    unfold listA. clear. intros H. induction inst as [|[id d] l IH]; [constructor|]. cbn [map fst] in H. apply NoDup_cons in H as [H1 H2].
    cbn [omap list_omap]. destruct (scored (id, d)) as [r|] eqn:E; [|by apply IH].
    assert (vr_id r = id) as Er by (unfold scored in E; cbn [fst snd] in E; repeat case_match; by simplify_eq).
    cbn. constructor; [|by apply IH]. rewrite Er. intros Hin. apply H1. apply elem_of_list_fmap in Hin as (y & Ey & Hy).
    apply elem_of_list_omap in Hy as ([i e] & Hx & Hs). apply elem_of_list_fmap. exists (i, e). split; [|done]. cbn.
    rewrite Ey. unfold scored in Hs; cbn [fst snd] in Hs; repeat case_match; by simplify_eq.
  Qed.

  Lemma expansions_elem r0 r : r ∈ expansions m r0 <-> exists item, m_decoder m !! vr_id r0 = Some item /\
    ((exists t s ti, (t, s) ∈ stored_references item /\ m_decoder m !! t = Some ti /\
        r = VariantResult t (fmul (vr_dist r0) s)
          (if flt (f64_of_N (vv_frequency ti)) (vr_freq r0) then f64_of_N (vv_frequency ti) else vr_freq r0) (Some (vr_id r0))) \/
     (vt_check (vv_type item) VT_TRANSPARENT = false /\ r = r0)).
  Proof.
    unfold expansions. destruct (m_decoder m !! vr_id r0) as [item|] eqn:Hi.
    2:{ split; [by intros ?%elem_of_nil|]. by intros (? & ? & _). }
    rewrite elem_of_app, elem_of_list_omap. split.
    - intros [(ref & Hin & E)|Hin]; exists item; (split; [done|]).
      + left. destruct ref as [t s|t s]; [done|]. cbn in E. destruct (m_decoder m !! t) as [ti|] eqn:Ht; [|done].
        injection E as <-. exists t, s, ti. split; [|done]. unfold stored_references. apply elem_of_list_omap. by exists (VariantOf t s).
      + right. destruct (vt_check _ _); [by apply elem_of_nil in Hin|]. by apply elem_of_list_singleton in Hin.
    - intros (item' & [= <-] & [(t & s & ti & Hin & Ht & ->)|[E ->]]).
      + left. unfold stored_references in Hin. apply elem_of_list_omap in Hin as (ref & Hin & E). exists ref. split; [done|].
        destruct ref; [done|]. injection E as -> ->. cbn. by rewrite Ht.
      + right. rewrite E. by apply elem_of_list_singleton.
  Qed.
  Lemma listE_perm : listE ≡ₚ listD.
  Proof. by apply (sort_perm _ (fun _ => False)). Qed.
  Lemma listF_sublist : listF `sublist_of` listE.
  Proof. unfold listF. destruct expandable; [apply dedup_sublist|done]. Qed.
  Lemma sublist_elem (l k : list variant_result) x : l `sublist_of` k -> x ∈ l -> x ∈ k.
  Proof. intros S H. eapply elem_of_submseteq; [exact H|by apply sublist_submseteq]. Qed.
  Lemma listG_sublist : listG `sublist_of` listE.
  Proof. etrans; [apply take_sublist|apply listF_sublist]. Qed.
  Lemma listG_elem r : r ∈ listG -> r ∈ listD.
  Proof. intros H. rewrite <- listE_perm. eapply sublist_elem; [apply listG_sublist|done]. Qed.
  Lemma listH_perm : listH ≡ₚ (if late then rescore_confusables ses m listG q else listG).
  Proof. unfold listH. destruct late; [|done]. by apply (sort_perm _ (fun _ => False)). Qed.

  (** whatever the numbers *)
  Lemma score_fold_inv l : forall r mf e st, rfoldl (score_instance m len thr) (r, mf, e) l = Ok st ->
    st = (r ++ omap scored l, raw_max mf l, e || existsb linked l).
  Proof.
    induction l as [|[id d] l IH]; intros r mf e st H.
    - injection H as <-. cbn. by rewrite app_nil_r, orb_false_r.
    - cbn [rfoldl] in H. unfold score_instance at 1 in H. unfold raw_max. cbn [omap list_omap existsb foldl].
      unfold scored at 1, linked at 1. cbn [fst snd]. destruct (m_decoder m !! id) as [v|] eqn:Hv; [|by apply IH in H].
      cbv zeta in H. destruct (fis_nan _); [done|]. cbn [rbind] in H. apply IH in H. rewrite H. cbv zeta.
      rewrite orb_assoc. destruct (fge _ thr); [|done]. by rewrite <- app_assoc.
  Qed.
  Lemma score_and_rank_inv l : score_and_rank ses m inst q len mm thr cut fw = Ok l -> l = apply_cutoff cut fw listH.
  Proof.
    unfold score_and_rank. destruct (_ =? _)%nat; [done|]. intros H. apply rbind_ok in H as (st & E & H).
    apply score_fold_inv in E as ->. cbn [rbind app orb] in H.
    fold listA in H. fold with_conf in H. fold early in H. fold late in H. fold listB in H. fold expandable in H.
    apply rbind_ok in H as ([rs mf] & E & H).
    assert (rs = listC /\ mf = top_freq) as [-> ->].
    { unfold top_freq, listC. destruct expandable; [|by simplify_eq].
      apply rbind_ok in E as (x & Ex & E). apply expand_variants_inv in Ex as ->. by injection E as <- <-. }
    fold listD in H. apply rbind_ok in H as (rk & Er & H).
    assert (forall x y, rank_results fw x = Ok y -> y = sort_by (after_of fw) x) as RR.
    { intros x y. unfold rank_results. destruct (_ && _ && _); [done|]. by intros [= <-]. }
    apply RR in Er as ->. fold listE in H. fold listF in H. rewrite (proj1 (crop_take mm fw listF)) in H. cbn [rbind] in H. fold listG in H.
    apply rbind_ok in H as (fin & Ef & H). injection H as <-. f_equal. unfold listH. destruct late; [by apply RR|by injection Ef].
  Qed.

  Context (Hlen : 0 < len) (Hlen2 : (N.of_nat len < 9007199254740992)%N) (Hw : weights_ok (m_weights m)).
  Context (Hinst : forall id d, (id, d) ∈ inst -> id < length (m_decoder m) /\ measured len d).
  Context (Hfw : weight_single fw) (Hcn : length (m_confusables m) <= 500).
  Context (Hconf : Forall (fun c => double (cf_weight c) /\ fle f0 (cf_weight c) = true /\ fle (cf_weight c) f2 = true) (m_confusables m)).
  Context (HL : links_inside m).
  Context (HLs : forall id v r s, m_decoder m !! id = Some v -> (r, s) ∈ stored_references v -> unit_score s).
  Context (HF : freq_u32 m).
  #[local] Set Default Proof Using "All".

  Lemma score_fold l : forall r mf e, (forall id d, (id, d) ∈ l -> (id, d) ∈ inst) ->
    rfoldl (score_instance m len thr) (r, mf, e) l = Ok (r ++ omap scored l, raw_max mf l, e || existsb linked l).
  Proof.
    induction l as [|[id d] l IH]; intros r mf e Hl.
    - cbn. by rewrite app_nil_r, orb_false_r.
    - assert (forall i d, (i, d) ∈ l -> (i, d) ∈ inst) as Hl' by (intros i e' H; apply Hl; by right).
      destruct (Hinst id d (Hl id d ltac:(left))) as [Hi Hd].
      destruct (lookup_lt_is_Some_2 (m_decoder m) id Hi) as [v Hv].
      pose proof (score_unit (m_weights m) Hw len d Hlen Hlen2 Hd) as Hs.
      cbn [rfoldl]. unfold score_instance at 1. rewrite Hv. cbv zeta. rewrite (unit_not_nan _ Hs). cbn [rbind].
      rewrite IH by done. unfold raw_max at 2. cbn [omap list_omap existsb foldl]. unfold scored at 2, linked at 2. cbn [fst snd]. rewrite Hv. cbn zeta.
      rewrite orb_assoc. destruct (fge _ thr); [|done]. by rewrite <- app_assoc.
  Qed.

  (** ** Every list holds rankable results *)
  (** frequencies before normalisation: whole numbers below 2^32 *)
  Definition whole (x : f64) : Prop := exists n, (n < 4294967296)%N /\ x = f64_of_N n.
  Lemma absolute_whole id v : m_decoder m !! id = Some v -> whole (absolute_freq m v).
  Proof.
    intros Hv. unfold absolute_freq. destruct (m_have_freq m); [|by exists 1%N].
    exists (vv_frequency v). split; [by apply (HF id)|done].
  Qed.
  Lemma whole_dv x : whole x -> exists n, (n < 4294967296)%N /\ x = f64_of_N n /\ dv x (IZR (Z.of_N n)).
  Proof. intros (n & Hn & ->). exists n. split; [done|]. split; [done|]. apply dv_of_N. lia. Qed.

  (** products of confusable weights *)
  Lemma conf_weight_dv cand : exists r, dv (confusable_weight ses m q cand) r /\ (0 <= r <= Raux.bpow Zaux.radix2 500)%R.
  Proof.
    assert (1 <= Raux.bpow Zaux.radix2 500)%R as L2 by (change 1%R with (Raux.bpow Zaux.radix2 0); apply Raux.bpow_le; lia).
    unfold confusable_weight. destruct (m_decoder m !! cand) as [item|]; [|exists 1%R; split; [apply dv_f1|lra]].
    set (script := ses q (vv_text item)). clearbody script.
    assert (forall l, Forall (fun c => double (cf_weight c) /\ fle f0 (cf_weight c) = true /\ fle (cf_weight c) f2 = true) l ->
      forall (k : Z) (w : f64), (0 <= k)%Z -> (k + Z.of_nat (length l) <= 500)%Z -> (exists r, dv w r /\ (0 <= r <= Raux.bpow Zaux.radix2 k)%R) ->
      exists r, dv (foldl (fun weight c => if found_in c script then fmul weight (cf_weight c) else weight) w l) r /\
        (0 <= r <= Raux.bpow Zaux.radix2 500)%R) as Key.
    { clear -Hlen. induction l as [|c l IH]; intros Hl k w Hk Hk2 (r & Hr & B).
      - exists r. split; [done|]. split; [lra|]. eapply Rle_trans; [apply B|]. apply Raux.bpow_le. cbn in Hk2. lia.
      - apply Forall_cons in Hl as [(D & H0 & H2) Hl]. cbn [foldl length] in *. apply (IH Hl (k + 1)%Z); [lia|lia|].
        assert (Raux.bpow Zaux.radix2 (k + 1) = Raux.bpow Zaux.radix2 k * 2)%R as E1 by (by rewrite Raux.bpow_plus).
        destruct (found_in c script); [|exists r; split; [done|lra]].
        assert (dv f2 2) as D2.
        { assert (dv (big 1) (Raux.bpow Zaux.radix2 1)) as X by (by apply dv_big). exact X. }
        assert (is_fin (cf_weight c)) as Fc.
        { apply (pos_fin 53 1024 prec53 emax53); [done|]. destruct (cf_weight c) as [|[]| |[]]; try done. }
        pose proof (fval_of 53 1024 prec53 emax53 _ D Fc) as Hc. apply (dv_fle _ _ _ _ dv_f0 Hc) in H0. apply (dv_fle _ _ _ _ Hc D2) in H2.
        destruct (between (r * rval (cf_weight c)) (big (k + 1)) (Raux.bpow Zaux.radix2 (k + 1))) as [Hi Hb].
        + apply dv_big. lia.
        + split; [apply Rmult_le_pos; lra|]. rewrite E1. apply Rmult_le_compat; lra.
        + eexists. split; [by apply (fval_mul 53 1024 prec53 emax53 _ _ _ _ Hr Hc)|done]. }
    apply (Key _ Hconf 0%Z); [lia|lia|]. exists 1%R. split; [apply dv_f1|]. change (Raux.bpow Zaux.radix2 0) with 1%R. lra.
  Qed.

  Definition upto (k : Z) (x : f64) : Prop := exists r, dv x r /\ (0 <= r <= Raux.bpow Zaux.radix2 k)%R.
  Lemma upto_conf k x cand : (0 <= k <= 500)%Z -> upto k x -> upto (k + 500) (fmul x (confusable_weight ses m q cand)).
  Proof.
    intros Hk (r & Hr & B). destruct (conf_weight_dv cand) as (c & Hc & Bc).
    destruct (between (r * c) (big (k + 500)) (Raux.bpow Zaux.radix2 (k + 500))) as [Hi Hb].
    - apply dv_big. lia.
    - split; [apply Rmult_le_pos; lra|]. rewrite Raux.bpow_plus. apply Rmult_le_compat; lra.
    - eexists. split; [by apply (fval_mul 53 1024 prec53 emax53 _ _ _ _ Hr Hc)|done].
  Qed.
  Lemma upto_le k k' x : (k <= k')%Z -> upto k x -> upto k' x.
  Proof. intros Hk (r & Hr & B). exists r. split; [done|]. pose proof (Raux.bpow_le Zaux.radix2 _ _ Hk). lra. Qed.

  Definition early_ok (r : variant_result) : Prop := vr_id r < length (m_decoder m) /\ upto 500 (vr_dist r) /\ whole (vr_freq r).
  Lemma listA_ok : Forall (fun r => vr_id r < length (m_decoder m) /\ unit_score (vr_dist r) /\ whole (vr_freq r)) listA.
  Proof.
    rewrite Forall_forall. intros r (id & d & v & Hx & Hv & _ & ->)%listA_elem. cbn. split; [by eapply lookup_lt_Some|].
    split; [|by eapply absolute_whole]. apply (score_unit (m_weights m) Hw len d Hlen Hlen2). by apply (Hinst id d).
  Qed.
  Lemma listB_ok : Forall early_ok listB.
  Proof.
    unfold listB. pose proof listA_ok as H. rewrite Forall_forall in *. unfold early_ok. destruct early.
    - intros r Hr. unfold rescore_confusables in Hr. apply elem_of_list_fmap in Hr as (r0 & -> & Hr). cbn.
      destruct (H r0 Hr) as (? & Hu & ?). split; [done|]. split; [|done]. apply (upto_conf 0); [lia|]. by apply unit_dv in Hu.
    - intros r Hr. destruct (H r Hr) as (? & Hu & ?). split; [done|]. split; [|done]. apply (upto_le 0); [lia|]. by apply unit_dv in Hu.
  Qed.
  Lemma upto_unit k x s : upto k x -> unit_score s -> upto k (fmul x s).
  Proof.
    intros (r & Hr & B) (c & Hc & Bc)%unit_dv. destruct (dv_mul_unit _ _ _ _ Hr Hc) as (p & Hp & Bp); [lra|done|].
    exists p. split; [done|]. lra.
  Qed.
  Lemma listC_ok : Forall early_ok listC.
  Proof.
    unfold listC. pose proof listB_ok as H. destruct expandable; [|done]. rewrite Forall_forall in *. intros r Hr.
    apply elem_of_list_join in Hr as (l & Hr & Hl). apply elem_of_list_fmap in Hl as (r0 & -> & Hl). specialize (H r0 Hl).
    apply expansions_elem in Hr as (item & Hi & [(t & s & ti & Hin & Ht & ->)|[_ ->]]); [|done].
    destruct H as (H1 & H2 & H3). split; cbn; [by eapply lookup_lt_Some|]. split.
    - apply upto_unit; [done|]. by apply (HLs _ _ _ _ Hi Hin).
    - destruct (flt _ _); [|done]. exists (vv_frequency ti). split; [by apply (HF t)|done].
  Qed.

  (** the maxima *)
  Lemma fgt_whole x y a b : dv x a -> dv y b -> fgt x y = true <-> (b < a)%R.
  Proof. intros Hx Hy. unfold fgt. change (SFltb y x) with (flt y x). by apply dv_flt. Qed.
  Lemma max_whole mf x : whole mf -> whole x -> let mx := if fgt x mf then x else mf in
    whole mx /\ fle mf mx = true /\ fle x mx = true.
  Proof.
    intros Hm Hx. destruct (whole_dv _ Hm) as (a & _ & _ & Ha). destruct (whole_dv _ Hx) as (b & _ & _ & Hb).
    pose proof (fgt_whole _ _ _ _ Hb Ha) as G. cbn zeta. destruct (fgt x mf).
    - assert (IZR (Z.of_N a) < IZR (Z.of_N b))%R by (by apply G). split; [done|].
      split; [apply (dv_fle _ _ _ _ Ha Hb)|apply (dv_fle _ _ _ _ Hb Hb)]; lra.
    - split; [done|]. split; [apply (dv_fle _ _ _ _ Ha Ha)|apply (dv_fle _ _ _ _ Hb Ha)]; [lra|].
      destruct (Rle_lt_dec (IZR (Z.of_N b)) (IZR (Z.of_N a))) as [|L]; [done|]. by apply G in L.
  Qed.
  Lemma fle_trans_whole x y z : whole x -> whole y -> whole z -> fle x y = true -> fle y z = true -> fle x z = true.
  Proof.
    intros (a & _ & _ & Ha)%whole_dv (b & _ & _ & Hb)%whole_dv (c & _ & _ & Hc)%whole_dv.
    rewrite (dv_fle _ _ _ _ Ha Hb), (dv_fle _ _ _ _ Hb Hc), (dv_fle _ _ _ _ Ha Hc). lra.
  Qed.
  Lemma max_fold {X} (f : X -> f64) (l : list X) : Forall (fun x => whole (f x)) l -> forall mf, whole mf ->
    let mx := foldl (fun mf x => if fgt (f x) mf then f x else mf) mf l in
    whole mx /\ fle mf mx = true /\ (forall x, x ∈ l -> fle (f x) mx = true) /\ (mx = mf \/ exists x, x ∈ l /\ mx = f x).
  Proof.
    induction l as [|x l IH]; intros Hl mf Hm; cbn [foldl].
    - split; [done|]. split; [|split; [by intros ? ?%elem_of_nil|by left]].
      destruct (whole_dv _ Hm) as (a & _ & _ & Ha). apply (dv_fle _ _ _ _ Ha Ha). lra.
    - apply Forall_cons in Hl as [Hx Hl]. destruct (max_whole mf (f x) Hm Hx) as (W & L1 & L2).
      destruct (IH Hl _ W) as (W' & L3 & L4 & L5). split; [done|]. split; [by eapply fle_trans_whole; [| | | |exact L3]|]. split.
      + intros y [->|Hy]%elem_of_cons; [by eapply fle_trans_whole; [| | | |exact L3]|by apply L4].
      + destruct L5 as [E|(y & Hy & E)].
        * destruct (fgt (f x) mf); [right; exists x; split; [left|done]|by left].
        * right. exists y. split; [by right|done].
  Qed.
  Lemma raw_max_fold : raw_max f0 inst =
    foldl (fun mf x => if fgt (match m_decoder m !! fst x with Some v => absolute_freq m v | None => f0 end) mf
      then match m_decoder m !! fst x with Some v => absolute_freq m v | None => f0 end else mf) f0 inst.
  Proof.
    assert (forall z, raw_max z inst =
      foldl (fun mf x => if fgt (match m_decoder m !! fst x with Some v => absolute_freq m v | None => f0 end) mf
        then match m_decoder m !! fst x with Some v => absolute_freq m v | None => f0 end else mf) z inst) as E; [|apply E].
    unfold raw_max. clear -Hinst. revert Hinst. induction inst as [|[id d] l IH]; intros H z; [done|]. cbn [foldl fst].
    destruct (lookup_lt_is_Some_2 (m_decoder m) id) as [v Hv]; [apply (H id d); left|]. rewrite Hv.
    apply IH. intros i e Hx. apply H. by right.
  Qed.
  Lemma whole_f0 : whole f0. Proof. by exists 0%N. Qed.
  Lemma raw_max_ok : whole (raw_max f0 inst) /\
    (forall id d v, (id, d) ∈ inst -> m_decoder m !! id = Some v -> fle (absolute_freq m v) (raw_max f0 inst) = true) /\
    (raw_max f0 inst = f0 \/ exists id d v, (id, d) ∈ inst /\ m_decoder m !! id = Some v /\ raw_max f0 inst = absolute_freq m v).
  Proof.
    rewrite raw_max_fold.
    destruct (max_fold (fun x : vocab_id * distance => match m_decoder m !! fst x with Some v => absolute_freq m v | None => f0 end) inst)
      with (mf := f0) as (W & _ & L & E).
    - rewrite Forall_forall. intros [id d] Hx. cbn. destruct (m_decoder m !! id) as [v|] eqn:Hv; [by eapply absolute_whole|apply whole_f0].
    - apply whole_f0.
    - split; [done|]. split.
      + intros id d v Hx Hv. specialize (L _ Hx). cbn [fst] in L. by rewrite Hv in L.
      + destruct E as [E|([id d] & Hx & E)]; [by left|]. right. cbn [fst] in E.
        destruct (lookup_lt_is_Some_2 (m_decoder m) id) as [v Hv]; [by apply (Hinst id d)|]. rewrite Hv in E. exists id, d, v. done.
  Qed.
  Lemma top_freq_ok : whole top_freq /\ (forall r, r ∈ listC -> fle (vr_freq r) top_freq = true) /\ fle (raw_max f0 inst) top_freq = true.
  Proof.
    unfold top_freq. destruct raw_max_ok as (W & L & _). destruct expandable eqn:Ex.
    - destruct (max_fold vr_freq listC) with (mf := raw_max f0 inst) as (W' & L0 & L' & _); [|done|].
      + eapply Forall_impl; [apply listC_ok|]. by intros r (_ & _ & ?).
      + done.
    - split; [done|]. split.
      + intros r Hr. unfold listC in Hr. rewrite Ex in Hr. unfold listB in Hr. destruct early.
        * unfold rescore_confusables in Hr. apply elem_of_list_fmap in Hr as (r0 & -> & Hr). cbn.
          apply listA_elem in Hr as (id & d & v & Hx & Hv & _ & ->). by apply (L id d v).
        * apply listA_elem in Hr as (id & d & v & Hx & Hv & _ & ->). by apply (L id d v).
      + destruct (whole_dv _ W) as (a & _ & _ & Ha). apply (dv_fle _ _ _ _ Ha Ha). lra.
  Qed.

  Lemma listD_ok : Forall (fun r => vr_id r < length (m_decoder m) /\ upto 500 (vr_dist r) /\ unit_score (vr_freq r)) listD.
  Proof.
    unfold listD, normalize_freq. destruct top_freq_ok as (W & L & _). pose proof listC_ok as H. rewrite Forall_forall in *.
    destruct (whole_dv _ W) as (b & Hb & _ & Db). pose proof (fgt_whole _ _ _ _ Db dv_f0) as G.
    destruct (fgt top_freq f0).
    - intros r Hr. apply elem_of_list_fmap in Hr as (r0 & -> & Hr). cbn. destruct (H r0 Hr) as (H1 & H2 & H3).
      split; [done|]. split; [done|]. specialize (L r0 Hr). destruct (whole_dv _ H3) as (a & Ha & _ & Da).
      apply (dv_fle _ _ _ _ Da Db) in L. apply unit_dv. assert (0 < IZR (Z.of_N b))%R by (by apply G).
      destruct (dv_div_unit _ _ _ _ Da Db) as (c & Hc & B & _); [split; [apply IZR_le; lia|done]|done|]. by exists c.
    - intros r Hr. destruct (H r Hr) as (H1 & H2 & H3). split; [done|]. split; [done|].
      specialize (L r Hr). destruct (whole_dv _ H3) as (a & Ha & _ & Da). apply (dv_fle _ _ _ _ Da Db) in L.
      assert (~ (0 < IZR (Z.of_N b))%R) as N by (intros X; by apply G in X). apply unit_dv. exists (IZR (Z.of_N a)). split; [done|].
      split; [apply IZR_le; lia|lra].
  Qed.
  Lemma listD_result_ok : Forall result_ok listD.
  Proof.
    eapply Forall_impl; [apply listD_ok|]. intros r (_ & H1 & H2). split; [|done]. apply modest_dv. by apply (upto_le 500 1000).
  Qed.
  Lemma rank_results_eq l : Forall result_ok l -> rank_results fw l = Ok (sort_by (after_of fw) l).
  Proof.
    intros Hl. destruct (rank_results_ok fw l) as (l' & E & _).
    - eapply Forall_impl; [exact Hl|]. intros r. by apply ok_rankable.
    - revert E. unfold rank_results. by destruct (_ && _ && _).
  Qed.
  Lemma listG_result_ok : Forall result_ok listG.
  Proof. pose proof listD_result_ok as H. rewrite Forall_forall in *. intros r Hr. by apply H, listG_elem. Qed.
  Lemma rescored_ok : Forall result_ok (rescore_confusables ses m listG q).
  Proof.
    pose proof listD_ok as H. rewrite Forall_forall in *. intros r Hr. unfold rescore_confusables in Hr.
    apply elem_of_list_fmap in Hr as (r0 & -> & Hr). apply listG_elem in Hr. destruct (H r0 Hr) as (_ & H1 & H2).
    split; [|done]. cbn. apply modest_dv. by apply (upto_conf 500).
  Qed.
  Lemma listH_result_ok : Forall result_ok listH.
  Proof. rewrite listH_perm. destruct late; [apply rescored_ok|apply listG_result_ok]. Qed.

  (** ** The whole *)
  Lemma score_and_rank_eq : score_and_rank ses m inst q len mm thr cut fw = Ok (apply_cutoff cut fw listH).
  Proof.
    unfold score_and_rank. destruct (Nat.eqb_spec len 0); [lia|]. rewrite score_fold by done. cbn [rbind app orb].
    fold listA. fold with_conf. fold early. fold late. fold listB. fold expandable.
    assert ((if expandable then let* results := expand_variants m listB in Ok (results, max_freq_of (raw_max f0 inst) results)
       else Ok (listB, raw_max f0 inst)) = Ok (listC, top_freq)) as ->.
    { unfold top_freq, listC. destruct expandable; [|done]. rewrite expand_variants_ok; [done|done|].
      eapply Forall_impl; [apply listB_ok|]. by intros r (? & _). }
    cbn [rbind]. fold listD. rewrite (rank_results_eq _ listD_result_ok). cbn [rbind]. fold listE. fold listF.
    rewrite (proj1 (crop_take mm fw listF)). cbn [rbind]. fold listG.
    unfold listH. destruct late; [|done]. rewrite (rank_results_eq _ rescored_ok). done.
  Qed.

  Lemma sort_ranked l : Forall result_ok l -> ranked fw (sort_by (after_of fw) l) /\ keeps_ties fw l (sort_by (after_of fw) l).
  Proof.
    intros Hl. destruct (rank_results_ok fw l) as (l' & E & _ & R & K).
    - eapply Forall_impl; [exact Hl|]. intros r. by apply ok_rankable.
    - rewrite (rank_results_eq _ Hl) in E. injection E as <-. done.
  Qed.
  Lemma listE_ranked : ranked fw listE.
  Proof. apply sort_ranked, listD_result_ok. Qed.
  Lemma listH_ranked : ranked fw listH.
  Proof.
    unfold listH. destruct late; [apply sort_ranked, rescored_ok|].
    eapply ranked_sublist; [apply listG_sublist|apply listE_ranked].
  Qed.
  Lemma result_ranked : ranked fw (apply_cutoff cut fw listH).
  Proof.
    destruct (apply_cutoff_spec cut fw listH) as (n & -> & _). eapply ranked_sublist; [apply take_sublist|apply listH_ranked].
  Qed.
End pipeline.
