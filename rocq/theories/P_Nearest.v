(** Proofs about the retrieval of candidates. *)
From Coq Require Import Lia Sorted.
From Verif Require Import M_Base M_Anahash M_Iter M_Distance M_Float M_Types M_Model M_Confusable M_Search.
From Verif Require Import S_Anahash S_Iter S_Distance S_Model S_Search P_Base P_Primes P_Anahash P_Iter P_Recurse P_Distance2 P_Model P_Index.
From stdpp Require Import options.

(** ** Bags *)
Lemma bag_within_of (sub gone y ks ks' : list nat) :
  ks ≡ₚ sub ++ gone -> ks' ≡ₚ sub ++ y -> bag_within ks ks' (length gone + length y).
Proof.
  intros E1 E2. destruct (bag_diff_exists ks ks') as [n Hn]. exists n. split; [done|].
  destruct Hn as (c & x & y' & F1 & F2 & -> & Hd).
  assert (sub ⊆+ c) as Hs%submseteq_length.
  { eapply common_sub_bag; [by rewrite <- E1, <- F1|by rewrite <- E2, <- F2|done]. }
  apply Permutation_length in E1, E2, F1, F2. rewrite app_length in *. lia.
Qed.

(** ** Scheduled lookups *)
Definition scheduled (lk : gmap nat (list N)) (key : nat) (v : N) : Prop := v ∈ default [] (lk !! key).

Lemma scheduled_push lk key v k' v' :
  scheduled (push_lookup lk key v) k' v' <-> scheduled lk k' v' \/ (k' = key /\ v' = v).
Proof.
  unfold scheduled, push_lookup. destruct (decide (k' = key)) as [->|Hn].
  - rewrite lookup_insert. cbn. rewrite elem_of_app, elem_of_list_singleton. tauto.
  - rewrite lookup_insert_ne by done. naive_solver.
Qed.

Lemma as_u8_N n : u16_as_u8 (N.of_nat n) = Nat.modulo n 256.
Proof. unfold u16_as_u8, as_u8. by rewrite Nat2N.id. Qed.

Lemma schedule_spec lk v c dist :
  (N.of_nat c + N.of_nat dist < 65536)%N ->
  exists lk', schedule lk v (N.of_nat c) dist = Ok lk' /\
    forall k x, scheduled lk' k x <->
      scheduled lk k x \/ (x = v /\ exists s, 1 <= s <= dist /\ k = Nat.modulo (c + s) 256).
Proof.
  intros H. unfold schedule.
  destruct (rfoldl_seq (fun i lk' => forall k x, scheduled lk' k x <->
      scheduled lk k x \/ (x = v /\ exists s, 1 <= s < i /\ k = Nat.modulo (c + s) 256))
     (fun lookups d => let* c0 := u16_add (N.of_nat c) (N.of_nat d) in Ok (push_lookup lookups (u16_as_u8 c0) v)) 1 dist lk)
    as (lk' & E & P).
  - intros k x. split; [auto|]. intros [?|(_ & s & ? & _)]; [done|lia].
  - intros i lk1 Hi P. unfold u16_add. destruct (N.ltb_spec (N.of_nat c + N.of_nat i) 65536); [|lia].
    cbn [rbind]. eexists. split; [done|]. intros k x. rewrite scheduled_push, P.
    rewrite <- Nat2N.inj_add, as_u8_N. split.
    + intros [[?|(-> & s & Hs & ->)]|[-> ->]]; [by left|right; split; [done|]; exists s; split; [lia|done]|].
      right. split; [done|]. exists i. split; [lia|done].
    + intros [?|(-> & s & Hs & ->)]; [by left; left|]. destruct (decide (s = i)) as [->|]; [by right|].
      left. right. split; [done|]. exists s. split; [lia|done].
  - exists lk'. split; [done|]. intros k x. rewrite P. split; (intros [?|(-> & s & Hs & ->)]; [by left|]);
      (right; split; [done|]; exists s; split; [lia|done]).
Qed.

(** ** The loop over deletions *)
Definition indexed_hash (m : model) (h : N) : Prop := is_Some (m_index m !! h).

Lemma deletions_spec m c max items : forall near lk,
  (N.of_nat c + N.of_nat max < 65536)%N -> max <= 255 ->
  (forall x, x ∈ items -> item_depth x <= c /\ item_depth x <= max) ->
  exists near' lk', rfoldl (nearest_deletion m (N.of_nat c) max) (near, lk) items = Ok (near', lk') /\
    (forall h, h ∈ near' <-> h ∈ near \/ (indexed_hash m h /\ h ∈ map item_value items)) /\
    (forall k v, scheduled lk' k v <-> scheduled lk k v \/
       exists x s, x ∈ items /\ v = item_value x /\ 1 <= s <= max - item_depth x /\
         k = Nat.modulo (c - item_depth x + s) 256).
Proof.
  induction items as [|x items IH]; intros near lk Hc Hm Hx.
  - exists near, lk. cbn. split; [done|]. split; [|].
    + intros h. rewrite elem_of_nil. tauto.
    + intros k v. split; [auto|]. intros [?|(x & s & Hin & _)]; [done|]. by apply elem_of_nil in Hin.
  - destruct (Hx x) as [Hd Hd']; [left|]. destruct x as [[val ch] d]. unfold item_depth in Hd, Hd'. cbn [snd] in Hd, Hd'.
    cbn [rfoldl]. unfold nearest_deletion at 1.
    assert (as_u16 (N.of_nat d) = N.of_nat d) as -> by (unfold as_u16; apply N.mod_small; lia).
    unfold u16_sub. destruct (N.leb_spec (N.of_nat d) (N.of_nat c)); [|lia]. cbn [rbind].
    destruct (N.leb_spec (N.of_nat d) (N.of_nat max)); [|lia]. cbn [rbind].
    rewrite <- !Nat2N.inj_sub, Nat2N.id.
    destruct (schedule_spec lk val (c - d) (max - d)) as (lk1 & -> & S1); [lia|]. cbn [rbind].
    destruct (IH (match m_index m !! val with Some _ => {[ val ]} ∪ near | None => near end) lk1)
      as (near' & lk' & E & N' & S'); [done|done|intros y Hy; apply Hx; by right|].
    exists near', lk'. split; [exact E|]. split.
    + intros h. rewrite N'. cbn [map]. rewrite elem_of_cons. unfold item_value at 2. cbn [fst].
      unfold indexed_hash at 2. destruct (m_index m !! val) eqn:Ev.
      * rewrite elem_of_union, elem_of_singleton. split.
        -- intros [[->|?]|[? ?]]; [right; split; [by rewrite Ev|by left]|by left|right; split; [done|by right]].
        -- intros [?|[Hi [->|?]]]; [by left; right|by left; left|by right].
      * split; [intros [?|[? ?]]; [by left|right; split; [done|by right]]|].
        intros [?|[Hi [->|?]]]; [by left| |by right]. rewrite Ev in Hi. by destruct Hi.
    + intros k v. rewrite S', S1. split.
      * intros [[?|(-> & s & Hs & ->)]|(x & s & Hin & -> & Hs & ->)].
        -- by left.
        -- right. exists ((val, ch), d), s. unfold item_value, item_depth. cbn. split_and!; try done; [left|lia|lia].
        -- right. exists x, s. split_and!; try done; [by right|lia|lia].
      * intros [?|(x & s & Hin & -> & Hs & ->)]; [by left; left|].
        apply elem_of_cons in Hin as [->|Hin].
        -- left. right. unfold item_value, item_depth. cbn. split; [done|]. exists s. split; [|done].
           unfold item_depth in Hs. cbn in Hs. lia.
        -- right. exists x, s. split_and!; try done; lia.
Qed.

(** ** The loop over the scheduled lookups *)
Lemma foldl_candidates (P : N -> bool) (keys : list N) : forall (near : gset N) h,
  h ∈ foldl (fun near c => if P c then {[ c ]} ∪ near else near) near keys <-> h ∈ near \/ (h ∈ keys /\ P h = true).
Proof.
  induction keys as [|c keys IH]; intros near h; cbn [foldl].
  - rewrite elem_of_nil. tauto.
  - rewrite IH, elem_of_cons. destruct (P c) eqn:E.
    + rewrite elem_of_union, elem_of_singleton. split.
      * intros [[->|?]|[? ?]]; auto.
      * intros [?|[[->|?] ?]]; auto.
    + split; [intros [?|[? ?]]; auto|]. intros [?|[[->|?] ?]]; [auto|congruence|auto].
Qed.

Lemma lookups_spec m l : forall (near : gset N) h,
  h ∈ foldl (nearest_lookup m) near l <-> h ∈ near \/
    exists e keys v, e ∈ l /\ m_sortedindex m !! N.of_nat e.1 = Some keys /\ h ∈ keys /\ v ∈ e.2 /\ ana_contains h v = true.
Proof.
  induction l as [|e l IH]; intros near h; cbn [foldl].
  - split; [auto|]. intros [?|(e & keys & v & Hin & _)]; [done|]. by apply elem_of_nil in Hin.
  - rewrite IH. unfold nearest_lookup at 1. destruct (m_sortedindex m !! N.of_nat e.1) as [keys|] eqn:Ek.
    + rewrite foldl_candidates, existsb_exists. split.
      * intros [[?|(Hk & v & Hv & Hc)]|(e' & keys' & v & Hin & ? & ? & ? & ?)]; [by left| |].
        -- right. apply elem_of_list_In in Hv. exists e, keys, v. split_and!; try done. left.
        -- right. exists e', keys', v. split_and!; try done. by right.
      * intros [?|(e' & keys' & v & Hin & Hs & Hk & Hv & Hc)]; [by left; left|].
        apply elem_of_cons in Hin as [->|Hin].
        -- left. right. assert (keys' = keys) as -> by congruence. split; [done|]. exists v. split; [|done].
           by apply elem_of_list_In.
        -- right. by exists e', keys', v.
    + split; (intros [?|(e' & keys' & v & Hin & Hs & ?)]; [by left|right; exists e', keys', v]).
      * split; [by right|done].
      * apply elem_of_cons in Hin as [->|Hin]; [congruence|done].
Qed.

Lemma lookups_map_spec m o (lk : gmap nat (list N)) near h :
  some_order o ->
  h ∈ foldl (nearest_lookup m) near (o (map_to_list lk)) <-> h ∈ near \/
    exists k keys v, scheduled lk k v /\ m_sortedindex m !! N.of_nat k = Some keys /\ h ∈ keys /\ ana_contains h v = true.
Proof.
  intros Ho. rewrite lookups_spec. split; (intros [?|H]; [by left|right]).
  - destruct H as ([k vs] & keys & v & Hin & Hs & Hk & Hv & Hc). cbn in *. rewrite (Ho _) in Hin.
    apply elem_of_map_to_list in Hin. exists k, keys, v. split_and!; try done. unfold scheduled. by rewrite Hin.
  - destruct H as (k & keys & v & Hv & Hs & Hk & Hc). unfold scheduled in Hv.
    destruct (lk !! k) as [vs|] eqn:E; [|by apply elem_of_nil in Hv].
    exists (k, vs), keys, v. split_and!; try done. rewrite (Ho _). by apply elem_of_map_to_list.
Qed.

(** ** The index in terms of bags *)
Section nearest.
  Context (m m' : model) (HA : alphabet_ok (m_alphabet m)) (R : index_right m m')
    (EA : m_alphabet m' = m_alphabet m) (HS : short_entries m).
  #[local] Set Default Proof Using "All".

  Definition entry_bag (h : N) (ks : list nat) : Prop :=
    exists id v, entry_reading m id v ks /\ h = prod ks.

  Lemma entry_bag_below h ks : entry_bag h ks -> below168 ks.
  Proof. intros (id & v & [_ Hr] & _). by eapply reads_below168. Qed.

  Lemma indexed_bag h nd :
    m_index m' !! h = Some nd -> exists ks, entry_bag h ks /\ nd_charcount nd = N.of_nat (length ks).
  Proof.
    intros Hi. destruct (ir_node _ _ R _ _ Hi) as [Hne _].
    destruct (nd_instances nd) as [|id ids] eqn:Eids; [done|].
    destruct (proj1 (ir_content _ _ R h id)) as (v & Hv & Hh); [exists nd; split; [done|]; rewrite Eids; left|].
    destruct (reads_total _ (vv_text v) HA) as [ks Hr]. exists ks.
    rewrite (anahash_reads _ _ _ HA Hr) in Hh. injection Hh as <-. split; [by exists id, v|].
    rewrite (ir_count _ _ R _ _ id v ks Hi); [|rewrite Eids; left|apply Hv|done].
    unfold as_u16. apply N.mod_small. apply (HS id v ks). done.
  Qed.
  Lemma bag_indexed h ks :
    entry_bag h ks -> exists nd, m_index m' !! h = Some nd /\ nd_charcount nd = N.of_nat (length ks).
  Proof.
    intros (id & v & [Hi Hr] & ->).
    destruct (proj2 (ir_content _ _ R (prod ks) id)) as (nd & Hnd & Hin).
    { exists v. split; [done|]. by apply anahash_reads. }
    exists nd. split; [done|]. rewrite (ir_count _ _ R _ _ id v ks Hnd Hin); [|apply Hi|done].
    unfold as_u16. apply N.mod_small. by apply (HS id v ks).
  Qed.
  Lemma indexed_hash_bag h : indexed_hash m' h <-> exists ks, entry_bag h ks.
  Proof.
    split.
    - intros [nd Hnd]. destruct (indexed_bag _ _ Hnd) as (ks & ? & _). by exists ks.
    - intros [ks Hk]. destruct (bag_indexed _ _ Hk) as (nd & ? & _). by exists nd.
  Qed.
  Lemma sorted_bag c h :
    (exists keys, m_sortedindex m' !! N.of_nat c = Some keys /\ h ∈ keys) <-> exists ks, entry_bag h ks /\ length ks = c.
  Proof.
    pose proof (ir_sorted _ _ R (N.of_nat c)) as S. split.
    - intros (keys & E & Hin). rewrite E in S. destruct S as (_ & _ & S). apply S in Hin as (nd & Hnd & Hc).
      destruct (indexed_bag _ _ Hnd) as (ks & Hb & Hl). exists ks. split; [done|]. lia.
    - intros (ks & Hb & Hl). destruct (bag_indexed _ _ Hb) as (nd & Hnd & Hc).
      destruct (m_sortedindex m' !! N.of_nat c) as [keys|].
      + exists keys. split; [done|]. apply S. exists nd. split; [done|]. lia.
      + exfalso. apply (S h nd Hnd). lia.
  Qed.

  (** *** The whole function *)
  Context (ks : list nat) (max : nat).
  Context (Hks : Forall (fun k => k < 167) ks) (HkA : Forall (fun k => k <= length (m_alphabet m)) ks).
  Context (Hlen : (N.of_nat (length ks) + N.of_nat max < 65536)%N) (Hmax : max <= 255).

  Lemma ks_below : below168 ks.
  Proof. eapply Forall_impl; [exact Hks|]. cbn. lia. Qed.

  Lemma ks_bag_ok : bag_ok (S (S (max_list ks))) ks.
  Proof.
    split.
    - destruct ks as [|k l] eqn:E; [cbn; lia|]. pose proof (max_list_in (k :: l) ltac:(done)) as Hin.
      rewrite Forall_forall in Hks. apply Hks in Hin. lia.
    - rewrite Forall_forall. intros k Hk. pose proof (max_list_ge ks k Hk). lia.
  Qed.

  Lemma full_search :
    exists F near, (forall f o, F <= f -> some_order o ->
      (let* asz := alphabet_size (m_alphabet m') in
      let* bound := alphabet_upper_bound (prod ks) asz in
      let '(focus_upper_bound, focus_charcount) := bound in
      let* focus_alphabet_size := u8_succ focus_upper_bound in
      let* lookups := schedule ∅ (prod ks) focus_charcount max in
      let* asz1 := u8_succ focus_alphabet_size in
      let* items := rd_collect f (iter_recursive (prod ks) asz1 (nearest_params max)) in
      let* st := rfoldl (nearest_deletion m' focus_charcount max)
                   (match m_index m' !! prod ks with None => ∅ | Some _ => {[ prod ks ]} end, lookups) items in
      let '(nearest, lookups) := st in
      Ok (foldl (nearest_lookup m') nearest (o (map_to_list lookups)))) = Ok near) /\
    forall h, h ∈ near <-> exists ks', entry_bag h ks' /\ in_reach ks max ks'.
  Proof.
    destruct (recurse_spec _ ks (nearest_params max) ks_bag_ok eq_refl) as (h0 & F & items & Hh & HF & _ & Hok & Hcomp & _).
    rewrite bag_hash_ok in Hh by apply ks_below. injection Hh as <-.
    assert (HkS : bag_ok (S (length (m_alphabet m))) ks).
    { split; [destruct HA; lia|]. eapply Forall_impl; [exact HkA|]. cbn. lia. }
    assert (Hit : forall x, x ∈ items -> exists sub gone, ks ≡ₚ sub ++ gone /\ length gone = item_depth x /\
      item_value x = prod sub /\ 1 <= item_depth x <= max /\ sub <> [] /\ below168 sub).
    { intros x Hx. destruct (Hok x Hx) as (sub & gone & Hp & Hl & Hb & (W1 & W2 & W3) & _). cbn in W1, W2, W3.
      assert (below168 sub) as Hs by (eapply sub_below168; [exact ks_below|exact Hp]).
      rewrite bag_hash_ok in Hb by done. injection Hb as Hb. exists sub, gone. split_and!; try done.
      by destruct W3. }
    destruct (schedule_spec ∅ (prod ks) (length ks) max Hlen) as (lk0 & E0 & S0).
    destruct (deletions_spec m' (length ks) max items
      (match m_index m' !! prod ks with None => ∅ | Some _ => {[ prod ks ]} end) lk0) as (near1 & lk1 & E1 & N1 & S1).
    { done. } { done. }
    { intros x Hx. destruct (Hit x Hx) as (sub & gone & Hp & Hl & _ & ? & _). apply Permutation_length in Hp.
      rewrite app_length in Hp. lia. }
    (* the result does not depend on the order, so take the identity *)
    exists F, (foldl (nearest_lookup m') near1 (map_to_list lk1)).
    assert (HL : forall k v, scheduled lk1 k v <-> exists sub gone s, ks ≡ₚ sub ++ gone /\ v = prod sub /\
       (gone = [] \/ sub <> []) /\ 1 <= s /\ length gone + s <= max /\ k = Nat.modulo (length sub + s) 256).
    { intros k v. rewrite S1, S0. split.
      - intros [[Hx|(-> & s & Hs & ->)]|(x & s & Hin & -> & Hs & ->)].
        + unfold scheduled in Hx. rewrite lookup_empty in Hx. by apply elem_of_nil in Hx.
        + exists ks, [], s. rewrite app_nil_r. cbn. split_and!; try done; [by left|lia|lia].
        + destruct (Hit x Hin) as (sub & gone & Hp & Hl & Hv & Hd & Hne & _). exists sub, gone, s.
          pose proof (Permutation_length Hp) as Lp. rewrite app_length in Lp.
          split_and!; try done; [by right|lia|lia|]. f_equal. lia.
      - intros (sub & gone & s & Hp & -> & Hor & Hs & Hle & ->). pose proof (Permutation_length Hp) as Lp.
        rewrite app_length in Lp. destruct gone as [|g gone'] eqn:Eg.
        + left. right. rewrite app_nil_r in Hp. split; [symmetry; by apply prod_perm|]. exists s. cbn in Hle, Lp.
          split; [lia|]. f_equal. lia.
        + destruct Hor as [?|Hne]; [done|]. right.
          destruct (Hcomp sub (length (g :: gone'))) as (x & Hin & Hb & Hd).
          { by exists (g :: gone'). } { unfold wanted. cbn [nearest_params sp_min_distance sp_max_distance sp_allow_empty_leaves default length]. unfold default. cbn in Hle. split_and!; [unfold id; lia|lia|by right]. }
          rewrite bag_hash_ok in Hb by (eapply sub_below168; [exact ks_below|exact Hp]). injection Hb as Hb.
          exists x, s. split_and!; try done; [lia|f_equal; lia]. }
    assert (HN : forall o, some_order o -> forall h,
      h ∈ foldl (nearest_lookup m') near1 (o (map_to_list lk1)) <-> exists ks', entry_bag h ks' /\ in_reach ks max ks').
    { intros o Ho h. rewrite lookups_map_spec by done. rewrite N1. split.
      - intros [[Hf|[Hi Hv]]|(k & keys & v & Hs & Hk & Hin & Hc)].
        + (* the query itself *)
          destruct (m_index m' !! prod ks) as [nd|] eqn:E; [|by apply elem_of_empty in Hf].
          apply elem_of_singleton in Hf as ->. destruct (indexed_bag _ _ E) as (ks' & Hb & _). exists ks'. split; [done|].
          assert (ks ≡ₚ ks') as Hp.
          { apply prod_inj; [apply ks_below|by eapply entry_bag_below|]. by destruct Hb as (? & ? & _ & ?). }
          split_and!.
          * destruct (bag_within_of ks [] [] ks ks') as (d & Hd & Hle); [by rewrite app_nil_r|by rewrite app_nil_r|].
            exists d. split; [done|]. cbn in Hle. lia.
          * destruct ks as [|x l]; [by left|]. right. exists x. split; [left|]. rewrite <- Hp. left.
          * right. exists []. rewrite app_nil_r. by rewrite Hp.
        + (* a deletion *)
          apply elem_of_list_fmap in Hv as (x & -> & Hx).
          destruct (Hit x Hx) as (sub & gone & Hp & Hl & Hv & Hd & Hne & Hsb).
          apply indexed_hash_bag in Hi as [ks' Hb]. exists ks'. split; [done|].
          assert (sub ≡ₚ ks') as Hpp.
          { apply prod_inj; [done|by eapply entry_bag_below|]. rewrite <- Hv. by destruct Hb as (? & ? & _ & ?). }
          split_and!.
          * destruct (bag_within_of sub gone [] ks ks') as (d & Hbd & Hle); [done|by rewrite app_nil_r|].
            exists d. split; [done|]. cbn in Hle. lia.
          * right. destruct sub as [|a sub]; [done|]. exists a. rewrite Hp, <- Hpp. split; left.
          * right. exists gone. by rewrite <- Hpp.
        + (* an insertion *)
          apply HL in Hs as (sub & gone & s & Hp & -> & Hor & Hs & Hle & ->).
          assert (exists keys, m_sortedindex m' !! N.of_nat (Nat.modulo (length sub + s) 256) = Some keys /\ h ∈ keys) as HH
            by (by exists keys).
          apply sorted_bag in HH as (ks' & Hb & Hl). exists ks'. split; [done|].
          assert (below168 sub) as Hsb by (eapply sub_below168; [exact ks_below|exact Hp]).
          pose proof (entry_bag_below _ _ Hb) as Hkb.
          assert (h = prod ks') as -> by (by destruct Hb as (? & ? & _ & ?)).
          apply ana_contains_spec in Hc; [|by apply prod_pos|by apply prod_pos].
          apply prod_divide in Hc; [|done|done]. apply submseteq_Permutation in Hc as [y Hy].
          pose proof (Permutation_length Hy) as Ly. rewrite app_length in Ly.
          pose proof (Nat.mod_le (length sub + s) 256 ltac:(lia)) as Hmod.
          pose proof (Nat.mod_upper_bound (length sub + s) 256 ltac:(lia)) as Hmod'.
          split_and!.
          * destruct (bag_within_of sub gone y ks ks') as (d & Hbd & Hle'); [done|done|].
            exists d. split; [done|]. lia.
          * destruct sub as [|a sub].
            -- destruct Hor as [ -> | ?]; [|done]. left. by apply Permutation_nil_r in Hp.
            -- right. exists a. rewrite Hp, Hy. split; left.
          * left. lia.
      - intros (ks' & Hb & (d & Hbd & Hd) & Hsh & Hlong).
        assert (h = prod ks') as -> by (by destruct Hb as (? & ? & _ & ?)).
        destruct Hbd as (c & x & y & E1' & E2' & -> & Hdis).
        assert (indexed_hash m' (prod ks')) as Hih by (apply indexed_hash_bag; by exists ks').
        destruct x as [|x0 x'] eqn:Ex; [|destruct y as [|y0 y'] eqn:Ey].
        + rewrite app_nil_r in E1'. destruct y as [|y0 y'] eqn:Ey.
          * rewrite app_nil_r in E2'. left. left. rewrite <- (prod_perm ks ks') by (by rewrite E1', E2').
            rewrite <- (prod_perm ks ks') in Hih by (by rewrite E1', E2'). destruct Hih as [nd ->]. by apply elem_of_singleton.
          * right. assert (length ks' < 256) as Hl.
            { destruct Hlong as [?|[g Hg]]; [done|]. exfalso. apply Permutation_length in E1', E2', Hg.
              rewrite app_length in *. cbn in *. lia. }
            destruct (proj2 (sorted_bag (length ks') (prod ks'))) as (keys & Hk & Hin); [by exists ks'|].
            exists (length ks'), keys, (prod c).
            assert (below168 c) as Hcb by (rewrite <- E1'; apply ks_below).
            pose proof (entry_bag_below _ _ Hb) as Hkb.
            split_and!; try done.
            -- apply HL. exists c, [], (length (y0 :: y')). rewrite app_nil_r. split_and!; try done; [by left|cbn; lia|].
               rewrite <- (app_length c), <- E2'. symmetry. by apply Nat.mod_small.
            -- apply ana_contains_spec; [by apply prod_pos|by apply prod_pos|]. apply prod_divide; [done|done|].
               rewrite E2'. by apply submseteq_inserts_r.
        + rewrite app_nil_r in E2'. left. right. split; [done|].
          destruct (Hcomp ks' (length (x0 :: x'))) as (z & Hin & Hbz & Hdz).
          { exists (x0 :: x'). split; [done|]. by rewrite E2'. }
          { unfold wanted. cbn [nearest_params sp_min_distance sp_max_distance sp_allow_empty_leaves default length]. unfold default. cbn in Hd. split_and!; [unfold id; lia|lia|right]. intros ->. destruct Hsh as [->|(k & _ & Hk)]; [|by apply elem_of_nil in Hk].
            apply Permutation_length in E1'; rewrite app_length in E1'; cbn in E1'; lia. }
          rewrite bag_hash_ok in Hbz by (by eapply entry_bag_below). injection Hbz as ->.
          apply elem_of_list_fmap. by exists z.
        + right. assert (length ks' < 256) as Hl.
          { destruct Hlong as [?|[g Hg]]; [done|]. exfalso.
            assert (y0 ∈ x0 :: x') as Hy.
            { assert (c ++ x0 :: x' ≡ₚ c ++ (y0 :: y') ++ g) as HH by (rewrite app_assoc, <- E2', <- Hg; done).
              apply Permutation_app_inv_l in HH. rewrite HH. left. }
            apply (Hdis y0 Hy). left. }
          destruct (proj2 (sorted_bag (length ks') (prod ks'))) as (keys & Hk & Hin); [by exists ks'|].
          exists (length ks'), keys, (prod c).
          assert (below168 c) as Hcb by (eapply sub_below168; [exact ks_below|exact E1']).
          pose proof (entry_bag_below _ _ Hb) as Hkb.
          split_and!; try done.
          * apply HL. exists c, (x0 :: x'), (length (y0 :: y')). split_and!; try done; [|cbn; lia|].
            -- right. intros ->. destruct Hsh as [->|(k & Hk1 & Hk2)]; [apply Permutation_length in E1'; rewrite app_length in E1'; cbn in E1'; lia|].
               rewrite E1' in Hk1. rewrite E2' in Hk2. by apply (Hdis k).
            -- rewrite <- (app_length c), <- E2'. symmetry. by apply Nat.mod_small.
          * apply ana_contains_spec; [by apply prod_pos|by apply prod_pos|]. apply prod_divide; [done|done|].
            rewrite E2'. by apply submseteq_inserts_r. }
    split; [|apply (HN id); by intros l].
    intros f o Hf Ho. rewrite EA, (alphabet_size_ok _ HA). cbn [rbind].
    rewrite (upper_bound_spec _ _ HkS) by lia. cbn [rbind].
    assert (max_list ks <= 166) as Hml.
    { destruct ks as [|k l]; [cbn; lia|]. pose proof (max_list_in (k :: l) ltac:(done)) as Hin.
      rewrite Forall_forall in Hks. apply Hks in Hin. lia. }
    unfold u8_succ at 1. destruct (Nat.ltb_spec (max_list ks) 255); [|lia]. cbn [rbind].
    rewrite E0. cbn [rbind]. unfold u8_succ. destruct (Nat.ltb_spec (S (max_list ks)) 255); [|lia]. cbn [rbind].
    rewrite HF by done. cbn [rbind]. rewrite E1. cbn [rbind]. f_equal.
    apply set_eq. intros h. rewrite HN by done. symmetry. apply (HN id). by intros l.
  Qed.

  Lemma nearest_exhaustive :
    exists F near, (forall f o, F <= f -> some_order o -> find_nearest f o m' (prod ks) max Exhaustive = Ok near) /\
      forall h, h ∈ near <-> exists ks', entry_bag h ks' /\ in_reach ks max ks'.
  Proof.
    destruct full_search as (F & near & E & N). exists F, near. split; [|done].
    intros f o Hf Ho. rewrite <- (E f o Hf Ho). unfold find_nearest. by destruct (m_index m' !! prod ks).
  Qed.

  Lemma nearest_stop :
    exists F near, (forall f o, F <= f -> some_order o -> find_nearest f o m' (prod ks) max StopAtExactMatch = Ok near) /\
      ((exists ks', entry_bag (prod ks) ks') -> near = {[ prod ks ]}) /\
      ((~ exists ks', entry_bag (prod ks) ks') -> forall h, h ∈ near <-> exists ks', entry_bag h ks' /\ in_reach ks max ks').
  Proof.
    destruct full_search as (F & near & E & N).
    destruct (m_index m' !! prod ks) as [nd|] eqn:Ei.
    - exists F, {[ prod ks ]}. split; [|split; [done|]].
      + intros f o Hf Ho. unfold find_nearest. rewrite Ei.
        assert (existsb (fun id => match m_decoder m' !! id with Some _ => true | None => false end) (nd_instances nd) = true) as ->; [|done].
        destruct (ir_node _ _ R _ _ Ei) as [Hne _]. apply existsb_exists.
        destruct (nd_instances nd) as [|id ids] eqn:Eids; [done|]. exists id. split; [by left|].
        destruct (proj1 (ir_content _ _ R (prod ks) id)) as (v & Hv & _); [exists nd; split; [done|]; rewrite Eids; left|].
        rewrite (ir_decoder _ _ R). destruct Hv as [-> _]. done.
      + intros Hno. exfalso. apply Hno. apply indexed_hash_bag. by exists nd.
    - exists F, near. split; [|split].
      + intros f o Hf Ho. rewrite <- (E f o Hf Ho). unfold find_nearest. by rewrite Ei.
      + intros Hx. apply indexed_hash_bag in Hx as [nd Hnd]. congruence.
      + done.
  Qed.
End nearest.

(** ** For a built model and a text *)
Lemma build_alphabet o o' m m' : some_order o' -> build o o' m = Ok m' -> m_alphabet m' = m_alphabet m.
Proof.
  intros Ho' H. destruct (build_split _ _ _ _ Ho' H) as (m1 & ng & fs & E & _ & ->).
  destruct (build_index_vocab _ _ _ E) as (_ & _ & EA). exact EA.
Qed.

Lemma entry_bag_text m h ks : alphabet_ok (m_alphabet m) ->
  entry_bag m h ks <-> exists id v, entry_reading m id v ks /\ anahash (m_alphabet m) (vv_text v) = Ok h.
Proof.
  intros HA. split; intros (id & v & Hr & Hh); exists id, v; (split; [done|]).
  - subst h. apply anahash_reads; [done|apply Hr].
  - destruct Hr as [_ Hr]. rewrite (anahash_reads _ _ _ HA Hr) in Hh. congruence.
Qed.

Lemma within_shares ks ks' max : bag_within ks ks' max -> max < length ks -> shares ks ks'.
Proof.
  intros (d & (c & x & y & E1 & E2 & -> & _) & Hd) Hl. destruct c as [|k c].
  - apply Permutation_length in E1. cbn in E1. lia.
  - exists k. rewrite E1, E2. split; left.
Qed.

Section built.
  Context (o : list (N * node) -> list (N * node)) (o' : list (str * vocab_id) -> list (str * vocab_id)).
  Context (m m' : model) (HA : alphabet_ok (m_alphabet m)) (Ho : some_order o) (Ho' : some_order o').
  Context (B : build o o' m = Ok m') (HS : short_entries m).
  Context (q : str) (ks : list nat) (max : nat) (Hr : reads (m_alphabet m) q ks).
  Context (Hks : Forall (fun k => k < 167) ks).
  Context (Hlen : (N.of_nat (length ks) + N.of_nat max < 65536)%N) (Hmax : max <= 255).
  #[local] Set Default Proof Using "All".

  Lemma retrieval_exact :
    exists focus F near, anahash (m_alphabet m') q = Ok focus /\
      (forall f order, F <= f -> some_order order -> find_nearest f order m' focus max Exhaustive = Ok near) /\
      forall h, h ∈ near <->
        exists id v ks', entry_reading m id v ks' /\ anahash (m_alphabet m) (vv_text v) = Ok h /\ in_reach ks max ks'.
  Proof.
    pose proof (build_right _ _ _ _ HA Ho Ho' B) as R. pose proof (build_alphabet _ _ _ _ Ho' B) as EA.
    destruct (nearest_exhaustive m m' HA R EA HS ks max Hks (reads_bound _ _ _ Hr) Hlen Hmax) as (F & near & E & N).
    exists (prod ks), F, near. split; [rewrite EA; by apply anahash_reads|]. split; [done|].
    intros h. rewrite N. split.
    - intros (ks' & Hb & Hi). apply (entry_bag_text m h ks' HA) in Hb as (id & v & ? & ?). eauto 10.
    - intros (id & v & ks' & ? & ? & ?). exists ks'. split; [|done]. apply (entry_bag_text m h ks' HA). eauto.
  Qed.

  Lemma retrieval_stop :
    exists focus F near, anahash (m_alphabet m') q = Ok focus /\
      (forall f order, F <= f -> some_order order -> find_nearest f order m' focus max StopAtExactMatch = Ok near) /\
      ((exists id v, indexed m id v /\ anahash (m_alphabet m) (vv_text v) = Ok focus) -> near = {[ focus ]}) /\
      ((~ exists id v, indexed m id v /\ anahash (m_alphabet m) (vv_text v) = Ok focus) ->
       forall f order, F <= f -> some_order order -> find_nearest f order m' focus max Exhaustive = Ok near).
  Proof.
    pose proof (build_right _ _ _ _ HA Ho Ho' B) as R. pose proof (build_alphabet _ _ _ _ Ho' B) as EA.
    destruct (nearest_exhaustive m m' HA R EA HS ks max Hks (reads_bound _ _ _ Hr) Hlen Hmax) as (F & near & E & N).
    destruct (nearest_stop m m' HA R EA HS ks max Hks (reads_bound _ _ _ Hr) Hlen Hmax) as (F' & near' & E' & N1 & N2).
    assert ((exists id v, indexed m id v /\ anahash (m_alphabet m) (vv_text v) = Ok (prod ks)) <->
      exists ks', entry_bag m (prod ks) ks') as Heq.
    { split.
      - intros (id & v & Hi & Hh). destruct (reads_total _ (vv_text v) HA) as [ks' Hr']. exists ks'.
        apply (entry_bag_text _ _ _ HA). exists id, v. done.
      - intros (ks' & Hb). apply (entry_bag_text _ _ _ HA) in Hb as (id & v & [? _] & ?). eauto. }
    exists (prod ks), (F `max` F'), near'. split; [rewrite EA; by apply anahash_reads|].
    split; [intros f order Hf; apply E'; lia|]. split; [rewrite Heq; exact N1|].
    intros Hno f order Hf Hord. rewrite (E f order) by (done || lia). f_equal. apply set_eq. intros h.
    rewrite N. symmetry. apply N2. by rewrite <- Heq.
  Qed.
End built.

Lemma retrieval_within o o' m m' q ks max :
  alphabet_ok (m_alphabet m) -> some_order o -> some_order o' -> build o o' m = Ok m' ->
  (forall id v ks', entry_reading m id v ks' -> length ks' < 256) ->
  reads (m_alphabet m) q ks -> Forall (fun k => k < 167) ks -> length ks < 256 -> max < length ks ->
  exists focus F near, anahash (m_alphabet m') q = Ok focus /\
    (forall f order, F <= f -> some_order order -> find_nearest f order m' focus max Exhaustive = Ok near) /\
    forall h, h ∈ near <->
      exists id v ks', entry_reading m id v ks' /\ anahash (m_alphabet m) (vv_text v) = Ok h /\ bag_within ks ks' max.
Proof.
  intros HA Ho Ho' B HS Hr Hks Hl Hm.
  destruct (retrieval_exact o o' m m' HA Ho Ho' B) with q ks max as (focus & F & near & E1 & E2 & N); try done; try lia.
  { intros id v ks' H. apply HS in H. lia. }
  exists focus, F, near. split; [done|]. split; [done|]. intros h. rewrite N. split.
  - intros (id & v & ks' & ? & ? & [? _]). eauto 10.
  - intros (id & v & ks' & H1 & H2 & H3). exists id, v, ks'. split; [done|]. split; [done|]. split; [done|].
    split; [right; by eapply within_shares|left; by eapply HS].
Qed.
