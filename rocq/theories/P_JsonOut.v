(** What the JSON output says. *)
From Verif Require Import M_Base P_Base M_Anahash M_Float M_Types M_Model M_Search M_Text M_Cli S_Cli P_Parse P_Vocab P_Cli P_Json.
Import String.StringSyntax Ascii.AsciiSyntax.
From stdpp Require Import options.

#[local] Arguments pthen : simpl never.
#[local] Arguments put : simpl never.

Ltac lits := repeat match goal with |- context [lit ?s] => let x := eval vm_compute in (lit s) in change (lit s) with x end;
  repeat match goal with |- context [name ?s] => let x := eval vm_compute in (name s) in change (name s) with x end;
  unfold newline, quote, tab in *.
Ltac flat := lits; repeat (rewrite <- app_assoc || rewrite <- app_comm_cons || rewrite app_nil_l || rewrite app_nil_r); try reflexivity.

Lemma ws_32 : ws_char 32. Proof. by left. Qed.
Lemma ws_10 : ws_char 10. Proof. do 2 right. by left. Qed.
Ltac wh := repeat first [apply Forall_nil_2 | apply Forall_cons_2; [first [apply ws_32|apply ws_10]|] | apply Forall_app_2]; try done.

Lemma escape_chars s : clean s -> chars (escape s) s.
Proof.
  unfold escape. induction 1 as [|c s [H1 H2] H IH]; cbn; [constructor|]. destruct (N.eqb_spec c quote) as [->|Hn]; cbn.
  - apply chars_escape; [by left|done].
  - by apply chars_plain.
Qed.
Lemma escape_string s : clean s -> string (34%N :: escape s ++ [34%N]) s.
Proof. intros. constructor. by apply escape_chars. Qed.
Lemma clean_chars s : clean s -> 34%N ∉ s -> chars s s.
Proof. induction 1 as [|c s [H1 H2] H IH]; intros Hq; [constructor|]. apply chars_plain; [done|set_solver|done|apply IH; set_solver]. Qed.

Lemma join_cons2 sep x y l : join sep (x :: y :: l) = x ++ sep ++ join sep (y :: l).
Proof. done. Qed.
Lemma join_concat sep x l : join sep (x :: l) = x ++ concat (map (app sep) l).
Proof.
  revert x. induction l as [|y l IH]; intros x; [cbn; by rewrite app_nil_r|]. rewrite join_cons2, IH. cbn [map concat]. by rewrite <- app_assoc.
Qed.

(** a key with its value *)
Definition item (s : str) (kj : str * json) : Prop := exists k v, s = k ++ 58%N :: 32%N :: v /\ string k kj.1 /\ value v kj.2.
Lemma members_join w1 items kjs w4 :
  white w1 -> white w4 -> items <> [] -> Forall2 item items kjs -> members (w1 ++ join [44; 32]%N items ++ w4) kjs.
Proof.
  intros H1 H4 Hne H. revert w1 H1 Hne. induction H as [|x [t j] l kjs (k & v & -> & Hk & Hv) Hl IH]; intros w1 H1 Hne; [done|]. cbn [fst snd] in Hk, Hv.
  destruct Hl as [|y j' l kjs Hy Hl].
  - cbn [join]. replace (w1 ++ (k ++ 58%N :: 32%N :: v) ++ w4) with (w1 ++ k ++ [] ++ 58%N :: [32%N] ++ v ++ w4) by flat.
    apply members_one; wh.
  - specialize (IH [32%N] ltac:(wh) ltac:(done)). rewrite join_cons2.
    replace (w1 ++ ((k ++ 58%N :: 32%N :: v) ++ [44; 32]%N ++ join [44; 32]%N (y :: l)) ++ w4)
      with (w1 ++ k ++ [] ++ 58%N :: [32%N] ++ v ++ [] ++ 44%N :: [32%N] ++ join [44; 32]%N (y :: l) ++ w4) by flat.
    apply members_more; wh.
Qed.
Lemma object_join items kjs : items <> [] -> Forall2 item items kjs ->
  value (123%N :: (32%N :: join [44; 32]%N items ++ [32%N]) ++ [125%N]) (JObj kjs).
Proof. intros. apply value_object. apply (members_join [32%N]); wh. Qed.

(** elements with white space around them *)
Definition elem (s : str) (j : json) : Prop := exists a v b, s = a ++ v ++ b /\ white a /\ value v j /\ white b.
Lemma elements_join w1 w items js w4 : white w1 -> white w -> white w4 -> items <> [] -> Forall2 elem items js ->
  elements (w1 ++ join (44%N :: w) items ++ w4) js.
Proof.
  intros H1 Hw H4 Hne H. revert w1 H1 Hne. induction H as [|x j l js (a & v & b & -> & Ha & Hv & Hb) Hl IH]; intros w1 H1 Hne; [done|].
  destruct Hl as [|y j' l js Hy Hl].
  - cbn [join]. replace (w1 ++ (a ++ v ++ b) ++ w4) with ((w1 ++ a) ++ v ++ b ++ w4) by flat. apply elements_one; wh.
  - specialize (IH w ltac:(wh) ltac:(done)). rewrite join_cons2.
    replace (w1 ++ ((a ++ v ++ b) ++ (44%N :: w) ++ join (44%N :: w) (y :: l)) ++ w4)
      with ((w1 ++ a) ++ v ++ b ++ 44%N :: w ++ join (44%N :: w) (y :: l) ++ w4) by flat.
    apply elements_more; wh.
Qed.
Lemma array_join w1 w items js w4 : white w1 -> white w -> white w4 -> Forall2 elem items js ->
  value (91%N :: (w1 ++ join (44%N :: w) items ++ w4) ++ [93%N]) (JArr js).
Proof.
  intros H1 Hw H4 H. destruct items as [|x l].
  - apply Forall2_nil_inv_l in H as ->. apply value_array_empty; wh.
  - apply value_array. by apply elements_join.
Qed.
Lemma elem_value v j : value v j -> elem v j.
Proof. intros. exists [], v, []. rewrite app_nil_r. split; [done|]. split; [wh|]. split; [done|wh]. Qed.

Lemma show_decimal n : decimal n (show n).
Proof.
  destruct (show_spec n) as (c & s & E & Hc & Hs & Hz & H0 & Hp). split.
  - rewrite E. destruct (N.eq_dec n 0) as [->|Hn]; [destruct (H0 eq_refl) as [-> ->]; constructor|]. constructor; [|done].
    unfold digit in Hc. assert (c <> 48%N) by (apply Hz; lia). lia.
  - assert (G : forall s a x, parse_digits s a = Some x -> foldl (fun a c => (a * 10 + (c - 48))%N) a s = x).
    { clear. intros s. induction s as [|c s IH]; intros a x; cbn; [congruence|]. repeat case_match; try done. apply IH. }
    by apply G.
Qed.

Section json.
  Context (fmt : f64 -> str) (m : model) (lexmatch : bool) (fw : f32).
  Context (Hfmt : forall x, finite x -> number (fmt x)) (Hlex : Forall clean (m_lexicons m)).
  Context (Hn : length (m_lexicons m) <= 256).
  #[local] Set Default Proof Using "All".

  Definition quoted (k : str) : str := 34%N :: k ++ [34%N].
  Lemma item_string k s : string (quoted k) k -> clean s -> item (quoted k ++ 58%N :: 32%N :: quoted (escape s)) (k, JStr s).
  Proof. intros. exists (quoted k), (quoted (escape s)). split; [done|]. split; [done|]. by apply value_string, escape_string. Qed.
  Lemma item_number k s : string (quoted k) k -> number s -> item (quoted k ++ 58%N :: 32%N :: s) (k, JNum s).
  Proof. intros. exists (quoted k), s. split; [done|]. split; [done|]. by apply value_number. Qed.
  Lemma item_value k s j : string (quoted k) k -> value s j -> item (quoted k ++ 58%N :: 32%N :: s) (k, j).
  Proof. intros. by exists (quoted k), s. Qed.
  Lemma key_ok k : forallb (fun c => (32 <=? c)%N && negb (c =? 34)%N && negb (c =? 92)%N) k = true -> string (quoted k) k.
  Proof.
    intros H. constructor. rewrite forallb_forall in H.
    assert (F : Forall (fun c => (32 <= c)%N /\ c <> 34%N /\ c <> 92%N) k).
    { apply Forall_forall. intros c Hc. apply elem_of_list_In, H in Hc. apply andb_true_iff in Hc as [Hc H3]. apply andb_true_iff in Hc as [H1 H2].
      apply N.leb_le in H1. apply negb_true_iff, N.eqb_neq in H2, H3. done. }
    clear H. induction F as [|c s (H1 & H2 & H3) F IH]; [constructor|]. by apply chars_plain.
  Qed.
  Ltac key := apply key_ok; reflexivity.

  Lemma json_result_value r :
    p_stop (json_result fmt m lexmatch fw r) = None -> showable (vr_score fw) m r ->
    exists v j, p_out (json_result fmt m lexmatch fw r) = lit "        " ++ v /\ value v j /\ result_says fmt (vr_score fw) lexmatch m r j.
  Proof.
    unfold json_result. intros H Hs. apply pres_ok in H as (v & Hv & H & ->). apply rexpect_ok in Hv. unfold get_vocab in Hv.
    apply pthen_ok in H as [_ H]. rewrite pthen_out by done. apply pthen_ok in H as [_ H]. rewrite pthen_out by done.
    apply pthen_ok in H as [_ H]. rewrite pthen_out by done. apply pthen_ok in H as [H1 H]. rewrite pthen_out by done.
    apply pthen_ok in H as [H2 _]. rewrite pthen_out by done. rewrite !put_out.
    set (i1 := quoted (name "text") ++ 58%N :: 32%N :: quoted (escape (vv_text v))).
    set (i2 := quoted (name "score") ++ 58%N :: 32%N :: fmt (vr_score fw r)).
    set (i3 := quoted (name "dist_score") ++ 58%N :: 32%N :: fmt (vr_dist r)).
    set (i4 := quoted (name "freq_score") ++ 58%N :: 32%N :: fmt (vr_freq r)).
    assert (E1 : exists l1, p_out (match vr_via r with
       | Some via => pres (rexpect (get_vocab m via)) (fun w => put (lit ", ""via"": """ ++ escape (vv_text w) ++ [quote]))
       | None => put [] end) = concat (map (app [44; 32]%N) l1) /\
       Forall2 item l1 (match vr_via r ≫= (fun i => m_decoder m !! i) with Some w => [(name "via", JStr (vv_text w))] | None => [] end)).
    { destruct (vr_via r) as [via|] eqn:Ev; [|exists []; split; [done|constructor]]. apply pres_ok in H1 as (w & Hw & _ & ->). apply rexpect_ok in Hw. unfold get_vocab in Hw.
      exists [quoted (name "via") ++ 58%N :: 32%N :: quoted (escape (vv_text w))]. split; [rewrite put_out; cbn [map concat]; unfold quoted; flat|].
      cbn [mbind option_bind]. rewrite Hw. constructor; [|constructor]. apply item_string; [key|]. by eapply sh_via. }
    assert (E2 : exists l2, p_out (if lexmatch
       then pres (lexicons_of m v) (fun ls =>
              put (lit ", ""lexicons"": [ " ++ join (lit ", ") (map (fun l => [quote] ++ escape l ++ [quote]) ls) ++ lit " ]"))
       else put []) = concat (map (app [44; 32]%N) l2) /\
       Forall2 item l2 (if lexmatch then [(name "lexicons", JArr (map JStr (lexicon_names (m_lexicons m) v)))] else [])).
    { destruct lexmatch; [|exists []; split; [done|constructor]]. apply pres_ok in H2 as (ls & Hls & _ & ->). apply lexicons_of_names in Hls; [|done].
      set (js := map (fun l => 34%N :: escape l ++ [34%N]) ls).
      exists [quoted (name "lexicons") ++ 58%N :: 32%N :: (91%N :: ([32%N] ++ join [44; 32]%N js ++ [32%N]) ++ [93%N])].
      split; [rewrite put_out; cbn [map concat]; change (map (fun l => [quote] ++ escape l ++ [quote]) ls) with js; unfold quoted; flat|].
      constructor; [|constructor]. apply item_value; [key|]. apply array_join; [wh|wh|wh|]. subst js. subst ls.
      assert (F : Forall clean (lexicon_names (m_lexicons m) v)).
      { apply Forall_forall. intros l Hl. apply lexicon_names_sub in Hl. rewrite Forall_forall in Hlex. by apply Hlex. }
      induction F as [|l ls Hl F IH]; cbn [map]; constructor; [|done]. by apply elem_value, value_string, escape_string. }
    destruct E1 as (l1 & E1 & F1), E2 as (l2 & E2 & F2). rewrite E1, E2.
    eexists (123%N :: (32%N :: join [44; 32]%N (i1 :: i2 :: i3 :: i4 :: l1 ++ l2) ++ [32%N]) ++ [125%N]), _. split; [|split].
    - rewrite join_concat. cbn [map concat]. rewrite map_app, concat_app. unfold i1, i2, i3, i4, quoted. flat.
    - destruct Hs as [Hs1 Hs2 Hs3 Hs4 _]. apply object_join; [done|].
      change (i1 :: i2 :: i3 :: i4 :: l1 ++ l2) with ([i1; i2; i3; i4] ++ l1 ++ l2). apply Forall2_app; [|by apply Forall2_app].
      constructor; [apply item_string; [key|by apply Hs4]|].
      constructor; [apply item_number; [key|by apply Hfmt]|].
      constructor; [apply item_number; [key|by apply Hfmt]|].
      constructor; [apply item_number; [key|by apply Hfmt]|constructor].
    - by exists v.
  Qed.

  Lemma json_results_elems w rs :
    p_stop (json_results fmt m lexmatch fw w rs) = None -> Forall (showable (vr_score fw) m) rs ->
    exists es js, Forall2 elem es js /\ Forall2 (result_says fmt (vr_score fw) lexmatch m) rs js /\
      p_out (json_results fmt m lexmatch fw w rs) =
      (if w then concat (map (app [44; 10]%N) es) else join [44; 10]%N es).
  Proof.
    revert w. induction rs as [|r rs IH]; intros w H Hs; cbn [json_results] in *; [exists [], []; split; [constructor|]; split; [constructor|by destruct w]|].
    apply Forall_cons in Hs as [Hr Hs]. apply pthen_ok in H as [_ H]. rewrite pthen_out by done. apply pthen_ok in H as [H1 H2].
    rewrite pthen_out by done. destruct (json_result_value r H1 Hr) as (v & j & -> & Hv & Hj). destruct (IH true H2 Hs) as (es & js & He & Hl & ->).
    exists ((lit "        " ++ v) :: es), (j :: js). split; [|split; [by constructor|]].
    - constructor; [|done]. exists (lit "        "), v, []. split; [by rewrite app_nil_r|]. split; [lits; wh|]. split; [done|wh].
    - rewrite put_out. destruct w; cbn [map concat]; [flat|]. by rewrite join_concat.
  Qed.

  Lemma json_tags_elems (l : list (N * nat)) first :
    p_stop (json_tags m first l) = None -> Forall (fun t => clean t /\ 34%N ∉ t) (m_tags m) ->
    exists es ts, Forall2 elem es (map JStr ts) /\ Forall2 (fun x t => m_tags m !! N.to_nat x.1 = Some t) l ts /\
      p_out (json_tags m first l) = (if first then join [44%N] es else concat (map (app [44%N]) es)).
  Proof.
    intros H Ht. revert first H. induction l as [|[t s] l IH]; intros first H; cbn [json_tags] in *; [exists [], []; split; [constructor|]; split; [constructor|by destruct first]|].
    apply pthen_ok in H as [_ H]. rewrite pthen_out by done. apply pthen_ok in H as [H1 H2]. rewrite pthen_out by done.
    apply pres_ok in H1 as (nm & Hname & _ & ->). apply rexpect_ok in Hname. destruct (IH false H2) as (es & ts & He & Hts & ->).
    rewrite Forall_forall in Ht. destruct (Ht nm ltac:(by eapply elem_of_list_lookup_2)) as [Hc Hq].
    exists ((34%N :: nm ++ [34%N]) :: es), (nm :: ts). split; [|split; [by constructor|]].
    - constructor; [|done]. apply elem_value, value_string. constructor. by apply clean_chars.
    - rewrite !put_out. destruct first; [|cbn [map concat]; flat]. by rewrite join_concat.
  Qed.
  Lemma json_seqnrs_elems (l : list (N * nat)) first :
    exists es ss, Forall2 elem es (map JNum ss) /\ Forall2 (fun x s => decimal (N.of_nat x.2) s) l ss /\
      json_seqnrs first l = put (if first then join [44%N] es else concat (map (app [44%N]) es)).
  Proof.
    revert first. induction l as [|[t s] l IH]; intros first; cbn [json_seqnrs]; [exists [], []; split; [constructor|]; split; [constructor|by destruct first]|].
    destruct (IH false) as (es & ss & He & Hss & ->). exists (show (N.of_nat s) :: es), (show (N.of_nat s) :: ss). split; [|split].
    - constructor; [|done]. apply elem_value, value_number, show_number.
    - constructor; [apply show_decimal|done].
    - unfold pthen, put. cbn [p_stop p_out]. f_equal. destruct first; [|cbn [map concat]; flat]. by rewrite join_concat.
  Qed.

  (** the object printed for a match *)
  Lemma json_match_value input variants sel offset seqnr tag tagseq :
    p_stop (json_match fmt m lexmatch fw input variants sel offset seqnr tag tagseq) = None ->
    clean input -> Forall (showable (vr_score fw) m) (default [] variants) -> Forall (fun t => clean t /\ 34%N ∉ t) (m_tags m) ->
    exists v j, value v j /\ match_says fmt (vr_score fw) lexmatch m input variants sel offset tag tagseq j /\
      p_out (json_match fmt m lexmatch fw input variants sel offset seqnr tag tagseq) =
      (if 1 <? seqnr then lit "    ," else lit "    ") ++ v ++ newline.
  Proof.
    unfold json_match. intros H Hi Hs Ht.
    apply pthen_ok in H as [_ H]. rewrite pthen_out by done. apply pthen_ok in H as [_ H]. rewrite pthen_out by done.
    apply pthen_ok in H as [_ H]. rewrite pthen_out by done. apply pthen_ok in H as [H1 H2]. rewrite pthen_out by done. rewrite !put_out.
    set (i1 := quoted (name "input") ++ 58%N :: 32%N :: quoted (escape input)).
    assert (E0 : exists l0 os, match offset with
         | Some (b, e) => lit ", ""begin"": " ++ show (N.of_nat b) ++ lit ", ""end"": " ++ show (N.of_nat e)
         | None => [] end = concat (map (app [44; 32]%N) l0) /\ Forall2 item l0 os /\ offset_says offset os).
    { destruct offset as [[b e]|]; [|exists [], []; split; [done|]; split; constructor].
      eexists [quoted (name "begin") ++ 58%N :: 32%N :: show (N.of_nat b); quoted (name "end") ++ 58%N :: 32%N :: show (N.of_nat e)], _.
      split; [cbn [map concat]; unfold quoted; flat|]. split.
      - constructor; [apply item_number; [key|apply show_number]|]. constructor; [apply item_number; [key|apply show_number]|constructor].
      - constructor; apply show_decimal. }
    destruct E0 as (l0 & os & E0 & F0 & Hos). rewrite E0. clear E0.
    match type of H1 with p_stop ?t = None => assert (E1 : exists l1 ts, p_out t = concat (map (app [44; 32]%N) l1) /\
      Forall2 item l1 ts /\ tags_say (m_tags m) tag tagseq ts) end.
    { destruct tag as [|t0 tag]; [exists [], []; split; [done|]; split; constructor|]. remember (zip (t0 :: tag) tagseq) as zs eqn:Ez.
      apply pthen_ok in H1 as [_ H1]. rewrite pthen_out by done. apply pthen_ok in H1 as [H1 _]. rewrite pthen_out by done.
      destruct (json_tags_elems zs true H1 Ht) as (es & ts & He & Hts & ->). destruct (json_seqnrs_elems zs true) as (ses & ss & Hss & Hse & ->).
      eexists [quoted (name "tag") ++ 58%N :: 32%N :: (91%N :: ([] ++ join [44%N] es ++ []) ++ [93%N]);
              quoted (name "seqnr") ++ 58%N :: 32%N :: (91%N :: ([32%N] ++ join [44%N] ses ++ []) ++ [93%N])], _.
      split; [unfold pthen, put, quoted; cbn [p_stop p_out map concat]; flat|]. split.
      - constructor; [apply item_value; [key|apply array_join; wh]|]. constructor; [apply item_value; [key|apply array_join; wh]|constructor].
      - constructor; [done|by rewrite <- Ez..]. }
    destruct E1 as (l1 & ts & E1 & F1 & Hts). rewrite E1. clear E1.
    assert (Hi1 : item i1 (name "input", JStr input)) by (apply item_string; [key|done]).
    destruct variants as [vs|]; cbn [default] in Hs.
    - apply pthen_ok in H2 as [_ H2]. rewrite pthen_out by done. apply pthen_ok in H2 as [H2 _]. rewrite pthen_out by done.
      pose proof (listed_selected_first sel vs) as G.
      assert (Hs' : Forall (showable (vr_score fw) m) (listed sel vs)).
      { destruct G as [pre x post| |]; try done.
        apply Forall_app in Hs as [Ha Hb]. apply Forall_cons in Hb as [Hx Hb]. constructor; [done|]. by apply Forall_app. }
      destruct (json_results_elems false _ H2 Hs') as (es & js & He & Hj & ->).
      set (i3 := quoted (name "variants") ++ 58%N :: 32%N :: (91%N :: ([32; 10]%N ++ join [44; 10]%N es ++ (10%N :: lit "    ")) ++ [93%N])).
      eexists (123%N :: (32%N :: join [44; 32]%N (i1 :: l0 ++ l1 ++ [i3]) ++ [32%N]) ++ [125%N]), _. split; [|split].
      + apply object_join; [done|]. constructor; [exact Hi1|]. apply Forall2_app; [exact F0|]. apply Forall2_app; [exact F1|]. constructor; [|constructor].
        apply item_value; [key|]. apply array_join; [wh|wh|lits; wh|done].
      + exists os, ts. eexists. split; [done|]. split; [done|]. split; [by econstructor|done].
      + rewrite join_concat, !map_app, !concat_app. unfold pthen, put, i1, i3, quoted. cbn [p_stop p_out map concat]. destruct (1 <? seqnr); flat.
    - eexists (123%N :: (32%N :: join [44; 32]%N (i1 :: l0 ++ l1) ++ [32%N]) ++ [125%N]), _. split; [|split].
      + apply object_join; [done|]. constructor; [exact Hi1|]. by apply Forall2_app.
      + exists os, ts, []. split; [done|]. split; [done|]. split; [constructor|by rewrite app_nil_r].
      + rewrite join_concat, !map_app, !concat_app. unfold pthen, put, i1, quoted. cbn [p_stop p_out map concat]. destruct (1 <? seqnr); flat.
  Qed.
End json.

(** * Sequences of objects *)
(** what follows the first object *)
Inductive tail : str -> list json -> Prop :=
| tail_white w : white w -> tail w []
| tail_more w v j t l : white w -> value v j -> tail t l -> tail (w ++ 44%N :: v ++ t) (j :: l).
Lemma tail_white_app w t l : white w -> tail t l -> tail (w ++ t) l.
Proof. intros Hw [w' H'|w' v j t' l' H1 H2 H3]; [apply tail_white; wh|]. rewrite app_assoc. apply tail_more; wh. Qed.
Lemma tail_elements w1 v j w2 t l : white w1 -> value v j -> white w2 -> tail t l -> elements (w1 ++ v ++ w2 ++ t) (j :: l).
Proof.
  intros H1 Hv H2 Ht. revert w1 v j w2 H1 Hv H2. induction Ht as [w Hw|w u i t l Hw Hu Ht IH]; intros w1 v j w2 H1 Hv H2.
  - apply elements_one; wh.
  - replace (w1 ++ v ++ w2 ++ w ++ 44%N :: u ++ t) with (w1 ++ v ++ (w2 ++ w) ++ 44%N :: ([] ++ u ++ [] ++ t)) by flat.
    apply elements_more; [done|done|wh|]. apply IH; wh.
Qed.

(** the output after [n] objects *)
Definition objects (n : nat) (s : str) (js : list json) : Prop :=
  match n with
  | O => (white s /\ js = []) \/ exists w v j t l, s = w ++ v ++ t /\ white w /\ value v j /\ tail t l /\ js = j :: l
  | S _ => tail s js
  end.
Lemma objects_json s js : objects 0 s js -> says (lit "[" ++ newline ++ s ++ lit "]" ++ newline) (JArr js).
Proof.
  intros H. exists [], (91%N :: (10%N :: s) ++ [93%N]), [10%N]. split; [flat|]. split; [wh|]. split; [|wh].
  destruct H as [[H ->]|(w & v & j & t & l & -> & Hw & Hv & Ht & ->)].
  - apply value_array_empty. wh.
  - apply value_array. apply (tail_elements (10%N :: w) v j [] t); wh.
Qed.
Lemma objects_one n v j t l : value v j -> objects (S n) t l ->
  objects n ((if 1 <? S n then lit "    ," else lit "    ") ++ v ++ newline ++ t) (j :: l).
Proof.
  intros Hv Ht. cbn [objects] in Ht. assert (T : tail (newline ++ t) l) by (apply tail_white_app; [lits; wh|done]). destruct n as [|n].
  - cbn [Nat.ltb Nat.leb objects]. right. exists (lit "    "), v, j, (newline ++ t), l. split; [done|]. split; [lits; wh|done].
  - change (1 <? S (S n)) with true. cbn [objects].
    replace (lit "    ," ++ v ++ newline ++ t) with (lit "    " ++ 44%N :: v ++ newline ++ t) by flat. apply tail_more; [lits; wh|done|done].
Qed.
Lemma objects_white n w t l : white w -> objects n t l -> objects n (w ++ t) l.
Proof.
  intros Hw H. destruct n; cbn [objects] in *; [|by apply tail_white_app].
  destruct H as [[H ->]|(w' & v & j & t' & l' & -> & H1 & H2 & H3 & ->)]; [left; split; [wh|done]|].
  right. exists (w ++ w'), v, j, t', l'. split; [by rewrite <- app_assoc|]. split; [wh|done].
Qed.
Lemma objects_nil n : objects n [] [].
Proof. destruct n; [left; split; [wh|done]|apply tail_white; wh]. Qed.

Section whole.
  Context (fmt : f64 -> str) (m : model) (lexmatch : bool) (fw : f32).
  Context (Hfmt : forall x, finite x -> number (fmt x)) (Hlex : Forall clean (m_lexicons m)).
  Context (Hn : length (m_lexicons m) <= 256) (Htags : Forall (fun t => clean t /\ 34%N ∉ t) (m_tags m)).
  #[local] Set Default Proof Using "All".
  #[local] Notation says_match := (match_says fmt (vr_score fw) lexmatch m).

  (** ** Query mode *)
  Context (lookup : str -> res (list variant_result)).
  Lemma process_objects n (lines : list (option str)) :
    p_stop (process_from fmt m lexmatch fw lookup true n lines) = None ->
    (forall l vs, Some l ∈ lines -> lookup l = Ok vs -> clean l /\ Forall (showable (vr_score fw) m) vs) ->
    exists js, objects n (p_out (process_from fmt m lexmatch fw lookup true n lines)) js /\
      Forall2 (fun l j => exists vs, lookup l = Ok vs /\ says_match l (Some vs) (Some 0) None [] [] j) (omap id lines) js.
  Proof.
    revert n. induction lines as [|[l|] lines IH]; intros n H Hs; cbn [process_from] in *.
    - exists []. split; [apply objects_nil|constructor].
    - apply pthen_ok in H as [H1 H2]. rewrite pthen_out by done.
      destruct (IH (S n) H2) as (js & Ho & Hj). { intros l' vs Hl. apply Hs. by right. }
      apply pres_ok in H1 as (vs & Hvs & H1 & ->). destruct (Hs l vs) as [Hc Hsh]; [by left|done|].
      unfold query_line in *. destruct (json_match_value fmt m lexmatch fw Hfmt Hlex Hn _ _ _ _ _ _ _ H1) as (v & j & Hv & Hm & ->); try done.
      exists (j :: js). split; [rewrite <- !app_assoc; by apply objects_one|]. cbn. constructor; [by exists vs|done].
    - apply (IH n H). intros l' vs Hl. apply Hs. by right.
  Qed.

  Lemma whole_query lines :
    p_stop (process fmt m lexmatch fw lookup true lines) = None ->
    (forall l vs, Some l ∈ lines -> lookup l = Ok vs -> clean l /\ Forall (showable (vr_score fw) m) vs) ->
    exists js, says (p_out (whole_output true [process fmt m lexmatch fw lookup true lines])) (JArr js) /\
      Forall2 (fun l j => exists vs, lookup l = Ok vs /\ says_match l (Some vs) (Some 0) None [] [] j) (omap id lines) js.
  Proof.
    intros H Hs. destruct (process_objects 0 lines H Hs) as (js & Ho & Hj). exists js. split; [|done].
    unfold process in *. set (x := process_from _ _ _ _ _ _ _ _) in *. apply objects_json in Ho.
    unfold whole_output. rewrite pthen_out by done. cbn [pall]. rewrite pthen_nil_r, pthen_out by done. rewrite !put_out.
    replace ((lit "[" ++ newline) ++ p_out x ++ lit "]" ++ newline) with (lit "[" ++ newline ++ p_out x ++ lit "]" ++ newline) by flat. done.
  Qed.

  (** ** Search mode *)
  Context (search : str -> res (list tmatch)).
  Lemma search_matches_objects n ms t l :
    p_stop (search_matches fmt m lexmatch fw true n ms) = None -> Forall (found_showable (vr_score fw) m) ms -> objects (n + length ms) t l ->
    exists js, objects n (p_out (search_matches fmt m lexmatch fw true n ms) ++ t) (js ++ l) /\ Forall2 (found_says fmt (vr_score fw) lexmatch m) ms js.
  Proof.
    revert n. induction ms as [|x ms IH]; intros n H Hs Ht; cbn [search_matches] in *.
    - exists []. rewrite Nat.add_0_r in Ht. split; [done|constructor].
    - apply Forall_cons in Hs as [[Hx1 Hx2] Hs]. apply pthen_ok in H as [H1 H2]. rewrite pthen_out by done.
      destruct (IH (S n) H2 Hs) as (js & Ho & Hj). { cbn [length] in Ht. by replace (S n + length ms) with (n + S (length ms)) by lia. }
      unfold search_match in *. destruct (json_match_value fmt m lexmatch fw Hfmt Hlex Hn _ _ _ _ _ _ _ H1) as (v & j & Hv & Hm & ->); try done.
      exists (j :: js). split; [rewrite <- !app_assoc; by apply objects_one|]. by constructor.
  Qed.
  Lemma process_texts_objects n ts :
    p_stop (process_texts fmt m lexmatch fw search true n ts) = None ->
    (forall t ms, t ∈ ts -> search t = Ok ms -> Forall (found_showable (vr_score fw) m) ms) ->
    exists jss, objects n (p_out (process_texts fmt m lexmatch fw search true n ts)) (concat jss) /\
      Forall2 (fun t js => exists ms, search t = Ok ms /\ Forall2 (found_says fmt (vr_score fw) lexmatch m) ms js) ts jss.
  Proof.
    revert n. induction ts as [|t ts IH]; intros n H Hs; cbn [process_texts] in *.
    - exists []. split; [apply objects_nil|constructor].
    - apply pres_ok in H as (ms & Hms & H & ->). apply pthen_ok in H as [_ H]. rewrite pthen_out by done. apply pthen_ok in H as [H1 H2].
      rewrite pthen_out by done. destruct (IH _ H2) as (jss & Ho & Hj). { intros t' ms' Ht'. apply Hs. by right. }
      destruct (search_matches_objects n ms _ _ H1 ltac:(by eapply Hs; [left|]) Ho) as (js & Ho' & Hj').
      exists (js :: jss). split; [|constructor; [by exists ms|done]]. cbn [concat]. apply objects_white; [|done]. rewrite put_out.
      destruct ((0 <? n) && _); lits; wh.
  Qed.
  Lemma whole_search sp per_line n lines ts :
    M_Cli.texts sp per_line n lines = Some ts ->
    p_stop (process_search fmt m lexmatch fw search true sp per_line n lines) = None ->
    (forall t ms, t ∈ ts -> search t = Ok ms -> Forall (found_showable (vr_score fw) m) ms) ->
    exists jss, says (p_out (whole_output true [process_search fmt m lexmatch fw search true sp per_line n lines])) (JArr (concat jss)) /\
      Forall2 (fun t js => exists ms, search t = Ok ms /\ Forall2 (found_says fmt (vr_score fw) lexmatch m) ms js) ts jss.
  Proof.
    unfold process_search. intros -> H Hs. cbn [pres] in *. destruct (process_texts_objects 0 ts H Hs) as (jss & Ho & Hj). exists jss. split; [|done].
    set (x := process_texts _ _ _ _ _ _ _ _) in *. apply objects_json in Ho.
    unfold whole_output. rewrite pthen_out by done. cbn [pall]. rewrite pthen_nil_r, pthen_out by done. rewrite !put_out.
    replace ((lit "[" ++ newline) ++ p_out x ++ lit "]" ++ newline) with (lit "[" ++ newline ++ p_out x ++ lit "]" ++ newline) by flat. done.
  Qed.
End whole.
