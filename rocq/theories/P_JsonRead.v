(** JSON texts are read in one way only: a reader that finds what they say. *)
From Verif Require Import M_Base P_Base M_Float M_Types S_Cli P_Json.
From stdpp Require Import options.

Fixpoint skip_white (s : str) : str :=
  match s with
  | c :: s' => if is_white c then skip_white s' else s
  | [] => []
  end.
Fixpoint read_chars (fuel : nat) (s : str) : option (str * str) :=
  match fuel with
  | O => None
  | S fuel =>
      match s with
      | [] => None
      | c :: s =>
          if (c =? 34)%N then Some ([], s)
          else if (c =? 92)%N then
            match s with
            | [] => None
            | c :: s =>
                if (c =? 117)%N then
                  match s with
                  | a :: b :: c :: d :: s =>
                      match read_chars fuel s with
                      | Some (t, r) => Some ((((hex_value a * 16 + hex_value b) * 16 + hex_value c) * 16 + hex_value d)%N :: t, r)
                      | None => None
                      end
                  | _ => None
                  end
                else
                  match List.find (fun e => (e.1 =? c)%N) escapes, read_chars fuel s with
                  | Some e, Some (t, r) => Some (e.2 :: t, r)
                  | _, _ => None
                  end
            end
          else match read_chars fuel s with Some (t, r) => Some (c :: t, r) | None => None end
      end
  end.
Fixpoint read_bare (s : str) : str * str :=
  match s with
  | c :: s' => if bare c then let (a, r) := read_bare s' in (c :: a, r) else ([], s)
  | [] => ([], [])
  end.
Definition token (s : str) : json :=
  match s with
  | c :: _ => if (97 <=? c)%N then JLit s else JNum s
  | [] => JNum []
  end.

Fixpoint read_value (fuel : nat) (s : str) : option (json * str) :=
  match fuel with
  | O => None
  | S fuel =>
      match s with
      | [] => None
      | c :: s' =>
          if (c =? 34)%N then match read_chars fuel s' with Some (t, r) => Some (JStr t, r) | None => None end
          else if (c =? 91)%N then
            match skip_white s' with
            | 93%N :: r => Some (JArr [], r)
            | r => match read_elements fuel r with Some (l, r) => Some (JArr l, r) | None => None end
            end
          else if (c =? 123)%N then
            match skip_white s' with
            | 125%N :: r => Some (JObj [], r)
            | r => match read_members fuel r with Some (l, r) => Some (JObj l, r) | None => None end
            end
          else let (a, r) := read_bare s in Some (token a, r)
      end
  end
with read_elements (fuel : nat) (s : str) : option (list json * str) :=
  match fuel with
  | O => None
  | S fuel =>
      match read_value fuel (skip_white s) with
      | Some (j, r) =>
          match skip_white r with
          | 93%N :: r => Some ([j], r)
          | 44%N :: r => match read_elements fuel r with Some (l, r) => Some (j :: l, r) | None => None end
          | _ => None
          end
      | None => None
      end
  end
with read_members (fuel : nat) (s : str) : option (list (str * json) * str) :=
  match fuel with
  | O => None
  | S fuel =>
      match skip_white s with
      | 34%N :: r =>
          match read_chars fuel r with
          | Some (t, r) =>
              match skip_white r with
              | 58%N :: r =>
                  match read_value fuel (skip_white r) with
                  | Some (j, r) =>
                      match skip_white r with
                      | 125%N :: r => Some ([(t, j)], r)
                      | 44%N :: r => match read_members fuel r with Some (l, r) => Some ((t, j) :: l, r) | None => None end
                      | _ => None
                      end
                  | None => None
                  end
              | _ => None
              end
          | None => None
          end
      | _ => None
      end
  end.

Lemma skip_white_app w s : white w -> skip_white (w ++ s) = skip_white s.
Proof. induction 1 as [|c w Hc Hw IH]; [done|]. cbn. by rewrite white_is. Qed.
Lemma skip_white_not c s : is_white c = false -> skip_white (c :: s) = c :: s.
Proof. intros H. cbn. by rewrite H. Qed.
Lemma read_chars_all s t : chars s t -> exists F, forall f r, F <= f -> read_chars f (s ++ 34%N :: r) = Some (t, r).
Proof.
  induction 1 as [|c s t H1 H2 H3 H [F IH]|c d s t Hc H [F IH]|a b c d s t Hh H [F IH]].
  - exists 1. intros [|f] r Hf; [lia|]. done.
  - exists (S F). intros [|f] r Hf; [lia|]. cbn. destruct (N.eqb_spec c 34); [done|]. destruct (N.eqb_spec c 92); [done|].
    rewrite IH by lia. done.
  - exists (S F). intros [|f] r Hf; [lia|]. cbn [app read_chars]. change (92 =? 34)%N with false. change (92 =? 92)%N with true. cbn iota.
    unfold escapes in Hc.
    repeat (apply elem_of_cons in Hc as [Hc|Hc]; [injection Hc as -> ->; cbn -[read_chars]; rewrite IH by lia; done|]). by apply elem_of_nil in Hc.
  - exists (S F). intros [|f] r Hf; [lia|]. cbn [app read_chars]. change (92 =? 34)%N with false. change (92 =? 92)%N with true.
    change (117 =? 117)%N with true. cbn iota. rewrite IH by lia. done.
Qed.
(** after a value *)
Definition delimited (r : str) : Prop := match r with c :: _ => bare c = false | [] => True end.
Lemma read_bare_all s r : Forall (fun c => bare c = true) s -> delimited r -> read_bare (s ++ r) = (s, r).
Proof.
  intros H Hr. induction H as [|c s Hc H IH]; cbn; [|by rewrite Hc, IH]. destruct r as [|c r]; [done|]. cbn in *. by rewrite Hr.
Qed.

Lemma number_head s : number s -> exists c s', s = c :: s' /\ (c = 45%N \/ digit c).
Proof.
  intros [minus i f e [->| ->] Hi Hf He]; [|cbn; eexists _, _; split; [done|by left]].
  destruct Hi as [|c ds Hc Hd]; cbn; eexists _, _; (split; [done|]); right; unfold digit; lia.
Qed.
Lemma value_head v j : value v j -> exists c v', v = c :: v' /\ is_white c = false /\ c <> 93%N /\ c <> 125%N.
Proof.
  destruct 1 as [s t [u t' H]|s H|s H|w H|s l H|w H|s l H].
  - eexists _, _. split; [done|]. done.
  - apply number_head in H as (c & s' & -> & Hc). eexists _, _. split; [done|]. unfold digit in Hc.
    assert (c = 45 \/ c = 48 \/ c = 49 \/ c = 50 \/ c = 51 \/ c = 52 \/ c = 53 \/ c = 54 \/ c = 55 \/ c = 56 \/ c = 57)%N as G by lia.
    destruct G as [->|[->|[->|[->|[->|[->|[->|[->|[->|[->| ->]]]]]]]]]]; done.
  - unfold literal in H. repeat (apply elem_of_cons in H as [->|H]; [eexists _, _; split; [done|]; done|]). by apply elem_of_nil in H.
  - eexists _, _. split; [done|]. done.
  - eexists _, _. split; [done|]. done.
  - eexists _, _. split; [done|]. done.
  - eexists _, _. split; [done|]. done.
Qed.
Lemma delimited_white w r : white w -> delimited r -> delimited (w ++ r).
Proof.
  intros [|c w' Hc Hw] H; [done|]. cbn. unfold ws_char in Hc.
  repeat (apply elem_of_cons in Hc as [->|Hc]; [done|]). by apply elem_of_nil in Hc.
Qed.

Lemma read_all :
  (forall s j, value s j -> exists F, forall f r, F <= f -> delimited r -> read_value f (s ++ r) = Some (j, r)) /\
  (forall s l, elements s l -> exists F, forall f r, F <= f -> read_elements f (s ++ 93%N :: r) = Some (l, r)) /\
  (forall s l, members s l -> exists F, forall f r, F <= f -> read_members f (s ++ 125%N :: r) = Some (l, r)).
Proof.
  assert (EL : forall s l r, elements s l -> exists c r', skip_white (s ++ r) = c :: r' /\ c <> 93%N /\ is_white c = false).
  { intros s l r [w1 v j w2 H1 Hv H2|w1 v j w2 s' l' H1 Hv H2 _]; destruct (value_head v j Hv) as (c & v' & -> & Hc & Hc' & _);
      rewrite <- app_assoc, skip_white_app by done; cbn [app]; rewrite skip_white_not by done; eauto. }
  assert (ME : forall s l r, members s l -> exists r', skip_white (s ++ r) = 34%N :: r').
  { intros s l r [w1 k t w2 w3 v j w4 H1 [u t' Hu]|w1 k t w2 w3 v j w4 s' l' H1 [u t' Hu]]; rewrite <- app_assoc, skip_white_app by done; cbn [app]; rewrite skip_white_not by done; eauto. }
  assert (SK : forall s, match skip_white s with c :: _ => is_white c = false | [] => True end).
  { intros s. induction s as [|c s IH]; cbn; [done|]. destruct (is_white c) eqn:E; [done|]. exact E. }
  assert (SK2 : forall s, skip_white (skip_white s) = skip_white s).
  { intros s. specialize (SK s). destruct (skip_white s) as [|c r]; [done|]. by apply skip_white_not. }
  apply json_ind.
  - intros s t [u t' Hu]. destruct (read_chars_all u t' Hu) as [F HF]. exists (S F). intros [|f] r Hf Hr; [lia|].
    cbn [app read_value]. change (34 =? 34)%N with true. cbn iota. rewrite <- app_assoc. cbn [app]. by rewrite HF by lia.
  - intros s H. exists 1. intros [|f] r Hf Hr; [lia|]. destruct (number_bare s H) as (c & s' & -> & Hb).
    destruct (number_head _ H) as (c' & s'' & E & Hc). injection E as <- <-. unfold digit in Hc.
    assert (N1 : (c =? 34)%N = false) by (apply N.eqb_neq; lia). assert (N2 : (c =? 91)%N = false) by (apply N.eqb_neq; lia).
    assert (N3 : (c =? 123)%N = false) by (apply N.eqb_neq; lia).
    change ((c :: s') ++ r) with (c :: (s' ++ r)). cbn [read_value]. rewrite N1, N2, N3. change (c :: s' ++ r) with ((c :: s') ++ r).
    rewrite read_bare_all by done. unfold token. destruct (N.leb_spec 97 c); [lia|done].
  - intros s H. exists 1. intros [|f] r Hf Hr; [lia|]. unfold literal in H.
    assert (G : forall c s', s = c :: s' -> (c =? 34)%N = false -> (c =? 91)%N = false -> (c =? 123)%N = false -> (97 <=? c)%N = true ->
      Forall (fun c => bare c = true) s -> read_value (S f) (s ++ r) = Some (JLit s, r)).
    { intros c s' -> N1 N2 N3 N4 Hb. change ((c :: s') ++ r) with (c :: (s' ++ r)). cbn [read_value]. rewrite N1, N2, N3.
      change (c :: s' ++ r) with ((c :: s') ++ r). rewrite read_bare_all by done. unfold token. by rewrite N4. }
    repeat (apply elem_of_cons in H as [->|H]; [eapply G; [reflexivity..|by repeat constructor]|]). by apply elem_of_nil in H.
  - intros w Hw. exists 1. intros [|f] r Hf Hr; [lia|]. cbn [app read_value]. change (91 =? 34)%N with false. change (91 =? 91)%N with true. cbn iota.
    rewrite <- app_assoc, skip_white_app by done. done.
  - intros s l Hs [F IH]. exists (S (S F)). intros [|f] r Hf Hr; [lia|]. cbn [app read_value]. change (91 =? 34)%N with false. change (91 =? 91)%N with true. cbn iota.
    rewrite <- app_assoc. cbn [app]. specialize (IH f r ltac:(lia)).
    destruct (EL s l (93%N :: r) Hs) as (c & r' & E & Hc & Hw).
    assert (R : read_elements f (c :: r') = Some (l, r)).
    { rewrite <- E. rewrite <- IH. destruct f as [|f]; [lia|]. cbn [read_elements]. by rewrite SK2. }
    rewrite E. destruct c as [|p]; [by rewrite R|]. do 7 (destruct p as [p|p|]; try done; try (by rewrite R)).
  - intros w Hw. exists 1. intros [|f] r Hf Hr; [lia|]. cbn [app read_value]. change (123 =? 34)%N with false. change (123 =? 91)%N with false.
    change (123 =? 123)%N with true. cbn iota. rewrite <- app_assoc, skip_white_app by done. done.
  - intros s l Hs [F IH]. exists (S (S F)). intros [|f] r Hf Hr; [lia|]. cbn [app read_value]. change (123 =? 34)%N with false. change (123 =? 91)%N with false.
    change (123 =? 123)%N with true. cbn iota.
    rewrite <- app_assoc. cbn [app]. specialize (IH f r ltac:(lia)).
    destruct (ME s l (125%N :: r) Hs) as (r' & E).
    assert (R : read_members f (34%N :: r') = Some (l, r)).
    { rewrite <- E. rewrite <- IH. destruct f as [|f]; [lia|]. cbn [read_members]. by rewrite SK2. }
    rewrite E. rewrite R. done.
  - intros w1 v j w2 H1 Hv [F IH] H2. exists (S F). intros [|f] r Hf; [lia|]. cbn [read_elements].
    rewrite <- ?app_assoc. rewrite skip_white_app by done.
    destruct (value_head v j Hv) as (c & v' & E & Hc & _). rewrite E. cbn [app]. rewrite skip_white_not by done.
    change (c :: v' ++ w2 ++ 93%N :: r) with ((c :: v') ++ w2 ++ 93%N :: r). rewrite <- E.
    rewrite IH by (lia || by apply delimited_white). rewrite skip_white_app by done. done.
  - intros w1 v j w2 s l H1 Hv [F IH] H2 Hs [F' IHs]. exists (S (F + F')). intros [|f] r Hf; [lia|]. cbn [read_elements].
    rewrite <- ?app_assoc. rewrite skip_white_app by done.
    destruct (value_head v j Hv) as (c & v' & E & Hc & _). rewrite E. cbn [app]. rewrite skip_white_not by done.
    rewrite <- ?app_assoc; cbn [app].
    change (c :: v' ++ w2 ++ 44%N :: s ++ 93%N :: r) with ((c :: v') ++ w2 ++ 44%N :: s ++ 93%N :: r). rewrite <- E.
    rewrite IH by (lia || by apply delimited_white). rewrite skip_white_app by done. rewrite skip_white_not by done. rewrite IHs by lia. done.
  - intros w1 k t w2 w3 v j w4 H1 [u t' Hu] H2 H3 Hv [F IH] H4. destruct (read_chars_all u t' Hu) as [F0 HF0].
    exists (S (F + F0)). intros [|f] r Hf; [lia|]. cbn [read_members].
    rewrite <- !app_assoc, skip_white_app by done. cbn [app]. rewrite skip_white_not by done. rewrite <- ?app_assoc. cbn [app].
    rewrite HF0 by lia. rewrite <- ?app_assoc. rewrite skip_white_app by done. cbn [app]. rewrite skip_white_not by done.
    rewrite <- ?app_assoc. rewrite skip_white_app by done.
    destruct (value_head v j Hv) as (c & v' & E & Hc & _). rewrite E. cbn [app]. rewrite skip_white_not by done.
    change (c :: v' ++ w4 ++ 125%N :: r) with ((c :: v') ++ w4 ++ 125%N :: r). rewrite <- E.
    rewrite IH by (lia || by apply delimited_white). rewrite skip_white_app by done. done.
  - intros w1 k t w2 w3 v j w4 s l H1 [u t' Hu] H2 H3 Hv [F IH] H4 Hs [F' IHs]. destruct (read_chars_all u t' Hu) as [F0 HF0].
    exists (S (F + F0 + F')). intros [|f] r Hf; [lia|]. cbn [read_members].
    rewrite <- !app_assoc, skip_white_app by done. cbn [app]. rewrite skip_white_not by done. rewrite <- ?app_assoc. cbn [app].
    rewrite HF0 by lia. rewrite <- ?app_assoc. rewrite skip_white_app by done. cbn [app]. rewrite skip_white_not by done.
    rewrite <- ?app_assoc. rewrite skip_white_app by done.
    destruct (value_head v j Hv) as (c & v' & E & Hc & _). rewrite E. cbn [app]. rewrite skip_white_not by done. rewrite <- ?app_assoc. cbn [app].
    change (c :: v' ++ w4 ++ 44%N :: s ++ 125%N :: r) with ((c :: v') ++ w4 ++ 44%N :: s ++ 125%N :: r). rewrite <- E.
    rewrite IH by (lia || by apply delimited_white). rewrite skip_white_app by done. rewrite skip_white_not by done. rewrite IHs by lia. done.
Qed.

(** a JSON text says one thing *)
Lemma says_det s j j' : says s j -> says s j' -> j = j'.
Proof.
  assert (G : forall s j, says s j -> exists F r, forall f, F <= f -> read_value f (skip_white s) = Some (j, r) /\ white r).
  { clear. intros s j (w1 & v & w2 & -> & H1 & Hv & H2). destruct (proj1 read_all v j Hv) as [F HF]. exists F, w2. intros f Hf.
    rewrite skip_white_app by done. destruct (value_head v j Hv) as (c & v' & E & Hc & _). split; [|done].
    rewrite E. cbn [app]. rewrite skip_white_not by done. change (c :: v' ++ w2) with ((c :: v') ++ w2). rewrite <- E.
    apply HF; [done|]. rewrite <- (app_nil_r w2). by apply delimited_white. }
  intros H H'. destruct (G s j H) as (F & r & HF), (G s j' H') as (F' & r' & HF').
  destruct (HF (F + F') ltac:(lia)) as [E _]. destruct (HF' (F + F') ltac:(lia)) as [E' _]. rewrite E in E'. by injection E'.
Qed.
