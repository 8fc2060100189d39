(** * Stop: PSAR as a trailing stop in any arithmetic with rounding (C88). *)
From Verif Require Import Lists Api SpecCausal SpecStop Align CausalPsar Sar Order.

(** ** order facts *)
Section Gen.
Context {F : Type} {A : Arith F} {L : ArithLaws F} {RL : RoundLaws F}.
Local Open Scope f_scope.
Lemma nlt_lt : forall a b c : F, (a <.? b) = false -> (c <.? b) = true -> (a <.? c) = false.
Proof.
  intros a b c H1 H2. destruct (a <.? c) eqn:E; auto. rewrite <- H1. apply flt_fle in E. apply flt_fle in H2. destruct E as [E1 E2], H2 as [E3 E4].
  symmetry. apply flt_fle. split; [now apply fle_trans with c|]. intros H. apply E4. now apply fle_trans with a.
Qed.
Lemma lt_irrefl : forall a : F, (a <.? a) = false.
Proof. intros a. destruct (a <.? a) eqn:E; auto. apply flt_fle in E. now destruct E. Qed.
Lemma lt_nlt : forall a b c : F, (b <.? a) = false -> (b <.? c) = true -> (c <.? a) = false.
Proof.
  intros a b c H1 H2. destruct (c <.? a) eqn:E; auto. rewrite <- H1. apply flt_fle in E. apply flt_fle in H2. destruct E as [E1 E2], H2 as [E3 E4].
  symmetry. apply flt_fle. split; [now apply fle_trans with c|]. intros H. apply E2. now apply fle_trans with b.
Qed.
Lemma nlt_fle : forall a b : F, Order.num a -> Order.num b -> (a <.? b) = false -> fle b a.
Proof.
  intros a b Na Nb H. destruct (fle_total b a Nb Na) as [E|E]; auto. destruct (fleb b a) eqn:G; auto.
  assert (X : flt a b); [|unfold flt in X; congruence]. apply flt_fle. split; auto. unfold fle. congruence.
Qed.
Lemma fle_nlt : forall a b : F, fle b a -> (a <.? b) = false.
Proof. intros a b H. destruct (a <.? b) eqn:E; auto. apply flt_fle in E. now destruct E. Qed.

(** ** the stop of a continuing trend *)
Lemma next_side : forall step mx (h l : list F) s i,
  let s' := t_next step mx h l s i in
  (t_up s = true -> t_up s' = true ->
     (nth i l fnan <.? t_val s') = false /\ (nth (i - 2) l fnan <.? t_val s') = false) /\
  (t_up s = false -> t_up s' = false ->
     (t_val s' <.? nth i h fnan) = false /\ (t_val s' <.? nth (i - 2) h fnan) = false).
Proof.
  intros step mx h l s i s'. unfold s', t_next. destruct (t_up s) eqn:Eu; split; intros H; try discriminate; intros H'.
  - set (v := t_val s +. _) in *. destruct (nth i l fnan <.? v) eqn:E; cbn [t_up t_val] in *; [discriminate|].
    destruct (nth (i - 2) l fnan <.? v) eqn:E2; [split; [now apply nlt_lt with v|apply lt_irrefl]|].
    destruct (nth (i - 1) l fnan <.? v) eqn:E1; [split; now apply nlt_lt with v|]. auto.
  - set (v := t_val s -. _) in *. destruct (v <.? nth i h fnan) eqn:E; cbn [t_up t_val] in *; [discriminate|].
    destruct (v <.? nth (i - 2) h fnan) eqn:E2; [split; [now apply lt_nlt with v|apply lt_irrefl]|].
    destruct (v <.? nth (i - 1) h fnan) eqn:E1; [split; now apply lt_nlt with v|]. auto.
Qed.

Lemma t_at_S : forall step mx (h l c : list F) i, (2 <= i)%nat -> t_at step mx h l c i = t_next step mx h l (t_at step mx h l c (i - 1)) i.
Proof. intros. destruct i as [|[|i]]; try lia. replace (S (S i) - 1)%nat with (S i) by lia. reflexivity. Qed.

(** the columns of psar_up and psar_down through the trace *)
Lemma stops_rows : forall b step mx (rows : list (bar F)) up dn, b = false \/ default_index rows ->
  compute (PsarUp b step mx) false rows = Ok up -> compute (PsarDown b step mx) false rows = Ok dn ->
  let T := t_at step mx (map b_high rows) (map b_low rows) (map b_close rows) in
  forall j, (j < length rows)%nat ->
    nth j up fnan = (if (j <? 2)%nat then fnan else if t_up (T j) then t_val (T j) else fnan) /\
    nth j dn fnan = (if (j <? 2)%nat then fnan else if t_up (T j) then fnan else t_val (T j)).
Proof.
  intros b step mx rows up dn Hb Hu Hd T j Hj. destruct (psar_positional F A b step mx false rows Hb) as (_ & E2 & E3 & _).
  rewrite E2 in Hu. rewrite E3 in Hd. cbn [compute] in Hu, Hd. unfold psar_up, psar_down in Hu, Hd.
  destruct (psar_run _ _ _ _ _ _) as [st|] eqn:Er; [|discriminate]. cbn [bind check_fillna] in Hu, Hd.
  apply psar_trace in Er; [|now rewrite !map_length]. destruct Er as (_ & _ & _ & R). rewrite map_length in R. destruct (R j Hj) as (_ & R2 & R3).
  injection Hu as <-. injection Hd as <-. auto.
Qed.
Lemma up_at : forall (b : bool) (x : F) j, fisnan (if (j <? 2)%nat then fnan else if b then x else fnan) = false -> (2 <= j)%nat /\ b = true.
Proof. intros b x j H. destruct (Nat.ltb_spec j 2); [now rewrite isnan_nan in H|]. destruct b; auto. now rewrite isnan_nan in H. Qed.
Lemma dn_at : forall (b : bool) (x : F) j, fisnan (if (j <? 2)%nat then fnan else if b then fnan else x) = false -> (2 <= j)%nat /\ b = false.
Proof. intros b x j H. destruct (Nat.ltb_spec j 2); [now rewrite isnan_nan in H|]. destruct b; auto. now rewrite isnan_nan in H. Qed.

Lemma stop_side : forall b step mx (rows : list (bar F)) up dn, b = false \/ default_index rows ->
  compute (PsarUp b step mx) false rows = Ok up -> compute (PsarDown b step mx) false rows = Ok dn ->
  forall i, (2 <= i < length rows)%nat ->
    (stop_on up i -> (i = 2)%nat \/ stop_on up (i - 1) ->
       (nth i (map b_low rows) fnan <.? nth i up fnan) = false /\ (nth (i - 2) (map b_low rows) fnan <.? nth i up fnan) = false) /\
    (stop_on dn i -> stop_on dn (i - 1) ->
       (nth i dn fnan <.? nth i (map b_high rows) fnan) = false /\ (nth i dn fnan <.? nth (i - 2) (map b_high rows) fnan) = false).
Proof.
  intros b step mx rows up dn Hb Hu Hd i Hi. pose proof (stops_rows b step mx rows up dn Hb Hu Hd) as R. cbv zeta in R.
  set (T := t_at step mx (map b_high rows) (map b_low rows) (map b_close rows)) in *.
  destruct (R i ltac:(lia)) as [Ru Rd]. destruct (R (i - 1)%nat ltac:(lia)) as [Ru' Rd'].
  destruct (next_side step mx (map b_high rows) (map b_low rows) (T (i - 1)%nat) i) as [N1 N2].
  assert (Et : T i = t_next step mx (map b_high rows) (map b_low rows) (T (i - 1)%nat) i) by (apply t_at_S; lia).
  rewrite <- Et in N1, N2. unfold stop_on. split.
  - intros H1 H2. pose proof H1 as H1'. rewrite Ru in H1'. apply up_at in H1'. destruct H1' as [_ U].
    assert (U' : t_up (T (i - 1)%nat) = true).
    { destruct H2 as [->|H2]; [reflexivity|]. rewrite Ru' in H2. now apply up_at in H2. }
    rewrite Ru. destruct (Nat.ltb_spec i 2); [lia|]. rewrite U. auto.
  - intros H1 H2. pose proof H1 as H1'. rewrite Rd in H1'. apply dn_at in H1'. destruct H1' as [_ U].
    rewrite Rd' in H2. apply dn_at in H2. destruct H2 as [_ U'].
    rewrite Rd. destruct (Nat.ltb_spec i 2); [lia|]. rewrite U. auto.
Qed.

(** ** the stop of a reversal row is the extreme of the trend it ends *)
Lemma trend_high : forall step mx (h l c : list F) s k, (2 <= s <= k)%nat ->
  (forall j, (j < k)%nat -> Order.num (nth j h fnan)) ->
  (forall j, (s <= j < k)%nat -> t_up (t_at step mx h l c j) = true) ->
  (s = 2%nat \/ (s < k)%nat /\ t_up (t_at step mx h l c (s - 1)) = false) ->
  let u := t_uth (t_at step mx h l c (k - 1)) in
  (exists j, trend_row s k j /\ u = nth j h fnan) /\ forall j, trend_row s k j -> (u <.? nth j h fnan) = false.
Proof.
  intros step mx h l c s k Hs HN HU H0. unfold trend_row.
  assert (Step : forall i, (2 <= i)%nat -> t_up (t_at step mx h l c (i - 1)) = true -> t_up (t_at step mx h l c i) = true ->
    t_uth (t_at step mx h l c i) = if t_uth (t_at step mx h l c (i - 1)) <.? nth i h fnan then nth i h fnan else t_uth (t_at step mx h l c (i - 1))).
  { intros i Hi U1 U2. rewrite (t_at_S step mx h l c i Hi) in *. unfold t_next in *. rewrite U1 in *. destruct (_ <.? _); cbn [t_up t_uth] in *; [discriminate|]. reflexivity. }
  assert (Flip : forall i, (2 <= i)%nat -> t_up (t_at step mx h l c (i - 1)) = false -> t_up (t_at step mx h l c i) = true ->
    t_uth (t_at step mx h l c i) = nth i h fnan).
  { intros i Hi U1 U2. rewrite (t_at_S step mx h l c i Hi) in *. unfold t_next in *. rewrite U1 in *. destruct (_ <.? _); cbn [t_up t_uth] in *; [reflexivity|discriminate]. }
  assert (G : forall d, (s + d <= k)%nat -> (s = 2 \/ 0 < d)%nat ->
    let u := t_uth (t_at step mx h l c (s + d - 1)) in
    (exists j, trend_row s (s + d) j /\ u = nth j h fnan) /\ forall j, trend_row s (s + d) j -> (u <.? nth j h fnan) = false).
  { unfold trend_row. induction d as [|d IH]; intros Hd Hp.
    - destruct Hp as [->|]; [|lia]. cbn [Nat.add Nat.sub]. change (t_at step mx h l c 1) with (mkt true step (nth 0 h fnan) (nth 0 l fnan) (nth 1 c fnan)).
      cbn [t_uth]. split; [exists 0%nat; split; [right; lia|reflexivity]|]. intros j [Hj|[_ ->]]; [lia|]. apply lt_irrefl.
    - replace (s + S d - 1)%nat with (s + d)%nat in * by lia.
      destruct (Nat.eq_dec d 0) as [->|Nd].
      + rewrite Nat.add_0_r in *. destruct H0 as [->|[Hlt Dn]].
        * specialize (IH ltac:(lia) ltac:(left; lia)). cbv zeta in IH. change (2 - 1)%nat with 1%nat in IH.
          rewrite (Step 2%nat) by (try lia; try reflexivity; apply HU; lia). change (2 - 1)%nat with 1%nat.
          destruct IH as [(j0 & Hj0 & E0) _]. assert (j0 = 0)%nat by lia. subst j0. rewrite E0.
          destruct (nth 0 h fnan <.? nth 2 h fnan) eqn:B.
          -- split; [exists 2%nat; split; [left; lia|reflexivity]|]. intros j [Hj|[_ ->]]; [replace j with 2%nat by lia; apply lt_irrefl|].
             apply fle_nlt. now apply flt_fle in B.
          -- split; [exists 0%nat; split; [right; lia|reflexivity]|]. intros j [Hj|[_ ->]]; [replace j with 2%nat by lia; auto|apply lt_irrefl].
        * rewrite (Flip s) by (try lia; auto; apply HU; lia).
          assert (s <> 2)%nat by (intros ->; discriminate).
          split; [exists s; split; [left; lia|reflexivity]|]. intros j [Hj|[-> _]]; [replace j with s by lia; apply lt_irrefl|lia].
      + specialize (IH ltac:(lia) ltac:(right; lia)). cbv zeta in IH. destruct IH as [(j0 & Hj0 & E0) IH].
        rewrite (Step (s + d)%nat) by (try lia; apply HU; lia). set (u := t_uth (t_at step mx h l c (s + d - 1))) in *.
        assert (Nu : Order.num u) by (rewrite E0; apply HN; lia).
        destruct (u <.? nth (s + d) h fnan) eqn:B.
        * split; [exists (s + d)%nat; split; [left; lia|reflexivity]|]. intros j Hj.
          destruct (Nat.eq_dec j (s + d)) as [->|Nj]; [apply lt_irrefl|]. apply fle_nlt.
          apply fle_trans with u; [|now apply flt_fle in B]. apply nlt_fle; auto; [apply HN; lia|apply IH; lia].
        * split; [exists j0; split; [lia|auto]|]. intros j Hj. destruct (Nat.eq_dec j (s + d)) as [->|Nj]; [auto|apply IH; lia]. }
  specialize (G (k - s)%nat ltac:(lia)). replace (s + (k - s))%nat with k in G by lia. apply G. lia.
Qed.
Lemma trend_low : forall step mx (h l c : list F) s k, (2 <= s < k)%nat ->
  (forall j, (j < k)%nat -> Order.num (nth j l fnan)) ->
  (forall j, (s <= j < k)%nat -> t_up (t_at step mx h l c j) = false) ->
  t_up (t_at step mx h l c (s - 1)) = true ->
  let u := t_dtl (t_at step mx h l c (k - 1)) in
  (exists j, (s <= j < k)%nat /\ u = nth j l fnan) /\ forall j, (s <= j < k)%nat -> (nth j l fnan <.? u) = false.
Proof.
  intros step mx h l c s k Hs HN HU H0.
  assert (Step : forall i, (2 <= i)%nat -> t_up (t_at step mx h l c (i - 1)) = false -> t_up (t_at step mx h l c i) = false ->
    t_dtl (t_at step mx h l c i) = if nth i l fnan <.? t_dtl (t_at step mx h l c (i - 1)) then nth i l fnan else t_dtl (t_at step mx h l c (i - 1))).
  { intros i Hi U1 U2. rewrite (t_at_S step mx h l c i Hi) in *. unfold t_next in *. rewrite U1 in *. destruct (_ <.? nth i h fnan); cbn [t_up t_dtl] in *; [discriminate|]. reflexivity. }
  assert (Flip : forall i, (2 <= i)%nat -> t_up (t_at step mx h l c (i - 1)) = true -> t_up (t_at step mx h l c i) = false ->
    t_dtl (t_at step mx h l c i) = nth i l fnan).
  { intros i Hi U1 U2. rewrite (t_at_S step mx h l c i Hi) in *. unfold t_next in *. rewrite U1 in *. destruct (nth i l fnan <.? _); cbn [t_up t_dtl] in *; [reflexivity|discriminate]. }
  assert (G : forall d, (s + S d <= k)%nat ->
    let u := t_dtl (t_at step mx h l c (s + d)) in
    (exists j, (s <= j <= s + d)%nat /\ u = nth j l fnan) /\ forall j, (s <= j <= s + d)%nat -> (nth j l fnan <.? u) = false).
  { induction d as [|d IH]; intros Hd u.
    - unfold u. rewrite Nat.add_0_r in *. rewrite (Flip s) by (try lia; auto; apply HU; lia).
      split; [exists s; split; [lia|reflexivity]|]. intros j Hj. replace j with s by lia. apply lt_irrefl.
    - specialize (IH ltac:(lia)). cbv zeta in IH. destruct IH as [(j0 & Hj0 & E0) IH]. unfold u. clear u.
      replace (s + S d)%nat with (S (s + d)) in * by lia.
      rewrite (Step (S (s + d))) by (try lia; apply HU; lia). replace (S (s + d) - 1)%nat with (s + d)%nat by lia.
      set (u := t_dtl (t_at step mx h l c (s + d))) in *.
      assert (Nu : Order.num u) by (rewrite E0; apply HN; lia).
      destruct (nth (S (s + d)) l fnan <.? u) eqn:B.
      + split; [exists (S (s + d)); split; [lia|reflexivity]|]. intros j Hj.
        destruct (Nat.eq_dec j (S (s + d))) as [->|Nj]; [apply lt_irrefl|]. apply fle_nlt.
        apply fle_trans with u; [now apply flt_fle in B|]. apply nlt_fle; auto; [apply HN; lia|apply IH; lia].
      + split; [exists j0; split; [lia|auto]|]. intros j Hj. destruct (Nat.eq_dec j (S (s + d))) as [->|Nj]; [auto|apply IH; lia]. }
  specialize (G (k - 1 - s)%nat ltac:(lia)). replace (s + (k - 1 - s))%nat with (k - 1)%nat in G by lia.
  destruct G as [(j0 & H1 & H2) G]. split; [exists j0; split; [lia|auto]|]. intros j Hj. apply G. lia.
Qed.

Lemma reversal_stop : forall b step mx (rows : list (bar F)) up dn, b = false \/ default_index rows ->
  Forall (fun r => Order.num (b_high r) /\ Order.num (b_low r)) rows ->
  compute (PsarUp b step mx) false rows = Ok up -> compute (PsarDown b step mx) false rows = Ok dn ->
  forall s k, (2 <= s <= k)%nat -> (k < length rows)%nat ->
    (trend_from dn s -> (forall j, (s <= j < k)%nat -> stop_on up j) -> stop_on dn k -> (s = 2 \/ s < k)%nat ->
       (exists j, trend_row s k j /\ nth k dn fnan = nth j (map b_high rows) fnan) /\
       forall j, trend_row s k j -> (nth k dn fnan <.? nth j (map b_high rows) fnan) = false) /\
    ((s < k)%nat -> s = 2%nat \/ stop_on up (s - 1) -> (forall j, (s <= j < k)%nat -> stop_on dn j) -> stop_on up k ->
       (exists j, (s <= j < k)%nat /\ nth k up fnan = nth j (map b_low rows) fnan) /\
       forall j, (s <= j < k)%nat -> (nth j (map b_low rows) fnan <.? nth k up fnan) = false).
Proof.
  intros b step mx rows up dn Hb HN Hu Hd s k Hs Hk. pose proof (stops_rows b step mx rows up dn Hb Hu Hd) as R. cbv zeta in R.
  set (h := map b_high rows) in *. set (l := map b_low rows) in *. set (c := map b_close rows) in *. set (T := t_at step mx h l c) in *.
  assert (Nh : forall j, (j < k)%nat -> Order.num (nth j h fnan)).
  { intros j Hj. rewrite Forall_forall in HN. apply (HN (nth j rows (mkbar 0%Z fnan fnan fnan fnan))) || idtac.
    unfold h. change (@fnan F A) with (b_high (mkbar 0%Z fnan fnan fnan fnan)) at 1. rewrite map_nth. apply HN, nth_In. lia. }
  assert (Nl : forall j, (j < k)%nat -> Order.num (nth j l fnan)).
  { intros j Hj. rewrite Forall_forall in HN.
    unfold l. change (@fnan F A) with (b_low (mkbar 0%Z fnan fnan fnan fnan)) at 1. rewrite map_nth. apply HN, nth_In. lia. }
  assert (Up : forall j, (j < length rows)%nat -> stop_on up j -> (2 <= j)%nat /\ t_up (T j) = true).
  { intros j Hj H. unfold stop_on in H. destruct (R j Hj) as [E _]. rewrite E in H. now apply up_at in H. }
  assert (Dn : forall j, (j < length rows)%nat -> stop_on dn j -> (2 <= j)%nat /\ t_up (T j) = false).
  { intros j Hj H. unfold stop_on in H. destruct (R j Hj) as [_ E]. rewrite E in H. now apply dn_at in H. }
  destruct (R k Hk) as [Ru Rd]. destruct (Nat.ltb_spec k 2); [lia|]. split.
  - intros H0 H1 H2 H3. destruct (Dn k Hk H2) as [_ D]. rewrite D in Rd.
    assert (E : t_val (T k) = t_uth (T (k - 1)%nat)).
    { assert (U : t_up (T (k - 1)%nat) = true).
      { destruct (Nat.eq_dec s k) as [->|]; [|apply Up; [lia|apply H1; lia]]. destruct H3 as [->|]; [reflexivity|lia]. }
      unfold T in *. rewrite (t_at_S step mx h l c k) in D |- * by lia. unfold t_next in *. rewrite U in *.
      destruct (nth k l fnan <.? _); cbn [t_up t_val] in *; [reflexivity|discriminate]. }
    rewrite Rd, E. apply (trend_high step mx h l c s k); auto.
    + intros j Hj. apply Up; [lia|auto].
    + destruct H0 as [->|[H0 H0']]; [auto|]. destruct H3 as [->|H3]; [auto|]. right. split; auto. apply Dn; [lia|auto].
  - intros H0 H1 H2 H3. destruct (Up k Hk H3) as [_ D]. rewrite D in Ru.
    assert (E : t_val (T k) = t_dtl (T (k - 1)%nat)).
    { assert (U : t_up (T (k - 1)%nat) = false) by (apply Dn; [lia|apply H2; lia]).
      unfold T in *. rewrite (t_at_S step mx h l c k) in D |- * by lia. unfold t_next in *. rewrite U in *.
      destruct (_ <.? nth k h fnan); cbn [t_up t_val] in *; [reflexivity|discriminate]. }
    rewrite Ru, E. apply (trend_low step mx h l c s k); auto; [lia| |].
    + intros j Hj. apply Dn; [lia|auto].
    + destruct H1 as [->|H1]; [reflexivity|]. apply Up; [lia|auto].
Qed.
End Gen.
