(** * BandError: the Keltner channel of exponential averages and the force index in binary64. *)
From Flocq Require Import Core PrimFloat.
From Coq Require Import Reals Lra Floats.
From Verif Require Import Lists Arith FloatArith FloatReal Order FloatOrder Api Align Causal Rows Running FloatPct EmaError FloatEma FloatTrack SpecNum Tab Averages Bands Channels Flows Stuck RoundedBands SpecTracking Tracking RunningError SumError WilderError.
Local Open Scope R_scope.
#[local] Arguments eta : simpl never.
#[local] Arguments u : simpl never.

Lemma near_nth : forall e (x : list float) n g, Forall2 (near e) x (tab n g) -> length x = n /\ forall i, (i < n)%nat -> near e (nth i x fnan) (g i).
Proof.
  intros e x n g H. assert (L : length x = n) by (rewrite <- (len_tab n g); clear - H; induction H; cbn [length]; congruence). split; auto.
  intros i Hi. rewrite <- (nth_tab n g i NaN) by auto. clear Hi L. revert i. revert H. generalize (tab n g). intros y H. induction H as [|a b x y H _ IH]; intros i; [destruct i; exact val_fnan|]. destruct i; cbn [nth]; auto.
Qed.
Lemma keep_back : forall fl k (out : list float) e g, (forall i, (i < length out)%nat -> near (e i) (nth i out fnan) (from (warm fl k) g i)) ->
  check_fillna fl (FillInt (-1)) out = out.
Proof. intros. eapply kept. eassumption. Qed.
Section Keltner.
Variables (rows : list (bar float)) (h l c : nat -> R) (M : R).
Hypothesis HM : ordinary M.
Hypothesis HM2 : ordinary (10000 * M).
Hypothesis Hr : ranges rows h l M.
Hypothesis Hc : closes rows c M.
Variables (mult : float) (m : R).
Hypothesis Vm : val mult = Fin m.
Hypothesis Bm : Rabs m <= 1000.
Variables (w a : nat).
Hypothesis Hw : (1 <= w)%nat.
Hypothesis Ww : (100 * Z.of_nat w <= 2 ^ 53)%Z.
Hypothesis Ha : (1 <= a <= length rows)%nat.
Hypothesis Wa : (Z.of_nat a <= 2 ^ 25)%Z.
Variable fl : bool.
Let mid := ema w c 0.
Let atr := atr_value a (trange h l c).
Lemma mid_near : exists x, ewm_span (Z.of_nat w) (if fl then 1 else Z.of_nat w)%Z (map b_close rows) = Ok x /\
  Forall2 (near (part (INR w + 1) M)) x (tab (length rows) (from (warm fl w) mid)) /\ late M (tab (length rows) (from (warm fl w) mid)).
Proof.
  destruct (closes_near _ _ _ Hc) as [N L]. destruct (big_bounds M HM) as (P1 & P2 & P3 & P4 & _).
  destruct (near_span 0 M (Z.of_nat w) (if fl then 1 else Z.of_nat w)%Z _ _ ltac:(lia) Ww ltac:(lra) ltac:(lra) N (late_fin _ _ L)) as (x & y & E1 & E2 & E3 & E4).
  pose proof (ema_tab1 fl w (length rows) c Hw) as T. rewrite close_tab, tab_from0 in E2. rewrite E2 in T. apply Ok_inj in T. subst y.
  exists x. split; auto. split; auto. eapply near_mono2; [|exact E3]. rewrite !Rplus_0_r, ebound_part, <- INR_IZR_INZ. apply Rle_refl.
Qed.
Let err := part (INR w + 2 + Rabs m * (5 / 4 * INR a + 2)) M.
Lemma atr_le : forall i, (i < length rows)%nat -> Rabs (atr i) <= 2 * M.
Proof.
  intros i Hi. destruct (big_bounds M HM) as (P1 & _). unfold atr, atr_value. destruct (Nat.ltb_spec i (a - 1)); [rewrite Rabs_R0; lra|].
  destruct (atr_at_bounds a (trange h l c) (i - (a - 1)) (- (2 * M)) (2 * M)) as [A1 A2]; [lia| |apply Rabs_le; lra].
  intros j Hj. destruct (tr_val rows h l c M HM Hr Hc j ltac:(lia)) as [_ B]. apply abs_le_both in B. lra.
Qed.
Lemma band_near : forall x out i s, Forall2 (near (part (INR w + 1) M)) x (tab (length rows) (from (warm fl w) mid)) -> late M (tab (length rows) (from (warm fl w) mid)) ->
  (forall i, (i < length rows)%nat -> near (part (5 / 4 * INR a) M) (nth i out fnan) (Fin (atr i))) -> (i < length rows)%nat -> Rabs s = 1 ->
  forall r, (r = fadd (nth i x fnan) (fmul mult (nth i out fnan)) /\ s = 1 \/ r = fsub (nth i x fnan) (fmul mult (nth i out fnan)) /\ s = -1) ->
  near err r (from (warm fl w) (fun i => mid i + s * (m * atr i)) i).
Proof.
  intros x out i s Nx Lx No Hi Hs r Hr'. destruct (near_nth _ _ _ _ Nx) as [Len Nx']. specialize (Nx' i Hi). specialize (No i Hi).
  destruct (big_bounds M HM) as (P1 & P2 & P3 & P4 & _). destruct (big_bounds _ HM2) as (_ & _ & _ & P5 & _).
  assert (W1 : 1 <= INR w) by (apply (le_INR 1); lia). assert (A1 : 1 <= INR a) by (apply (le_INR 1); lia).
  assert (A2 : INR a <= 33554432) by (change 33554432 with (IZR (2 ^ 25)); rewrite INR_IZR_INZ; apply IZR_le; lia).
  assert (W2 : 100 * INR w <= 9007199254740992) by (change 9007199254740992 with (IZR (2 ^ 53)); rewrite INR_IZR_INZ, <- mult_IZR; apply IZR_le; lia).
  assert (UM : 0 < u * M <= M / 1000000) by (unfold u; lra).
  assert (Pp : forall k, part k M = 8 * k * (u * M)) by (intros; unfold part, u; change (IZR (2 ^ 50)) with 1125899906842624; field).
  destruct No as (z & Vz & Ez). rewrite Pp in Ez. pose proof (atr_le i Hi) as Bz. set (am := Rabs m) in *. assert (M0 : 0 <= am) by apply Rabs_pos.
  assert (Small : 8 * (5 / 4 * INR a) * (u * M) <= M / 1000) by (unfold u; nra).
  assert (Bz' : Rabs z <= 2001 / 1000 * M) by (apply abs_le_both in Ez, Bz; apply Rabs_le; lra).
  assert (Bp : Rabs (m * z) <= 2001 / 1000 * (am * M)).
  { rewrite Rabs_mult. fold am. replace (2001 / 1000 * (am * M)) with (am * (2001 / 1000 * M)) by ring. now apply Rmult_le_compat_l. }
  assert (AM : 0 <= am * M <= 1000 * M) by (split; nra).
  assert (Vp : val (fmul mult (nth i out fnan)) = Fin (rnd (m * z))) by (rewrite val_mul, Vm, Vz; cbn [xmul]; apply rx_small; lra).
  assert (UAM : 0 <= u * (am * M) <= am * M / 1000000) by (unfold u; lra).
  assert (E1 : Rabs (rnd (m * z) - m * z) <= 2001 / 1000 * (u * (am * M)) + u * M / 1000).
  { pose proof (rnd_K M P2 _ _ Bp) as Q. replace (u * (2001 / 1000 * (am * M))) with (2001 / 1000 * (u * (am * M))) in Q by field. exact Q. }
  assert (E2 : Rabs (m * z - m * atr i) <= 10 * INR a * (u * (am * M))).
  { replace (m * z - m * atr i) with (m * (z - atr i)) by ring. rewrite Rabs_mult. fold am. replace (10 * INR a * (u * (am * M))) with (am * (8 * (5 / 4 * INR a) * (u * M))) by field.
    now apply Rmult_le_compat_l. }
  unfold from, fromx in *. destruct (Nat.ltb_spec i (warm fl w)) as [Hk|Hk].
  - cbn [near] in *. destruct Hr' as [[-> _]|[-> _]]; [rewrite val_add|rewrite val_sub]; rewrite Nx'; reflexivity.
  - destruct Nx' as (q & Vq & Eq). rewrite Pp in Eq.
    assert (Bmid : Rabs (mid i) <= M).
    { assert (G : forall s i r, late M s -> nth i s NaN = Fin r -> Rabs r <= M).
      { clear. intros s i r H. revert i. induction H as [s H IH|s H]; intros i E.
        - destruct i; [discriminate|]. now apply (IH i).
        - destruct (Nat.lt_ge_cases i (length s)) as [Hi|Hi]; [|rewrite nth_overflow in E by auto; discriminate].
          rewrite Forall_forall in H. destruct (H _ (nth_In _ NaN Hi)) as (r' & E' & B). rewrite E in E'. injection E' as ->. exact B. }
      apply (G _ i _ Lx). rewrite nth_tab by auto. destruct (Nat.ltb_spec i (warm fl w)); [lia|reflexivity]. }
    assert (Small2 : 8 * (INR w + 1) * (u * M) <= M / 2) by (unfold u; nra).
    assert (Bq : Rabs q <= 3 / 2 * M) by (apply abs_le_both in Eq, Bmid; apply Rabs_le; lra).
    set (y := rnd (m * z)) in *.
    assert (By : Rabs y <= 201 / 100 * (am * M) + M / 1000) by (apply abs_le_both in E1, Bp; apply Rabs_le; lra).
    assert (Bs : Rabs (q + s * y) <= 201 / 100 * (am * M) + 151 / 100 * M).
    { eapply Rle_trans; [apply Rabs_triang|]. rewrite Rabs_mult, Hs, Rmult_1_l. lra. }
    assert (Vr : val r = Fin (rnd (q + s * y))).
    { destruct Hr' as [[-> ->]|[-> ->]]; [rewrite val_add|rewrite val_sub]; rewrite Vq, Vp; unfold xsub; cbn [xadd xopp]; rewrite <- rx_small by lra; f_equal; f_equal; fold y; ring. }
    exists (rnd (q + s * y)). split; auto. pose proof (rnd_K M P2 _ _ Bs) as E3.
    replace (u * (201 / 100 * (am * M) + 151 / 100 * M)) with (201 / 100 * (u * (am * M)) + 151 / 100 * (u * M)) in E3 by field.
    assert (E4 : Rabs (s * (y - m * atr i)) <= 2001 / 1000 * (u * (am * M)) + u * M / 1000 + 10 * INR a * (u * (am * M))).
    { rewrite Rabs_mult, Hs, Rmult_1_l. replace (y - m * atr i) with ((y - m * z) + (m * z - m * atr i)) by ring. eapply Rle_trans; [apply Rabs_triang|]. lra. }
    replace (rnd (q + s * y) - (mid i + s * (m * atr i))) with ((rnd (q + s * y) - (q + s * y)) + (q - mid i) + s * (y - m * atr i)) by ring.
    pose proof (Rabs_triang (rnd (q + s * y) - (q + s * y) + (q - mid i)) (s * (y - m * atr i))). pose proof (Rabs_triang (rnd (q + s * y) - (q + s * y)) (q - mid i)).
    unfold err. rewrite Pp. fold am.
    replace (8 * (INR w + 2 + am * (5 / 4 * INR a + 2)) * (u * M)) with (8 * (INR w + 1) * (u * M) + 8 * (u * M) + 10 * INR a * (u * (am * M)) + 16 * (u * (am * M))) by field.
    lra.
Qed.
Theorem keltner_tracks : exists o1 o2 o3,
  compute (KcM (Z.of_nat w) (Z.of_nat a) false mult) fl rows = Ok o1 /\
  compute (KcH (Z.of_nat w) (Z.of_nat a) false mult) fl rows = Ok o2 /\
  compute (KcL (Z.of_nat w) (Z.of_nat a) false mult) fl rows = Ok o3 /\
  Forall2 (within (part (INR w + 1) M)) o1 (tab (length rows) (from (warm fl w) mid)) /\
  Forall2 (within err) o2 (tab (length rows) (from (warm fl w) (fun i => mid i + m * atr i))) /\
  Forall2 (within err) o3 (tab (length rows) (from (warm fl w) (fun i => mid i - m * atr i))).
Proof.
  destruct mid_near as (x & Ex & Nx & Lx). destruct (atr_near rows h l c M HM Hr Hc fl a) as (o & Eo & Lo & No); try lia.
  destruct (near_nth _ _ _ _ Nx) as [Len Nx'].
  cbn [compute]. unfold keltner_channel_mband, keltner_channel_hband, keltner_channel_lband, keltner_run. rewrite Ex. cbn [bind]. rewrite Eo. cbn [bind kc_tp kc_high kc_low].
  assert (Ls : length (scal mult o) = length rows) by (unfold scal; now rewrite map_length).
  assert (Nh : forall i, (i < length rows)%nat -> near err (nth i (sadd x (scal mult o)) fnan) (from (warm fl w) (fun i => mid i + m * atr i) i)).
  { intros i Hi. unfold sadd. rewrite (nth_map2_lt fadd _ _ _ fnan fnan fnan) by lia. unfold scal. rewrite (nth_map_lt (fmul mult)) with (d' := fnan) by lia.
    pose proof (band_near x o i 1 Nx Lx No Hi ltac:(rewrite Rabs_R1; reflexivity) _ (or_introl (conj eq_refl eq_refl))) as Q.
    unfold from, fromx in *. destruct (i <? warm fl w)%nat; auto. now rewrite Rmult_1_l in Q. }
  assert (Nl : forall i, (i < length rows)%nat -> near err (nth i (ssub x (scal mult o)) fnan) (from (warm fl w) (fun i => mid i - m * atr i) i)).
  { intros i Hi. unfold ssub. rewrite (nth_map2_lt fsub _ _ _ fnan fnan fnan) by lia. unfold scal. rewrite (nth_map_lt (fmul mult)) with (d' := fnan) by lia.
    pose proof (band_near x o i (-1) Nx Lx No Hi ltac:(rewrite Rabs_left; lra) _ (or_intror (conj eq_refl eq_refl))) as Q.
    unfold from, fromx in *. destruct (i <? warm fl w)%nat; auto. replace (mid i - m * atr i) with (mid i + -1 * (m * atr i)) by ring. exact Q. }
  assert (L2 : length (sadd x (scal mult o)) = length rows) by (unfold sadd; rewrite len_map2; lia).
  assert (L3 : length (ssub x (scal mult o)) = length rows) by (unfold ssub; rewrite len_map2; lia).
  rewrite (keep_back fl w x (fun _ => part (INR w + 1) M) mid) by (intros; apply Nx'; lia).
  rewrite (keep_back fl w (sadd x (scal mult o)) (fun _ => err) (fun i => mid i + m * atr i)) by (intros; apply Nh; lia).
  rewrite (keep_back fl w (ssub x (scal mult o)) (fun _ => err) (fun i => mid i - m * atr i)) by (intros; apply Nl; lia).
  do 3 eexists. do 3 (split; [reflexivity|]). repeat split; apply near_within; auto; now apply within_tab.
Qed.
End Keltner.

Section Force.
Variables (rows : list (bar float)) (c v : nat -> R) (M V : R).
Hypothesis HM : ordinary M.
Hypothesis HV : ordinary V.
Hypothesis HMV : ordinary (2 * M * V).
Hypothesis Hc : closes rows c M.
Hypothesis Hv : volumes rows v V.
Let K := 2 * M * V.
Let g := fun i => delta c i * v i.
Let col := smul (ssub (map b_close rows) (shift 1 (map b_close rows))) (map b_volume rows).
Lemma force_terms : Forall2 (near (21 / 10 * (u * K))) col (tab (length rows) (from 1 g)) /\ late K (tab (length rows) (from 1 g)).
Proof.
  destruct (big_bounds M HM) as (P1 & P2 & P3 & P4 & _). destruct (big_bounds V HV) as (Q1 & Q2 & Q3 & Q4 & _). destruct (big_bounds K HMV) as (R1 & R2 & R3 & R4 & _).
  assert (Vi : forall i, (i < length rows)%nat -> val (nth i (map b_volume rows) fnan) = Fin (v i) /\ Rabs (v i) <= V).
  { intros i Hi. destruct (nth_error rows i) as [b|] eqn:E; [|apply nth_error_None in E; lia].
    rewrite (nth_error_nth _ _ fnan (map_nth_error b_volume _ _ E)). exact (Hv i b E). }
  assert (Ci : forall i, (i < length rows)%nat -> val (nth i (map b_close rows) fnan) = Fin (c i) /\ Rabs (c i) <= M).
  { intros i Hi. apply (closes_nth rows c M); auto. now rewrite map_length. }
  assert (Gi : forall i, (1 <= i < length rows)%nat -> Rabs (g i) <= K).
  { intros i Hi. unfold g, delta. destruct (Ci i ltac:(lia)) as [_ B1], (Ci (i - 1)%nat ltac:(lia)) as [_ B2], (Vi i ltac:(lia)) as [_ B3].
    rewrite Rabs_mult. unfold K. apply Rmult_le_compat; try apply Rabs_pos; auto. apply abs_le_both in B1, B2. apply Rabs_le. lra. }
  assert (Ls : length (shift 1 (map b_close rows)) = length rows) by now rewrite len_shift1, map_length.
  assert (Ld : length (ssub (map b_close rows) (shift 1 (map b_close rows))) = length rows) by (unfold ssub; rewrite len_map2; rewrite map_length, ?Ls; auto).
  split.
  - apply within_tab; [unfold col, smul; rewrite len_map2; rewrite ?map_length, Ld; auto|]. intros i Hi.
    unfold col, smul, ssub. rewrite (nth_map2_lt fmul _ _ _ fnan fnan fnan) by (rewrite ?map_length; fold (ssub (map b_close rows) (shift 1 (map b_close rows))); lia).
    rewrite (nth_map2_lt fsub _ _ _ fnan fnan fnan) by (rewrite ?Ls, ?map_length; lia). destruct i as [|i].
    + unfold from, fromx. cbn [Nat.ltb Nat.leb near].
      assert (N : nth 0 (shift 1 (map b_close rows)) fnan = fnan) by (unfold shift; apply nth_shift_fill_lt; rewrite ?map_length; lia). rewrite N.
      rewrite val_mul, val_sub, val_fnan. destruct (val (nth 0 (map b_close rows) fnan)); reflexivity.
    + rewrite nth_shift1 by (rewrite map_length; lia). replace (S i - 1)%nat with i by lia. unfold from, fromx. cbn [Nat.ltb Nat.leb]. unfold g, delta. replace (S i - 1)%nat with i by lia.
      destruct (Ci (S i) ltac:(lia)) as [V1 B1], (Ci i ltac:(lia)) as [V2 B2], (Vi (S i) ltac:(lia)) as [V3 B3]. apply abs_le_both in B1, B2.
      assert (Bd : Rabs (c (S i) - c i) <= 2 * M) by (apply Rabs_le; lra).
      pose proof (val_diff _ _ _ _ V1 V2 ltac:(lra)) as Vd. set (d := c (S i) - c i) in *. pose proof (rnd_K M P2 _ _ Bd) as Ed.
      assert (UM : 0 < u * M <= M / 1000000) by (unfold u; lra). assert (UK : 0 < u * K <= K / 1000000) by (unfold u; lra).
      assert (Bd' : Rabs (rnd d) <= 2001 / 1000 * M) by (replace (u * (2 * M)) with (2 * (u * M)) in Ed by ring; apply abs_le_both in Ed, Bd; apply Rabs_le; lra).
      assert (Bp : Rabs (rnd d * v (S i)) <= 1001 / 1000 * K).
      { rewrite Rabs_mult. apply Rle_trans with (2001 / 1000 * M * V); [apply Rmult_le_compat; auto; apply Rabs_pos|]. unfold K. nra. }
      exists (rnd (rnd d * v (S i))). split; [rewrite val_mul, Vd, V3; cbn [xmul]; apply rx_small; lra|]. pose proof (rnd_K K R2 _ _ Bp) as Ep.
      assert (E1 : Rabs ((rnd d - d) * v (S i)) <= 1001 / 1000 * (u * K)).
      { rewrite Rabs_mult. apply Rle_trans with ((u * (2 * M) + u * M / 1000) * V); [apply Rmult_le_compat; auto; apply Rabs_pos|].
        unfold K. assert (0 < u * M * V) by (apply Rmult_lt_0_compat; lra). lra. }
      replace (rnd (rnd d * v (S i)) - d * v (S i)) with ((rnd (rnd d * v (S i)) - rnd d * v (S i)) + (rnd d - d) * v (S i)) by ring.
      eapply Rle_trans; [apply Rabs_triang|]. replace (u * (1001 / 1000 * K)) with (1001 / 1000 * (u * K)) in Ep by ring. lra.
  - destruct (length rows) as [|n] eqn:E; [apply late_fin; constructor|]. unfold tab. cbn [seq map]. apply late_nan. apply late_fin.
    apply Forall_forall. intros y I. apply in_map_iff in I as (i & <- & I). apply in_seq in I. unfold from, fromx. destruct (Nat.ltb_spec i 1); [lia|].
    exists (g i). split; [reflexivity|]. apply Gi. lia.
Qed.
Theorem force_tracks : forall fl w, (1 <= w)%nat -> (100 * Z.of_nat w <= 2 ^ 53)%Z ->
  exists out, compute (Fi (Z.of_nat w)) fl rows = Ok out /\
    Forall2 (within (part (INR w + 2) (2 * M * V))) out (tab (length rows) (gaps fl 0 (1 + warm fl w) (ema w (fun i => delta c i * v i) 1))).
Proof.
  intros fl w W1 W2. destruct force_terms as [N L]. destruct (big_bounds K HMV) as (R1 & R2 & R3 & R4 & _).
  assert (UK : 0 < u * K <= K / 1000000) by (unfold u; lra).
  destruct (near_ema (21 / 10 * (u * K)) K (Z.of_nat w) fl _ _ ltac:(lia) W2 ltac:(lra) ltac:(lra) N L) as (x & y & E1 & E2 & E3 & _).
  rewrite ema_tab in E2 by auto. apply Ok_inj in E2. subst y.
  cbn [compute]. unfold force_index. fold col. rewrite E1. cbn [bind]. eexists. split; [reflexivity|]. apply near_within.
  rewrite <- check_from by (reflexivity || lia). apply near_fill; [|lia|].
  - apply part_pos; [exact R1|]. pose proof (pos_INR w). lra.
  - eapply near_mono2; [|exact E3]. unfold ebound, part. rewrite <- INR_IZR_INZ. fold K. change (IZR (2 ^ 50)) with 1125899906842624.
    assert (W3 : 100 * INR w <= 9007199254740992) by (change 9007199254740992 with (IZR (2 ^ 53)); rewrite INR_IZR_INZ, <- mult_IZR; apply IZR_le; lia).
    assert (1 <= INR w) by (apply (le_INR 1); lia).
    replace ((INR w + 1) * (K + 21 / 10 * (u * K)) / 1125899906842624 + 21 / 10 * (u * K)) with (8 * (INR w + 1) * (u * K) + 168 / 10 * ((INR w + 1) * u) * (u * K) + 21 / 10 * (u * K)) by (unfold u; field).
    replace ((INR w + 2) * (K / 1125899906842624)) with (8 * (INR w + 2) * (u * K)) by (unfold u; field).
    assert ((INR w + 1) * u <= / 40) by (unfold u; lra). nra.
Qed.
End Force.
