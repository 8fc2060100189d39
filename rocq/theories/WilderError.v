(** * WilderError: the recursive average true range in binary64 stays close to the exact one. *)
From Flocq Require Import Core PrimFloat.
From Coq Require Import Reals Lra Floats.
From Verif Require Import Lists Arith FloatArith FloatReal Order FloatOrder Api Align Causal Rows Running FloatPct EmaError FloatEma FloatTrack SpecNum Tab Averages Bands Stuck RoundedBands SpecTracking Tracking RunningError SumError.
Local Open Scope R_scope.
#[local] Arguments eta : simpl never.
#[local] Arguments u : simpl never.

(** ** the true range is correctly rounded *)
Lemma rnd_max : forall a b, Rmax (rnd a) (rnd b) = rnd (Rmax a b).
Proof.
  intros a b. destruct (Rle_dec a b) as [H|H].
  - rewrite (Rmax_right a b H). apply Rmax_right. now apply rnd_le.
  - rewrite (Rmax_left a b) by lra. apply Rmax_left. apply rnd_le. lra.
Qed.
Lemma rnd_zero : rnd 0 = 0.
Proof. apply round_0. apply valid_rnd_N. Qed.
Lemma rnd_abs : forall r, Rabs (rnd r) = rnd (Rabs r).
Proof.
  intros r. destruct (Rle_dec 0 r) as [H|H].
  - rewrite (Rabs_pos_eq r H). apply Rabs_pos_eq. rewrite <- rnd_zero. now apply rnd_le.
  - rewrite (Rabs_left r) by lra. rewrite rnd_opp. apply Rabs_left1. rewrite <- rnd_zero. apply rnd_le. lra.
Qed.
Lemma val_max2 : forall x y a b, val x = Fin a -> val y = Fin b -> val (fmax2 x y) = Fin (Rmax a b).
Proof.
  intros x y a b Vx Vy. unfold fmax2. rewrite val_ltb, Vx, Vy. cbn [xltb]. destruct (Rlt_dec a b); [rewrite Rmax_right by lra|rewrite Rmax_left by lra]; auto.
Qed.
Lemma val_diff : forall x y a b, val x = Fin a -> val y = Fin b -> Rabs (a - b) <= bpow radix2 1020 -> val (fsub x y) = Fin (rnd (a - b)).
Proof. intros x y a b Vx Vy B. rewrite val_sub, Vx, Vy. unfold xsub. cbn [xadd xopp]. now apply rx_small. Qed.

Section Tr.
Variables (rows : list (bar float)) (h l c : nat -> R) (M : R).
Hypothesis HM : ordinary M.
Hypothesis Hr : ranges rows h l M.
Hypothesis Hc : closes rows c M.
Definition tr_col : list float := true_range (map b_high rows) (map b_low rows) (shift 1 (map b_close rows)).
Lemma len_tr : length tr_col = length rows.
Proof. unfold tr_col, true_range, ssub. rewrite length_map3, !map_length, !length_map2, !map_length, len_shift1, !map_length. lia. Qed.
Lemma tr_val : forall i, (i < length rows)%nat -> val (nth i tr_col fnan) = Fin (rnd (trange h l c i)) /\ Rabs (trange h l c i) <= 2 * M.
Proof.
  intros i Hi. destruct (big_bounds M HM) as (P & M1 & M8 & M9 & _).
  destruct (nth_error rows i) as [b|] eqn:E; [|apply nth_error_None in E; lia]. destruct (Hr i b E) as [[Vh Bh] [Vl Bl]].
  assert (Nh : nth i (map b_high rows) fnan = b_high b) by (apply nth_error_nth; now apply map_nth_error).
  assert (Nl : nth i (map b_low rows) fnan = b_low b) by (apply nth_error_nth; now apply map_nth_error).
  assert (Lc : length (shift 1 (map b_close rows)) = length rows) by now rewrite len_shift1, map_length.
  unfold tr_col, true_range, ssub.
  rewrite (nth_map3_lt _ _ _ _ _ fnan fnan fnan fnan) by (rewrite ?map_length, length_map2, ?Lc, ?map_length, ?len_shift1, ?map_length; lia).
  rewrite !(nth_map_lt fabs) with (d' := fnan) by (rewrite length_map2, Lc, map_length; lia).
  rewrite !(nth_map2_lt fsub _ _ _ fnan fnan fnan) by (rewrite ?Lc, ?map_length; lia). rewrite Nh, Nl.
  assert (V1 : val (fsub (b_high b) (b_low b)) = Fin (rnd (h i - l i))).
  { apply val_diff; auto. apply abs_le_both in Bh, Bl. apply Rle_trans with (2 * M); [apply Rabs_le; lra|lra]. }
  apply abs_le_both in Bh, Bl. unfold nanmax, obs.
  destruct i as [|i].
  - assert (Nc : nth 0 (shift 1 (map b_close rows)) fnan = fnan) by (unfold shift; apply nth_shift_fill_lt; rewrite ?map_length; lia). rewrite Nc.
    assert (N1 : fisnan (fsub (b_high b) (b_low b)) = false) by (rewrite val_nan, V1; reflexivity).
    assert (N2 : forall x, fisnan (fabs (fsub x fnan)) = true) by (intros x; rewrite val_nan, val_abs, val_sub, val_fnan; destruct (val x); reflexivity).
    cbn [filter]. rewrite N1, !N2. cbn [negb fold_left]. split; [exact V1|]. cbn [trange]. apply Rabs_le. lra.
  - rewrite nth_shift1 by (rewrite map_length; lia). replace (S i - 1)%nat with i by lia.
    destruct (closes_nth rows c M i Hc ltac:(rewrite map_length; lia)) as [Vc Bc]. apply abs_le_both in Bc. set (p := nth i (map b_close rows) fnan) in *.
    assert (V2 : val (fabs (fsub (b_high b) p)) = Fin (rnd (Rabs (h (S i) - c i)))).
    { rewrite val_abs, (val_diff _ _ _ _ Vh Vc) by (apply Rle_trans with (2 * M); [apply Rabs_le; lra|lra]). cbn [xabs]. now rewrite rnd_abs. }
    assert (V3 : val (fabs (fsub (b_low b) p)) = Fin (rnd (Rabs (l (S i) - c i)))).
    { rewrite val_abs, (val_diff _ _ _ _ Vl Vc) by (apply Rle_trans with (2 * M); [apply Rabs_le; lra|lra]). cbn [xabs]. now rewrite rnd_abs. }
    cbn [filter]. rewrite (val_nan (fsub (b_high b) (b_low b))), V1, (val_nan (fabs (fsub (b_high b) p))), V2, (val_nan (fabs (fsub (b_low b) p))), V3.
    cbn [xisnan negb fold_left]. split.
    + rewrite (val_max2 _ _ _ _ (val_max2 _ _ _ _ V1 V2) V3). rewrite !rnd_max. cbn [trange]. now rewrite Rmax_assoc.
    + cbn [trange].
      assert (A1 : Rabs (h (S i) - c i) <= 2 * M) by (apply Rabs_le; lra). assert (A2 : Rabs (l (S i) - c i) <= 2 * M) by (apply Rabs_le; lra).
      pose proof (Rabs_pos (h (S i) - c i)). rewrite Rabs_pos_eq; [|eapply Rle_trans; [|apply Rmax_r]; eapply Rle_trans; [|apply Rmax_l]; lra].
      repeat apply Rmax_lub; auto. lra.
Qed.
End Tr.

(** ** Wilder's recursion *)
Section Wilder.
Variables (w : nat) (t : nat -> R) (B : R).
Hypothesis Hw : (1 <= w)%nat.
Hypothesis Ww : (Z.of_nat w <= 2 ^ 25)%Z.
Hypothesis B1 : bpow radix2 (-900) <= B.
Hypothesis B2 : B <= bpow radix2 991.
Let E : R := 5 * INR w * (u * B).
Lemma wB : 1 <= INR w <= 33554432.
Proof.
  split; [apply (le_INR 1); lia|]. change 33554432 with (IZR (2 ^ 25)). rewrite INR_IZR_INZ. apply IZR_le. lia.
Qed.
Lemma Bw : 4 * (INR w * B) <= bpow radix2 1020 /\ 0 < B /\ E <= B / 1000000 /\ 0 < u * B.
Proof.
  destruct wB as [W1 W2]. pose proof (bpow_gt_0 radix2 (-900)) as P. assert (BP : 0 < B) by lra. assert (UB : 0 < u * B) by (unfold u; lra). repeat split; auto.
  - apply Rle_trans with (4 * (IZR (2 ^ 25) * bpow radix2 991)).
    + change (IZR (2 ^ 25)) with 33554432. apply Rmult_le_compat_l; [lra|]. apply Rmult_le_compat; lra.
    + change (IZR (2 ^ 25)) with (bpow radix2 25). change 4 with (bpow radix2 2). rewrite <- !bpow_plus. apply bpow_le. lia.
  - unfold E. apply Rle_trans with (5 * 33554432 * (u * B)); [apply Rmult_le_compat_r; lra|]. unfold u. lra.
Qed.
Lemma val_w : val (fofnat w) = Fin (INR w) /\ val (fsub (fofnat w) (fofZ 1)) = Fin (INR w - 1).
Proof.
  assert (V : val (fofnat w) = Fin (INR w)) by (unfold fofnat; rewrite val_small by lia; now rewrite INR_IZR_INZ). split; auto.
  rewrite val_sub, V, (val_small 1) by lia. unfold xsub. cbn [xadd xopp].
  assert (Q : INR w + - (1) = IZR (Z.of_nat w - 1)) by (rewrite minus_IZR, <- INR_IZR_INZ; ring). rewrite Q.
  pose proof (rx_id (fofZ (Z.of_nat w - 1))) as I. rewrite val_small in I by lia. rewrite I, minus_IZR, <- INR_IZR_INZ. reflexivity.
Qed.
Lemma wilder_step : forall prev x P X T, val prev = Fin P -> Rabs (P - X) <= E -> Rabs X <= B -> val x = Fin (rnd T) -> Rabs T <= B ->
  exists q, val (fdiv (fadd (fmul prev (fsub (fofnat w) (fofZ 1))) x) (fofnat w)) = Fin q /\ Rabs (q - (X * (INR w - 1) + T) / INR w) <= E.
Proof.
  intros prev x P X T VP EP BX Vx BT. destruct wB as [W1 W2]. destruct Bw as (Big & BP & ES & UB). destruct val_w as [Vw Vw1].
  set (W := INR w) in *.
  assert (BP' : Rabs P <= 1001 / 1000 * B) by (apply abs_le_both in EP, BX; apply Rabs_le; lra).
  assert (Rp : Rabs (P * (W - 1)) <= 1001 / 1000 * B * W).
  { rewrite Rabs_mult, (Rabs_pos_eq (W - 1)) by lra. apply Rmult_le_compat; try lra. apply Rabs_pos. }
  assert (WB : B <= W * B) by nra.
  assert (E1 : Rabs (rnd (P * (W - 1)) - P * (W - 1)) <= 1003 / 1000 * (u * (W * B))).
  { pose proof (rnd_K B B1 _ _ Rp) as Q. assert (u * B <= u * (W * B)) by (apply Rmult_le_compat_l; [unfold u|]; lra).
    replace (u * (1001 / 1000 * B * W)) with (1001 / 1000 * (u * (W * B))) in Q by field. lra. }
  assert (E2 : Rabs (rnd T - T) <= 1001 / 1000 * (u * B)) by (pose proof (rnd_K B B1 _ _ BT); lra).
  assert (UW : 0 < u * (W * B) <= W * B / 1000000) by (unfold u; lra). assert (UB2 : u * B <= B / 1000000) by (unfold u; lra).
  assert (V1 : val (fmul prev (fsub (fofnat w) (fofZ 1))) = Fin (rnd (P * (W - 1)))).
  { rewrite val_mul, VP, Vw1. cbn [xmul]. apply rx_small. nra. }
  set (p := rnd (P * (W - 1))) in *. set (T' := rnd T) in *.
  assert (BS : Rabs (p + T') <= 1002 / 1000 * (W * B)).
  { apply abs_le_both in E1, E2, BT, BP'.
    assert (P * (W - 1) <= 1001 / 1000 * B * (W - 1) /\ - (1001 / 1000 * B * (W - 1)) <= P * (W - 1)) by (split; nra).
    replace (1001 / 1000 * B * (W - 1)) with (1001 / 1000 * (W * B) - 1001 / 1000 * B) in * by field. apply Rabs_le. lra. }
  assert (V2 : val (fadd (fmul prev (fsub (fofnat w) (fofZ 1))) x) = Fin (rnd (p + T'))).
  { rewrite val_add, V1, Vx. cbn [xadd]. apply rx_small. lra. }
  assert (E3 : Rabs (rnd (p + T') - (p + T')) <= 1004 / 1000 * (u * (W * B))).
  { pose proof (rnd_K B B1 _ _ BS) as Q. assert (u * B <= u * (W * B)) by (apply Rmult_le_compat_l; [unfold u|]; lra).
    replace (u * (1002 / 1000 * (W * B))) with (1002 / 1000 * (u * (W * B))) in Q by field. lra. }
  set (s := rnd (p + T')) in *.
  assert (I : 0 < / W) by (apply Rinv_0_lt_compat; lra). assert (IW : W * / W = 1) by (apply Rinv_r; lra).
  assert (BD : Rabs (s / W) <= 1003 / 1000 * B).
  { unfold Rdiv. rewrite Rabs_mult, (Rabs_pos_eq (/ W)) by lra. apply Rmult_le_reg_r with W; [lra|]. rewrite Rmult_assoc, (Rmult_comm (/ W)), IW.
    apply abs_le_both in E3, BS. rewrite Rmult_1_r. apply Rabs_le. split; nra. }
  assert (E4 : Rabs (rnd (s / W) - s / W) <= 1004 / 1000 * (u * B)).
  { pose proof (rnd_K B B1 _ _ BD) as Q. replace (u * (1003 / 1000 * B)) with (1003 / 1000 * (u * B)) in Q by field. lra. }
  exists (rnd (s / W)). split.
  - rewrite val_div, V2, Vw by (rewrite Vw; intros Q; injection Q; lra). cbn [xdiv]. destruct Req_EM_T; [lra|]. apply rx_small. nra.
  - assert (E5 : Rabs (s - (X * (W - 1) + T)) <= E * (W - 1) + 3009 / 1000 * (u * (W * B))).
    { assert (Rabs ((P - X) * (W - 1)) <= E * (W - 1)) by (rewrite Rabs_mult, (Rabs_pos_eq (W - 1)) by lra; apply Rmult_le_compat_r; lra).
      replace (s - (X * (W - 1) + T)) with ((s - (p + T')) + (p - P * (W - 1)) + (T' - T) + (P - X) * (W - 1)) by ring.
      assert (u * B <= u * (W * B)) by (apply Rmult_le_compat_l; [unfold u|]; lra).
      pose proof (Rabs_triang (s - (p + T') + (p - P * (W - 1)) + (T' - T)) ((P - X) * (W - 1))).
      pose proof (Rabs_triang (s - (p + T') + (p - P * (W - 1))) (T' - T)). pose proof (Rabs_triang (s - (p + T')) (p - P * (W - 1))). lra. }
    assert (E6 : Rabs (s / W - (X * (W - 1) + T) / W) <= E - 5 * (u * B) + 3009 / 1000 * (u * B)).
    { replace (s / W - (X * (W - 1) + T) / W) with ((s - (X * (W - 1) + T)) * / W) by (field; lra). rewrite Rabs_mult, (Rabs_pos_eq (/ W)) by lra.
      apply Rmult_le_reg_r with W; [lra|]. rewrite Rmult_assoc, (Rmult_comm (/ W)), IW, Rmult_1_r. eapply Rle_trans; [exact E5|]. unfold E. fold W. nra. }
    replace (rnd (s / W) - (X * (W - 1) + T) / W) with ((rnd (s / W) - s / W) + (s / W - (X * (W - 1) + T) / W)) by ring.
    eapply Rle_trans; [apply Rabs_triang|]. lra.
Qed.
Hypothesis Ht : forall i, Rabs (t i) <= B.
Lemma atr_size : forall j, Rabs (atr_at w t j) <= B.
Proof. intros j. destruct (atr_at_bounds w t j (- B) B Hw) as [A1 A2]; [intros i _; specialize (Ht i); apply abs_le_both in Ht; lra|]. apply Rabs_le. lra. Qed.
Lemma wilder_go : forall s prev j P, val prev = Fin P -> Rabs (P - atr_at w t j) <= E ->
  (forall k, (k < length s)%nat -> val (nth k s fnan) = Fin (rnd (t (w + j + k)%nat))) ->
  length (atr_go (fofnat w) prev s) = length s /\
  forall k, (k < length s)%nat -> near E (nth k (atr_go (fofnat w) prev s) fnan) (Fin (atr_at w t (S (j + k)))).
Proof.
  induction s as [|x s IH]; intros prev j P VP EP H; [split; [reflexivity|cbn; lia]|].
  cbn [atr_go]. cbv zeta. pose proof (H 0%nat ltac:(cbn; lia)) as Vx. cbn [nth] in Vx.
  destruct (wilder_step prev x P (atr_at w t j) (t (w + j + 0)%nat) VP EP (atr_size j) Vx (Ht _)) as (q & Vq & Eq).
  assert (Q : Rabs (q - atr_at w t (S j)) <= E). { cbn [atr_at]. replace (w - 1 + S j)%nat with (w + j + 0)%nat by lia. exact Eq. }
  destruct (IH _ (S j) q Vq Q) as [L N].
  { intros k Hk. replace (w + S j + k)%nat with (w + j + S k)%nat by lia. apply (H (S k)). cbn. lia. }
  split; [cbn [length]; now rewrite L|]. intros [|k] Hk; cbn [nth].
  - rewrite Nat.add_0_r. exists q. split; auto.
  - replace (S (j + S k)) with (S (S j + k)) by lia. apply N. cbn in Hk. lia.
Qed.
Lemma wilder_first : forall s, length s = w -> (forall k, (k < w)%nat -> val (nth k s fnan) = Fin (rnd (t k))) ->
  exists q, val (smean s) = Fin q /\ Rabs (q - atr_at w t 0) <= E.
Proof.
  intros s L H. destruct wB as [W1 W2]. destruct Bw as (Big & BP & ES & UB). destruct val_w as [Vw _].
  assert (Hp : Forall plain s) by (apply plain_nth; intros k Hk; exists (rnd (t k)); apply H; lia).
  assert (O : obs s = s) by (apply keep_all; intros x I; rewrite Forall_forall in Hp; destruct (Hp x I) as (r & V); now rewrite val_nan, V).
  unfold smean. rewrite O, plain_ssum by auto. destruct s as [|x s]; [cbn in L; lia|]. set (l := x :: s) in *. rewrite L.
  set (W := INR w) in *.
  destruct (fsum_near (101 / 100 * (W * B)) l t (fun _ => 1001 / 1000 * (u * B))) as (q & V & Q); auto.
  - nra.
  - assert (0 < W * B) by nra. lra.
  - intros k Hk. exists (rnd (t k)). split; [apply H; lia|]. pose proof (rnd_K B B1 _ _ (Ht k)). lra.
  - rewrite L. apply Rle_trans with (rsum (fun _ => 101 / 100 * B) 0 w); [|rewrite rsum_const; fold W; lra].
    apply rsum_le. intros k _. specialize (Ht k). unfold u. lra.
  - rewrite L. fold W. unfold u. lra.
  - rewrite L, rsum_const in Q. fold W in Q.
    assert (I : 0 < / W) by (apply Rinv_0_lt_compat; lra). assert (IW : W * / W = 1) by (apply Rinv_r; lra).
    assert (Q1 : Rabs (q / W - atr_at w t 0) <= (11 / 10 * (101 / 100) * W + 1001 / 1000) * (u * B)).
    { cbn [atr_at]. fold W. replace (q / W - rsum t 0 w / W) with ((q - rsum t 0 w) * / W) by (field; lra). rewrite Rabs_mult, (Rabs_pos_eq (/ W)) by lra.
      apply Rmult_le_reg_r with W; [lra|]. rewrite Rmult_assoc, (Rmult_comm (/ W)), IW, Rmult_1_r. eapply Rle_trans; [exact Q|]. nra. }
    assert (S1 : (11 / 10 * (101 / 100) * W + 1001 / 1000) * (u * B) <= B / 1000000).
    { apply Rle_trans with (2 := ES). unfold E. fold W. nra. }
    pose proof (atr_size 0) as A. assert (BD : Rabs (q / W) <= 1001 / 1000 * B) by (apply abs_le_both in Q1, A; apply Rabs_le; lra).
    exists (rnd (q / W)). split.
    + rewrite val_div, V, Vw by (rewrite Vw; intros Z; injection Z; lra). cbn [xdiv]. destruct Req_EM_T; [lra|]. apply rx_small. nra.
    + pose proof (rnd_K B B1 _ _ BD) as R. replace (u * (1001 / 1000 * B)) with (1001 / 1000 * (u * B)) in R by field.
      replace (rnd (q / W) - atr_at w t 0) with ((rnd (q / W) - q / W) + (q / W - atr_at w t 0)) by ring. eapply Rle_trans; [apply Rabs_triang|].
      unfold E. fold W. nra.
Qed.
End Wilder.
Lemma atr_at_ext : forall w f g j, (forall i, (i <= w - 1 + j)%nat -> f i = g i) -> (1 <= w)%nat -> atr_at w f j = atr_at w g j.
Proof.
  intros w f g j H Hw. induction j; cbn [atr_at].
  - f_equal. apply rsum_ext. intros i Hi. apply H. lia.
  - rewrite IHj by (intros; apply H; lia). now rewrite (H (w - 1 + S j)%nat) by lia.
Qed.

(** ** published series *)
Lemma within_tab : forall e (out : list float) n g, length out = n -> (forall i, (i < n)%nat -> near e (nth i out fnan) (g i)) -> Forall2 (near e) out (tab n g).
Proof.
  intros e out n g L H. subst n. unfold tab. assert (G : forall k (o : list float), (forall i, (i < length o)%nat -> near e (nth i o fnan) (g (k + i)%nat)) -> Forall2 (near e) o (map g (seq k (length o)))).
  { intros k o. revert k. induction o as [|x o IH]; intros k Ho; [constructor|]. cbn [length seq map]. constructor.
    - pose proof (Ho 0%nat ltac:(cbn; lia)) as Z. rewrite Nat.add_0_r in Z. exact Z.
    - apply IH. intros i Hi. replace (S k + i)%nat with (k + S i)%nat by lia. apply (Ho (S i)). cbn. lia. }
  now apply (G 0%nat).
Qed.
Theorem wma_tracks : forall fillna w rows c M, (1 <= w)%nat -> (Z.of_nat w <= 2 ^ 25)%Z -> closes rows c M -> ordinary M ->
  exists out, compute (Wma (Z.of_nat w)) fillna rows = Ok out /\
    Forall2 (within (part ((INR w + 2) / 6) M)) out (tab (length rows) (gaps fillna 0 (w - 1) (wma_value w c))).
Proof.
  intros fl w rows c M W1 W2 Hc HM. destruct (wma_column w (map b_close rows) c M W1 W2 HM) as (r & R & L & N).
  { intros i Hi. now apply closes_nth. }
  rewrite map_length in *. cbn [compute]. unfold wma. rewrite R. cbn [bind]. eexists. split; [reflexivity|].
  apply near_within. rewrite <- check_from by (reflexivity || lia). apply near_fill; [|lia|now apply within_tab].
  destruct (big_bounds M HM) as (P & _). apply part_pos; auto. pose proof (pos_INR w). lra.
Qed.
Section Atr.
Variables (rows : list (bar float)) (h l c : nat -> R) (M : R).
Hypothesis HM : ordinary M.
Hypothesis Hr : ranges rows h l M.
Hypothesis Hc : closes rows c M.
Lemma atr_near : forall fl w, (1 <= w)%nat -> (Z.of_nat w <= 2 ^ 25)%Z -> (w <= length rows)%nat ->
  exists out, average_true_range (map b_high rows) (map b_low rows) (map b_close rows) (Z.of_nat w) fl = Ok out /\ length out = length rows /\
    forall i, (i < length rows)%nat -> near (part (5 / 4 * INR w) M) (nth i out fnan) (Fin (atr_value w (trange h l c) i)).
Proof.
  intros fl w W1 W2 Wn. destruct (big_bounds M HM) as (P & M1 & M8 & M9 & _).
  set (tr := trange h l c). set (n := length rows) in *. set (t := fun i => if (i <? n)%nat then tr i else 0). set (B := 2 * M).
  assert (B1 : bpow radix2 (-900) <= B) by (unfold B; lra).
  assert (B2 : B <= bpow radix2 991).
  { unfold B. destruct HM as [_ H2]. rewrite pow990 in H2. change 991%Z with (1 + 990)%Z. rewrite bpow_plus. change (bpow radix2 1) with 2. lra. }
  assert (V : forall i, (i < n)%nat -> val (nth i (tr_col rows) fnan) = Fin (rnd (t i))).
  { intros i Hi. unfold t. rewrite (proj2 (Nat.ltb_lt i n) Hi). apply (tr_val rows h l c M); auto. }
  assert (Ht : forall i, Rabs (t i) <= B).
  { intros i. unfold t. destruct (Nat.ltb_spec i n) as [Hi|]; [apply (tr_val rows h l c M); auto|]. rewrite Rabs_R0. unfold B. lra. }
  assert (EE : part (5 / 4 * INR w) M = 5 * INR w * (u * B)) by (unfold part, u, B; change (IZR (2 ^ 50)) with 1125899906842624; field).
  assert (Ex : forall j, (w - 1 + j < n)%nat -> atr_at w t j = atr_at w tr j).
  { intros j Hj. apply atr_at_ext; auto. intros i Hi. unfold t. now rewrite (proj2 (Nat.ltb_lt i n)) by lia. }
  assert (Lt : length (tr_col rows) = n) by apply len_tr.
  destruct (wilder_first w t B W1 W2 B1 B2 Ht (firstn w (tr_col rows))) as (q & Vq & Eq).
  { rewrite firstn_length. lia. }
  { intros k Hk. rewrite nth_firstn_lt by lia. apply V. lia. }
  destruct (wilder_go w t B W1 W2 B1 B2 Ht (skipn w (tr_col rows)) (smean (firstn w (tr_col rows))) 0 q Vq Eq) as [Lg Ng].
  { intros k Hk. rewrite skipn_length in Hk. rewrite nth_skipn'. replace (w + 0 + k)%nat with (w + k)%nat by lia. apply V. lia. }
  unfold average_true_range. destruct (Z.leb_spec (Z.of_nat w) 0); [lia|]. rewrite Nat2Z.id, map_length. fold n. destruct (Nat.ltb_spec n w); [lia|].
  fold (tr_col rows). cbv zeta. set (out := repeat (fofZ 0) (w - 1) ++ _ :: _).
  assert (L : length out = n) by (unfold out; rewrite app_length, repeat_length; cbn [length]; rewrite Lg, skipn_length; lia).
  assert (N : forall i, (i < n)%nat -> near (part (5 / 4 * INR w) M) (nth i out fnan) (Fin (atr_value w tr i))).
  { intros i Hi. rewrite EE. unfold out, atr_value. destruct (Nat.ltb_spec i (w - 1)).
    - rewrite app_nth1 by (rewrite repeat_length; lia). rewrite nth_repeat_lt by lia. exists 0. split; [apply (val_small 0); lia|]. rewrite Rminus_0_r, Rabs_R0.
      rewrite <- EE. apply part_pos; auto. pose proof (pos_INR w). lra.
    - rewrite app_nth2 by (rewrite repeat_length; lia). rewrite repeat_length. destruct (i - (w - 1))%nat as [|k] eqn:K; cbn [nth].
      + rewrite <- Ex by lia. now exists q.
      + rewrite <- Ex by lia. apply (Ng k). rewrite skipn_length. lia. }
  exists out. split; [|split; auto]. f_equal. apply (kept fl 0 1 out (fun _ => part (5 / 4 * INR w) M) (atr_value w tr)).
  intros i Hi. rewrite L in Hi. replace (warm fl 1) with 0%nat by (destruct fl; reflexivity). now apply N.
Qed.
Theorem atr_tracks : forall fl w, (1 <= w)%nat -> (Z.of_nat w <= 2 ^ 25)%Z -> (w <= length rows)%nat ->
  exists out, compute (Atr (Z.of_nat w)) fl rows = Ok out /\
    Forall2 (within (part (5 / 4 * INR w) M)) out (tab (length rows) (from 0 (atr_value w (trange h l c)))).
Proof.
  intros fl w W1 W2 Wn. destruct (atr_near fl w W1 W2 Wn) as (out & E & L & N). exists out. split; [exact E|]. apply near_within. now apply within_tab.
Qed.
End Atr.
