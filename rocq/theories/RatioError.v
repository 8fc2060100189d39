(** * RatioError: percentages of two prices in binary64 (C103). *)
From Flocq Require Import Core PrimFloat.
From Coq Require Import Reals Lra Floats.
From Verif Require Import Lists Arith FloatArith FloatReal Order FloatOrder Api Align Causal Rows Running Fill FloatPct EmaError FloatEma FloatTrack SpecNum Tab Averages Oscillators Rounded Stuck SpecTracking SpecRatio FloatExact Tracking RunningError WilderError RsiError.
Local Open Scope R_scope.
#[local] Arguments eta : simpl never.
#[local] Arguments u : simpl never.

(** ** one quotient *)
Lemma tiny_eta : forall B, bpow radix2 (-900) <= B -> eta <= u * B / 1000 /\ bpow radix2 (-1060) / B <= bpow radix2 (-160) /\ 0 < bpow radix2 (-1060) / B.
Proof.
  intros B H. pose proof (bpow_gt_0 radix2 (-900)). pose proof (bpow_gt_0 radix2 (-1060)). split; [now apply etaM|]. split; [|apply Rdiv_lt_0_compat; lra]. apply div_bound; [lra|].
  change (-1060)%Z with (-160 + -900)%Z. rewrite bpow_plus. apply Rmult_le_compat_l; [apply bpow_ge_0|exact H].
Qed.
Lemma quot_cell : forall p d P D A B k, val p = Fin P -> val d = Fin D -> 0 <= k <= 4 -> bpow radix2 (-900) <= Rabs B -> Rabs (A / B) <= bpow radix2 1000 ->
  Rabs (P - A) <= k * (u * Rabs A) + bpow radix2 (-1060) -> Rabs (D - B) <= u * Rabs B + eta ->
  exists q, val (fdiv p d) = Fin q /\ Rabs (q - A / B) <= (k + 21 / 10) * (u * Rabs (A / B)) + 12 / 10 * bpow radix2 (-160).
Proof.
  intros p d P D A B k Vp Vd K HB HX EP ED. set (b := Rabs B) in *. destruct (tiny_eta b HB) as (T1 & T2 & T3). pose proof (bpow_gt_0 radix2 (-900)) as Q0.
  assert (b0 : 0 < b) by lra. assert (U0 : 0 < u) by (unfold u; lra). assert (US : u < / 1000000) by (unfold u; lra).
  assert (Ub : 0 < u * b <= b / 1000000) by (split; [apply Rmult_lt_0_compat; lra|]; assert (u * b <= / 1000000 * b) by (apply Rmult_le_compat_r; lra); lra).
  assert (Bn : B <> 0) by (intros E; unfold b in b0; rewrite E, Rabs_R0 in b0; lra).
  set (X := A / B) in *. assert (EA : Rabs A = Rabs X * b) by (unfold X, b; rewrite <- Rabs_mult; f_equal; field; auto).
  set (x := Rabs X) in *. assert (x0 : 0 <= x) by apply Rabs_pos.
  assert (Db : 999 / 1000 * b <= Rabs D).
  { unfold b in *. pose proof (Rabs_triang_inv B D). rewrite Rabs_minus_sym in ED. lra. }
  assert (Dn : D <> 0) by (intros E; rewrite E, Rabs_R0 in Db; lra).
  set (t := bpow radix2 (-1060) / b) in *. assert (Et : bpow radix2 (-1060) = t * b) by (unfold t; field; lra).
  (* P/D against A/B *)
  assert (EQ : Rabs (P / D - X) <= 1002 / 1000 * ((k + 1001 / 1000) * (u * x) + t)).
  { assert (Num : Rabs (P - A + X * (B - D)) <= ((k + 1001 / 1000) * (u * x) + t) * b).
    { eapply Rle_trans; [apply Rabs_triang|]. rewrite Rabs_mult. fold x. rewrite (Rabs_minus_sym B D).
      assert (x * Rabs (D - B) <= x * (1001 / 1000 * (u * b))) by (apply Rmult_le_compat_l; lra). rewrite EA, Et in EP. lra. }
    replace (P / D - X) with ((P - A + X * (B - D)) / D) by (unfold X; field; auto).
    unfold Rdiv at 1. rewrite Rabs_mult, Rabs_inv. assert (Dp : 0 < Rabs D) by lra.
    apply Rmult_le_reg_r with (Rabs D); auto. rewrite Rmult_assoc, Rinv_l by lra. rewrite Rmult_1_r. eapply Rle_trans; [exact Num|].
    set (z := (k + 1001 / 1000) * (u * x) + t). assert (z0 : 0 <= z) by (unfold z; assert (0 <= u * x) by (apply Rmult_le_pos; lra); assert (0 <= (k + 1001 / 1000) * (u * x)) by (apply Rmult_le_pos; lra); lra).
    assert (z * (999 / 1000 * b) <= z * Rabs D) by (apply Rmult_le_compat_l; lra). assert (0 <= z * b) by (apply Rmult_le_pos; lra). lra. }
  assert (Ux : 0 <= u * x <= x / 1000000) by (split; [apply Rmult_le_pos; lra|]; assert (u * x <= / 1000000 * x) by (apply Rmult_le_compat_r; lra); lra).
  assert (Kx : 0 <= k * (u * x) <= 4 * (u * x)) by (split; [apply Rmult_le_pos; lra|apply Rmult_le_compat_r; lra]).
  assert (SZ : Rabs (P / D) <= x * 10001 / 10000 + 2 * t).
  { replace (P / D) with ((P / D - X) + X) by ring. eapply Rle_trans; [apply Rabs_triang|]. fold x. lra. }
  assert (T4 : bpow radix2 (-160) <= 1) by (apply (bpow_le radix2 (-160) 0); lia).
  assert (L1 : 1 <= bpow radix2 1000) by (apply (bpow_le radix2 0 1000); lia).
  assert (L2 : 8 * bpow radix2 1000 <= bpow radix2 1020) by (replace 8 with (bpow radix2 3) by (cbn; lra); rewrite <- bpow_plus; apply bpow_le; lia).
  exists (rnd (P / D)). split.
  - rewrite val_div, Vp, Vd by (rewrite Vd; intros E; injection E; auto). cbn [xdiv]. destruct Req_EM_T; [contradiction|]. apply rx_small. lra.
  - pose proof (rnd_err (P / D)) as R. assert (E1 : eta <= bpow radix2 (-160) / 100).
    { apply Rle_trans with (bpow radix2 (-167)); [apply bpow_le; lia|]. change (-167)%Z with (-160 + -7)%Z. rewrite bpow_plus. pose proof (bpow_gt_0 radix2 (-160)). change (bpow radix2 (-7)) with (/ 128). lra. }
    assert (u * Rabs (P / D) <= u * (x * 10001 / 10000 + 2 * t)) by (apply Rmult_le_compat_l; lra).
    assert (u * t <= / 1000000 * t) by (apply Rmult_le_compat_r; lra).
    replace (rnd (P / D) - X) with ((rnd (P / D) - P / D) + (P / D - X)) by ring. eapply Rle_trans; [apply Rabs_triang|]. lra.
Qed.
(** ** one product by 100 (or -100) *)
Lemma times_cell : forall p P A k e z, val p = Fin P -> (Z.abs z = 100)%Z -> 0 <= k <= 4 -> 0 <= e -> Rabs A <= bpow radix2 1000 -> e <= bpow radix2 (-150) ->
  Rabs (P - A) <= k * (u * Rabs A) + e ->
  exists q, val (fmul p (fofZ z)) = Fin q /\ val (fmul (fofZ z) p) = Fin q /\ Rabs (q - IZR z * A) <= (k + 101 / 100) * (u * Rabs (IZR z * A)) + 101 * e + eta.
Proof.
  intros p P A k e z Vp Hz K E0 HA He EP. set (a := Rabs A) in *. assert (a0 : 0 <= a) by apply Rabs_pos.
  assert (U0 : 0 < u) by (unfold u; lra). assert (US : u < / 1000000) by (unfold u; lra).
  assert (Ua : 0 <= u * a <= a / 1000000) by (split; [apply Rmult_le_pos; lra|]; assert (u * a <= / 1000000 * a) by (apply Rmult_le_compat_r; lra); lra).
  assert (Ka : 0 <= k * (u * a) <= 4 * (u * a)) by (split; [apply Rmult_le_pos; lra|apply Rmult_le_compat_r; lra]).
  assert (Z1 : Rabs (IZR z) = 100) by (rewrite <- abs_IZR, Hz; reflexivity).
  assert (SP : Rabs P <= a * 10001 / 10000 + e) by (replace P with ((P - A) + A) by ring; eapply Rle_trans; [apply Rabs_triang|]; fold a; lra).
  assert (T : Rabs (IZR z * A) = 100 * a) by (rewrite Rabs_mult, Z1; reflexivity). assert (T2 : Rabs (IZR z * P) = 100 * Rabs P) by (rewrite Rabs_mult, Z1; reflexivity).
  assert (L0 : bpow radix2 (-150) <= 1) by (apply (bpow_le radix2 (-150) 0); lia). assert (L1 : 1 <= bpow radix2 1000) by (apply (bpow_le radix2 0 1000); lia).
  assert (L2 : 1024 * bpow radix2 1000 <= bpow radix2 1020) by (replace 1024 with (bpow radix2 10) by (cbn; lra); rewrite <- bpow_plus; apply bpow_le; lia).
  assert (V : rx (Fin (IZR z * P)) = Fin (rnd (IZR z * P))) by (apply rx_small; lra).
  exists (rnd (IZR z * P)). split; [|split].
  - rewrite val_mul, Vp, (val_small z) by lia. cbn [xmul]. rewrite Rmult_comm. exact V.
  - rewrite val_mul, Vp, (val_small z) by lia. cbn [xmul]. exact V.
  - pose proof (rnd_err (IZR z * P)) as R. rewrite T2 in R. rewrite T.
    replace (rnd (IZR z * P) - IZR z * A) with ((rnd (IZR z * P) - IZR z * P) + IZR z * (P - A)) by ring. eapply Rle_trans; [apply Rabs_triang|].
    rewrite (Rabs_mult (IZR z)), Z1. assert (u * Rabs P <= u * (a * 10001 / 10000 + e)) by (apply Rmult_le_compat_l; lra). assert (u * e <= / 1000000 * e) by (apply Rmult_le_compat_r; lra). lra.
Qed.

(** ** rows *)
Lemma ok_inj : forall {B} (a b : B), Ok a = Ok b -> a = b. Proof. intros B a b E. now inversion E. Qed.
Lemma part_u : forall k M, part k M = k * (8 * (u * M)).
Proof. intros. unfold part, u. change (IZR (2 ^ 50)) with 1125899906842624. lra. Qed.
Lemma pow150 : / IZR (2 ^ 150) = bpow radix2 (-150). Proof. reflexivity. Qed.
Lemma kept_row : forall fl z (raw : list float) i q, (-1000 <= z <= 1000)%Z -> (i < length raw)%nat -> val (nth i raw fnan) = Fin q ->
  nth i (check_fillna fl (FillInt z) raw) fnan = nth i raw fnan.
Proof.
  intros fl z raw i q Hz Hi V. destruct fl; [|reflexivity]. apply check_keeps; auto. unfold ffinite. now rewrite val_nan, val_inf, V.
Qed.
Lemma check_length : forall fl z (raw : list float), length (check_fillna fl (FillInt z) raw) = length raw.
Proof. intros. apply len_check. Qed.
Lemma diff_cell : forall x y a b, val x = Fin a -> val y = Fin b -> Rabs a <= bpow radix2 990 -> Rabs b <= bpow radix2 990 ->
  exists q, val (fsub x y) = Fin q /\ Rabs (q - (a - b)) <= u * Rabs (a - b) + eta.
Proof.
  intros x y a b Vx Vy Ba Bb. exists (rnd (a - b)). split; [|apply rnd_err]. apply val_diff; auto. apply abs_le_both in Ba, Bb.
  assert (4 * bpow radix2 990 <= bpow radix2 1020) by (replace 4 with (bpow radix2 2) by (cbn; lra); rewrite <- bpow_plus; apply bpow_le; lia).
  pose proof (bpow_gt_0 radix2 990). apply Rabs_le. lra.
Qed.
Lemma eta_60 : eta <= bpow radix2 (-1060) / 1000 /\ 0 <= eta.
Proof.
  split; [|apply eta_pos]. unfold eta. change (-1075)%Z with (-1060 + -15)%Z. rewrite bpow_plus. pose proof (bpow_gt_0 radix2 (-1060)).
  change (bpow radix2 (-15)) with (/ 32768). lra.
Qed.
Lemma pow_150 : 150 * bpow radix2 (-160) <= bpow radix2 (-150) /\ 0 < bpow radix2 (-160) /\ eta <= bpow radix2 (-160).
Proof.
  split; [|split; [apply bpow_gt_0|apply bpow_le; lia]]. change (-150)%Z with (10 + -160)%Z. rewrite bpow_plus. pose proof (bpow_gt_0 radix2 (-160)). change (bpow radix2 10) with 1024. lra.
Qed.
Lemma hundred_990 : bpow radix2 990 <= bpow radix2 1000 /\ 1024 * bpow radix2 990 <= bpow radix2 1000.
Proof. split; [apply bpow_le; lia|]. replace 1024 with (bpow radix2 10) by (cbn; lra). rewrite <- bpow_plus. apply bpow_le. lia. Qed.

Section Closes.
Variables (rows : list (bar float)) (c : nat -> R) (M : R).
Hypothesis Hc : closes rows c M.
Hypothesis HM : M <= IZR (2 ^ 990).
Let x := map b_close rows.
Lemma at_close : forall i, (i < length rows)%nat -> val (nth i x fnan) = Fin (c i) /\ Rabs (c i) <= bpow radix2 990.
Proof.
  intros i Hi. destruct (closes_nth rows c M i Hc ltac:(rewrite map_length; exact Hi)) as [V B]. split; [exact V|]. rewrite pow990 in HM. lra.
Qed.
(** (c - p)/p * 100 *)
Theorem roc_row : forall fl w out i y, compute (Roc (Z.of_nat w)) fl rows = Ok out -> nth_error out i = Some y -> (w <= i)%nat ->
  / IZR (2 ^ 900) <= Rabs (c (i - w)%nat) ->
  let r := (c i - c (i - w)%nat) / c (i - w)%nat * 100 in Rabs r <= IZR (2 ^ 990) -> close_to 1 y r.
Proof.
  intros fl w out i y E Ny Hw Hp r Hr. rewrite pow900 in Hp. rewrite pow990 in Hr. cbn [compute] in E. unfold roc in E. fold x in E. apply ok_inj in E; subst out.
  set (raw := muls (sdiv (ssub x (shift (Z.of_nat w) x)) (shift (Z.of_nat w) x)) (fofZ 100)) in *.
  assert (Ls : length (shift (Z.of_nat w) x) = length rows) by (rewrite len_shift; unfold x; now rewrite map_length).
  assert (Lx : length x = length rows) by (unfold x; now rewrite map_length).
  assert (Lr : length raw = length rows) by (unfold raw, muls, sdiv, ssub; rewrite map_length; rewrite !len_map2; rewrite ?len_map2; lia).
  assert (Hi : (i < length rows)%nat).
  { assert (nth_error (check_fillna fl (FillInt 0) raw) i <> None) by congruence. apply nth_error_Some in H. rewrite check_length, Lr in H. exact H. }
  assert (Np : nth i (shift (Z.of_nat w) x) fnan = nth (i - w) x fnan).
  { unfold shift. rewrite nth_shift_fill_ge by lia. now rewrite Nat2Z.id. }
  destruct (at_close i Hi) as [V1 B1]. destruct (at_close (i - w)%nat ltac:(lia)) as [V2 B2].
  set (p := c (i - w)%nat) in *. destruct (diff_cell _ _ _ _ V1 V2 B1 B2) as (P & VP & EP).
  assert (p0 : p <> 0) by (intros Q; rewrite Q, Rabs_R0 in Hp; pose proof (bpow_gt_0 radix2 (-900)); lra).
  set (X := (c i - p) / p) in *. destruct hundred_990 as [H1 H2]. destruct pow_150 as (T1 & T2 & T3). destruct eta_60 as [Q1 Q2].
  assert (SX : 100 * Rabs X <= bpow radix2 990). { unfold r in Hr. rewrite Rabs_mult, (Rabs_pos_eq 100) in Hr by lra. lra. }
  destruct (quot_cell (fsub (nth i x fnan) (nth (i - w) x fnan)) (nth (i - w) x fnan) P p (c i - p) p 1 VP V2 ltac:(lra) Hp) as (q & Vq & Eq).
  { fold X. pose proof (Rabs_pos X). lra. }
  { lra. }
  { replace (p - p) with 0 by ring. rewrite Rabs_R0. pose proof (Rabs_pos p). assert (0 <= u * Rabs p) by (apply Rmult_le_pos; [unfold u; lra|auto]). lra. }
  fold X in Eq. destruct (times_cell _ q X (1 + 21 / 10) (12 / 10 * bpow radix2 (-160)) 100 Vq ltac:(reflexivity) ltac:(lra) ltac:(lra)) as (s & Vs & _ & Es); auto; try lra.
  { pose proof (Rabs_pos X). lra. }
  assert (Nr : val (nth i raw fnan) = Fin s).
  { unfold raw, muls, sdiv, ssub. rewrite (nth_map_lt _) with (d' := fnan) by (rewrite !len_map2; rewrite ?len_map2; lia).
    rewrite (nth_map2_lt fdiv _ _ _ fnan fnan fnan) by (rewrite ?len_map2; lia). rewrite (nth_map2_lt fsub _ _ _ fnan fnan fnan) by lia. rewrite Np. exact Vs. }
  rewrite <- (nth_error_nth _ _ fnan Ny). rewrite (kept_row fl 0 raw i s) by (auto; lia). unfold close_to, within. exists s. split; [exact Nr|].
  rewrite part_u, pow150. replace (100 * X) with r in Es by (unfold r; ring).
  assert (0 <= u * Rabs r) by (apply Rmult_le_pos; [unfold u; lra|apply Rabs_pos]). lra.
Qed.
(** (c/p - 1) * 100: the ratio is rounded before 1 is taken off *)
Lemma growth_cell : forall a b A B, val a = Fin A -> val b = Fin B -> B <> 0 -> Rabs (A / B) <= bpow radix2 990 ->
  exists q, val (fmul (fsub (fdiv a b) (fofZ 1)) (fofZ 100)) = Fin q /\ Rabs (q - (A / B - 1) * 100) <= part 40 (Rabs (A / B) + 1).
Proof.
  intros a b A B Va Vb B0 HX. set (X := A / B) in *. set (t := Rabs X) in *. assert (t0 : 0 <= t) by apply Rabs_pos. destruct hundred_990 as [H1 H2].
  assert (U0 : 0 < u) by (unfold u; lra). assert (US : u < / 1000000) by (unfold u; lra). assert (Ut : 0 <= u * t <= / 1000000 * t) by (split; [apply Rmult_le_pos; lra|apply Rmult_le_compat_r; lra]).
  pose proof eta_u as E1. pose proof eta_pos as E0.
  assert (L1 : 1 <= bpow radix2 990) by (apply (bpow_le radix2 0 990); lia). assert (L2 : bpow radix2 1000 <= bpow radix2 1020) by (apply bpow_le; lia).
  set (q := rnd X). pose proof (rnd_err X) as Eq. fold q in Eq. fold t in Eq.
  assert (Vq : val (fdiv a b) = Fin q).
  { rewrite val_div, Va, Vb by (rewrite Vb; intros E; injection E; auto). cbn [xdiv]. destruct Req_EM_T; [contradiction|]. apply rx_small. fold X. fold t. lra. }
  assert (Sq : Rabs (q - 1) <= t + 1 + (u * t + eta)).
  { replace (q - 1) with ((q - X) + (X - 1)) by ring. eapply Rle_trans; [apply Rabs_triang|]. assert (Rabs (X - 1) <= t + 1); [|lra].
    unfold Rminus. eapply Rle_trans; [apply Rabs_triang|]. rewrite Rabs_Ropp, Rabs_R1. fold t. lra. }
  set (s := rnd (q - 1)). pose proof (rnd_err (q - 1)) as Es. fold s in Es.
  assert (Vs : val (fsub (fdiv a b) (fofZ 1)) = Fin s).
  { apply val_diff; auto; [apply (val_small 1); lia|]. lra. }
  assert (u * Rabs (q - 1) <= u * (t + 1 + (u * t + eta))) by (apply Rmult_le_compat_l; lra).
  assert (Ee : u * (u * t + eta) <= / 1000000 * (u * t + eta)) by (apply Rmult_le_compat_r; lra).
  assert (Ss : Rabs s <= 11 / 10 * (t + 1)). { replace s with ((s - (q - 1)) + (q - 1)) by ring. eapply Rle_trans; [apply Rabs_triang|]. lra. }
  exists (rnd (s * 100)). split.
  - rewrite val_mul, Vs, (val_small 100) by lia. cbn [xmul]. apply rx_small. rewrite Rabs_mult, (Rabs_pos_eq 100) by lra. lra.
  - pose proof (rnd_err (s * 100)) as R. rewrite Rabs_mult, (Rabs_pos_eq 100) in R by lra.
    replace (rnd (s * 100) - (X - 1) * 100) with ((rnd (s * 100) - s * 100) + (100 * (s - (q - 1)) + 100 * (q - X))) by ring.
    eapply Rle_trans; [apply Rabs_triang|]. assert (Rabs (100 * (s - (q - 1)) + 100 * (q - X)) <= 100 * Rabs (s - (q - 1)) + 100 * Rabs (q - X)).
    { eapply Rle_trans; [apply Rabs_triang|]. rewrite !Rabs_mult, (Rabs_pos_eq 100) by lra. lra. }
    assert (u * Rabs s <= u * (11 / 10 * (t + 1))) by (apply Rmult_le_compat_l; lra). rewrite part_u. lra.
Qed.
Theorem daily_row : forall fl out i y, compute DailyReturn fl rows = Ok out -> nth_error out (S i) = Some y -> c i <> 0 ->
  let g := c (S i) / c i in Rabs g <= IZR (2 ^ 990) -> within (part 40 (Rabs g + 1)) y (Fin ((g - 1) * 100)).
Proof.
  intros fl out i y E Ny Hp g Hg. rewrite pow990 in Hg. cbn [compute] in E. unfold daily_return in E. fold x in E. apply ok_inj in E; subst out.
  set (raw := muls (subs (sdiv x (shift 1 x)) (fofZ 1)) (fofZ 100)) in *.
  assert (Ls : length (shift 1 x) = length rows) by (rewrite len_shift1; unfold x; now rewrite map_length).
  assert (Lx : length x = length rows) by (unfold x; now rewrite map_length).
  assert (Lr : length raw = length rows) by (unfold raw, muls, subs, sdiv; rewrite !map_length; rewrite !len_map2; lia).
  assert (Hi : (S i < length rows)%nat).
  { assert (nth_error (check_fillna fl (FillInt 0) raw) (S i) <> None) by congruence. apply nth_error_Some in H. rewrite check_length, Lr in H. exact H. }
  destruct (at_close (S i) Hi) as [V1 B1]. destruct (at_close i ltac:(lia)) as [V2 B2].
  destruct (growth_cell _ _ _ _ V1 V2 Hp Hg) as (s & Vs & Es).
  assert (Nr : val (nth (S i) raw fnan) = Fin s).
  { unfold raw, muls, subs, sdiv. rewrite (nth_map_lt _) with (d' := fnan) by (rewrite map_length, len_map2; lia). rewrite (nth_map_lt _) with (d' := fnan) by (rewrite len_map2; lia).
    rewrite (nth_map2_lt fdiv _ _ _ fnan fnan fnan) by lia. rewrite nth_shift1 by lia. replace (S i - 1)%nat with i by lia. exact Vs. }
  rewrite <- (nth_error_nth _ _ fnan Ny). rewrite (kept_row fl 0 raw (S i) s) by (auto; lia). exists s. split; [exact Nr|exact Es].
Qed.
Theorem cumulative_row : forall fl out i y, compute CumReturn fl rows = Ok out -> nth_error out i = Some y -> c 0%nat <> 0 ->
  let g := c i / c 0%nat in Rabs g <= IZR (2 ^ 990) -> within (part 40 (Rabs g + 1)) y (Fin ((g - 1) * 100)).
Proof.
  intros fl out i y E Ny Hp g Hg. rewrite pow990 in Hg. cbn [compute] in E. unfold cumulative_return in E. fold x in E.
  destruct x as [|c0 xs] eqn:Ex; [discriminate|]. rewrite <- Ex in E. apply ok_inj in E; subst out.
  set (raw := muls (subs (divs x c0) (fofZ 1)) (fofZ 100)) in *.
  assert (Lx : length x = length rows) by (unfold x; now rewrite map_length).
  assert (Lr : length raw = length rows) by (unfold raw, muls, subs, divs; now rewrite !map_length).
  assert (Hi : (i < length rows)%nat).
  { assert (nth_error (check_fillna fl (FillInt (-1)) raw) i <> None) by congruence. apply nth_error_Some in H. rewrite check_length, Lr in H. exact H. }
  destruct (at_close i Hi) as [V1 B1]. destruct (at_close 0 ltac:(lia)) as [V2 B2]. rewrite Ex in V2. cbn [nth] in V2.
  destruct (growth_cell _ _ _ _ V1 V2 Hp Hg) as (s & Vs & Es).
  assert (Nr : val (nth i raw fnan) = Fin s).
  { unfold raw, muls, subs, divs. rewrite !(nth_map_lt _) with (d' := fnan) by (rewrite ?map_length; lia). exact Vs. }
  rewrite <- (nth_error_nth _ _ fnan Ny). rewrite (kept_row fl (-1) raw i s) by (auto; lia). exists s. split; [exact Nr|exact Es].
Qed.
End Closes.

Section Ranges.
Variables (rows : list (bar float)) (h l c : nat -> R) (M : R).
Hypothesis Hc : closes rows c M.
Hypothesis Hr : ranges rows h l M.
Hypothesis HM : M <= IZR (2 ^ 990).
Lemma at_range : forall i, (i < length rows)%nat -> (val (nth i (map b_high rows) fnan) = Fin (h i) /\ Rabs (h i) <= M) /\ (val (nth i (map b_low rows) fnan) = Fin (l i) /\ Rabs (l i) <= M).
Proof.
  intros i Hi. destruct (nth_error rows i) as [b|] eqn:E; [|apply nth_error_None in E; lia]. destruct (Hr i b E) as [A B].
  rewrite (nth_error_nth _ _ fnan (map_nth_error b_high _ _ E)), (nth_error_nth _ _ fnan (map_nth_error b_low _ _ E)). auto.
Qed.
Lemma high_tab : map val (map b_high rows) = tab (length rows) (from 0 h).
Proof. apply list_tab; [apply map_length|]. intros i Hi. apply at_range; auto. Qed.
Lemma low_tab : map val (map b_low rows) = tab (length rows) (from 0 l).
Proof. apply list_tab; [apply map_length|]. intros i Hi. apply at_range; auto. Qed.
Lemma rolled : forall (r : result (list float)) n g, rmap (map val) r = Ok (tab n g) -> exists s, r = Ok s /\ length s = n /\ forall i, (i < n)%nat -> val (nth i s fnan) = g i.
Proof.
  intros [s|e] n g E; [|discriminate]. cbn [rmap] in E. apply ok_inj in E. exists s. split; [reflexivity|].
  assert (L : length s = n) by (rewrite <- (map_length val), E; apply len_tab). split; [exact L|]. intros i Hi.
  rewrite <- (nth_tab n g i NaN Hi), <- E. rewrite (nth_map_lt val) with (d' := fnan) by lia. reflexivity.
Qed.
Lemma highs : forall fl w, (1 <= w)%nat -> exists s, rolling (Z.of_nat w) (minp_of fl (Z.of_nat w)) agg_max (map b_high rows) = Ok s /\ length s = length rows /\
  forall i, (i < length rows)%nat -> val (nth i s fnan) = from (warm fl w) (wmax w h) i.
Proof.
  intros fl w Hw. apply rolled. rewrite <- max_tab by auto. rewrite <- high_tab. symmetry.
  exact (v_rolling_all win_max win_max v_agg_max (Z.of_nat w) (minp_of fl (Z.of_nat w)) (map b_high rows)).
Qed.
Lemma lows : forall fl w, (1 <= w)%nat -> exists s, rolling (Z.of_nat w) (minp_of fl (Z.of_nat w)) agg_min (map b_low rows) = Ok s /\ length s = length rows /\
  forall i, (i < length rows)%nat -> val (nth i s fnan) = from (warm fl w) (wmin w l) i.
Proof.
  intros fl w Hw. apply rolled. rewrite <- min_tab by auto. rewrite <- low_tab. symmetry.
  exact (v_rolling_all win_min win_min v_agg_min (Z.of_nat w) (minp_of fl (Z.of_nat w)) (map b_low rows)).
Qed.
Lemma extremes_small : forall w i, (1 <= w)%nat -> (i < length rows)%nat -> Rabs (wmax w h i) <= bpow radix2 990 /\ Rabs (wmin w l i) <= bpow radix2 990.
Proof.
  intros w i Hw Hi. rewrite pow990 in HM. unfold wmax, wmin. destruct (rmax_att h (wlo w i) (wlen w i - 1)) as (j & Hj & ->). destruct (rmin_att l (wlo w i) (wlen w i - 1)) as (k & Hk & ->).
  unfold wlo, wlen in *. destruct (at_range j ltac:(lia)) as [[_ A] _]. destruct (at_range k ltac:(lia)) as [_ [_ B]]. lra.
Qed.
(** z (a - b) / (m - n), z = 100 or -100 *)
Lemma place_cell : forall a b m n A B E F z, val a = Fin A -> val b = Fin B -> val m = Fin E -> val n = Fin F -> (Z.abs z = 100)%Z ->
  Rabs A <= bpow radix2 990 -> Rabs B <= bpow radix2 990 -> Rabs E <= bpow radix2 990 -> Rabs F <= bpow radix2 990 ->
  bpow radix2 (-900) <= Rabs (E - F) -> let X := IZR z * (A - B) / (E - F) in Rabs X <= bpow radix2 990 ->
  exists q, val (fdiv (fmul (fofZ z) (fsub a b)) (fsub m n)) = Fin q /\ Rabs (q - X) <= part 1 (Rabs X) + / IZR (2 ^ 150).
Proof.
  intros a b m n A B E F z Va Vb Vm Vn Hz BA BB BE BF Hd X HX. destruct (diff_cell _ _ _ _ Va Vb BA BB) as (P & VP & EP). destruct (diff_cell _ _ _ _ Vm Vn BE BF) as (D & VD & ED).
  destruct hundred_990 as [H1 H2]. destruct pow_150 as (T1 & T2 & T3). destruct eta_60 as [Q1 Q2]. pose proof (bpow_gt_0 radix2 990) as G.
  assert (T4 : bpow radix2 (-1060) <= bpow radix2 (-150)) by (apply bpow_le; lia).
  assert (SD : Rabs (A - B) <= bpow radix2 1000). { apply abs_le_both in BA, BB. apply Rabs_le. lra. }
  destruct (times_cell _ P (A - B) 1 eta z VP Hz ltac:(lra) Q2 SD ltac:(lra) ltac:(lra)) as (s & _ & Vs & Es).
  assert (U0 : 0 < u) by (unfold u; lra).
  destruct (quot_cell _ _ s D (IZR z * (A - B)) (E - F) (1 + 101 / 100) Vs VD ltac:(lra) Hd) as (q & Vq & Eq); auto; try lra.
  { fold X. lra. }
  exists q. split; [exact Vq|]. fold X in Eq. rewrite part_u, pow150. assert (0 <= u * Rabs X) by (apply Rmult_le_pos; [lra|apply Rabs_pos]). lra.
Qed.
Theorem stoch_row : forall fl w sm out i y, (1 <= w)%nat -> compute (Stoch (Z.of_nat w) sm) fl rows = Ok out -> nth_error out i = Some y -> (warm fl w <= i)%nat ->
  let d := wmax w h i - wmin w l i in / IZR (2 ^ 900) <= Rabs d ->
  let r := 100 * (c i - wmin w l i) / d in Rabs r <= IZR (2 ^ 990) -> close_to 1 y r.
Proof.
  intros fl w sm out i y Hw E Ny Hi d Hd r Hx. rewrite pow900 in Hd. rewrite pow990 in Hx. cbn [compute] in E. unfold stoch, stoch_run in E.
  destruct (lows fl w Hw) as (sl & El & Ll & Nl). destruct (highs fl w Hw) as (sh & Eh & Lh & Nh). rewrite El in E. cbn [bind] in E. rewrite Eh in E. cbn [bind rmap] in E.
  apply ok_inj in E. subst out. set (raw := sdiv (scal (fofZ 100) (ssub (map b_close rows) sl)) (ssub sh sl)) in *.
  assert (Lc : length (map b_close rows) = length rows) by apply map_length.
  assert (L1 : length (ssub (map b_close rows) sl) = length rows) by (unfold ssub; rewrite len_map2; lia). assert (L2 : length (ssub sh sl) = length rows) by (unfold ssub; rewrite len_map2; lia).
  assert (L3 : length (scal (fofZ 100) (ssub (map b_close rows) sl)) = length rows) by (unfold scal; now rewrite map_length).
  assert (Lr : length raw = length rows) by (unfold raw, sdiv; rewrite len_map2; lia).
  assert (Hn : (i < length rows)%nat).
  { assert (Q : nth_error (check_fillna fl (FillInt 50) raw) i <> None) by congruence. apply nth_error_Some in Q. rewrite check_length, Lr in Q. exact Q. }
  specialize (Nl i Hn). specialize (Nh i Hn). unfold from, fromx in Nl, Nh. destruct (Nat.ltb_spec i (warm fl w)); [lia|].
  destruct (at_close rows c M Hc HM i Hn) as [Vc Bc]. destruct (extremes_small w i Hw Hn) as [Bh Bl].
  destruct (place_cell _ _ _ _ _ _ _ _ 100 Vc Nl Nh Nl eq_refl Bc Bl Bh Bl Hd Hx) as (q & Vq & Eq).
  assert (Nr : val (nth i raw fnan) = Fin q).
  { unfold raw, sdiv. rewrite (nth_map2_lt fdiv _ _ _ fnan fnan fnan) by lia. unfold scal. rewrite (nth_map_lt _) with (d' := fnan) by lia.
    unfold ssub. rewrite !(nth_map2_lt fsub _ _ _ fnan fnan fnan) by lia. exact Vq. }
  rewrite <- (nth_error_nth _ _ fnan Ny). rewrite (kept_row fl 50 raw i q) by (auto; lia). exists q. split; [exact Nr|exact Eq].
Qed.
Theorem williams_row : forall fl w out i y, (1 <= w)%nat -> compute (WilliamsR (Z.of_nat w)) fl rows = Ok out -> nth_error out i = Some y -> (warm fl w <= i)%nat ->
  let d := wmax w h i - wmin w l i in / IZR (2 ^ 900) <= Rabs d ->
  let r := -100 * (wmax w h i - c i) / d in Rabs r <= IZR (2 ^ 990) -> close_to 1 y r.
Proof.
  intros fl w out i y Hw E Ny Hi d Hd r Hx. rewrite pow900 in Hd. rewrite pow990 in Hx. cbn [compute] in E. unfold williams_r in E.
  destruct (lows fl w Hw) as (sl & El & Ll & Nl). destruct (highs fl w Hw) as (sh & Eh & Lh & Nh). rewrite Eh in E. cbn [bind] in E. rewrite El in E. cbn [bind] in E.
  apply ok_inj in E. subst out. set (raw := sdiv (scal (fofZ (-100)) (ssub sh (map b_close rows))) (ssub sh sl)) in *.
  assert (Lc : length (map b_close rows) = length rows) by apply map_length.
  assert (L1 : length (ssub sh (map b_close rows)) = length rows) by (unfold ssub; rewrite len_map2; lia). assert (L2 : length (ssub sh sl) = length rows) by (unfold ssub; rewrite len_map2; lia).
  assert (L3 : length (scal (fofZ (-100)) (ssub sh (map b_close rows))) = length rows) by (unfold scal; now rewrite map_length).
  assert (Lr : length raw = length rows) by (unfold raw, sdiv; rewrite len_map2; lia).
  assert (Hn : (i < length rows)%nat).
  { assert (Q : nth_error (check_fillna fl (FillInt (-50)) raw) i <> None) by congruence. apply nth_error_Some in Q. rewrite check_length, Lr in Q. exact Q. }
  specialize (Nl i Hn). specialize (Nh i Hn). unfold from, fromx in Nl, Nh. destruct (Nat.ltb_spec i (warm fl w)); [lia|].
  destruct (at_close rows c M Hc HM i Hn) as [Vc Bc]. destruct (extremes_small w i Hw Hn) as [Bh Bl].
  destruct (place_cell _ _ _ _ _ _ _ _ (-100) Nh Vc Nh Nl eq_refl Bh Bc Bh Bl Hd Hx) as (q & Vq & Eq).
  assert (Nr : val (nth i raw fnan) = Fin q).
  { unfold raw, sdiv. rewrite (nth_map2_lt fdiv _ _ _ fnan fnan fnan) by lia. unfold scal. rewrite (nth_map_lt _) with (d' := fnan) by lia.
    unfold ssub. rewrite !(nth_map2_lt fsub _ _ _ fnan fnan fnan) by lia. exact Vq. }
  rewrite <- (nth_error_nth _ _ fnan Ny). rewrite (kept_row fl (-50) raw i q) by (auto; lia). exists q. split; [exact Nr|exact Eq].
Qed.
End Ranges.
