(** * NviError: the negative volume index in binary64 (C111). *)
From Flocq Require Import Core PrimFloat.
From Coq Require Import Reals Lra Floats.
From Verif Require Import Lists Arith FloatArith FloatReal Order FloatOrder Api Align Causal Rows Running FloatPct EmaError FloatEma FloatTrack SpecNum Sums Tab Averages Oscillators SpecTracking Tracking RunningError SumError WilderError RsiError Stuck RatioError Lines RollError SpecFlow MfiError.
Local Open Scope R_scope.
#[local] Arguments eta : simpl never.
#[local] Arguments u : simpl never.

Lemma rel_mult : forall j k x y x' y', 0 <= j <= 10000000000 -> 0 <= k <= 10 -> rel j x y -> rel k x' y' -> 0 <= y -> 0 <= y' -> rel (j + k + 1 / 100) (x * x') (y * y').
Proof.
  intros j k x y x' y' J K E E' Y Y'. pose proof u_small as [U0 U1]. unfold rel in *.
  assert (JU : 0 <= j * u <= / 100000) by (split; [apply Rmult_le_pos; lra|apply Rle_trans with (10000000000 * / 1000000000000000); [apply Rmult_le_compat; lra|lra]]).
  assert (P : 0 <= y * y') by (apply Rmult_le_pos; auto).
  replace (x * x' - y * y') with ((x - y) * y' + (x * (x' - y'))) by ring. eapply Rle_trans; [apply Rabs_triang|]. rewrite !Rabs_mult, (Rabs_pos_eq y') by auto.
  assert (X : Rabs x <= (1 + / 100000) * y).
  { assert (j * u * y <= / 100000 * y) by (apply Rmult_le_compat_r; lra). apply abs_le_both in E. apply Rabs_le. lra. }
  assert (A : Rabs (x - y) * y' <= j * u * y * y') by (apply Rmult_le_compat_r; auto).
  assert (B : Rabs x * Rabs (x' - y') <= (1 + / 100000) * y * (k * u * y')) by (apply Rmult_le_compat; try apply Rabs_pos; auto).
  assert (KP : k * (u * (y * y')) <= 10 * (u * (y * y'))) by (apply Rmult_le_compat_r; [apply Rmult_le_pos; lra|lra]).
  replace ((j + k + 1 / 100) * u * (y * y')) with (j * u * y * y' + (k * (u * (y * y')) + / 100 * (u * (y * y')))) by field.
  replace ((1 + / 100000) * y * (k * u * y')) with (k * (u * (y * y')) + / 100000 * (k * (u * (y * y')))) in B by field. assert (0 <= u * (y * y')) by (apply Rmult_le_pos; lra). lra.
Qed.

(** 1 + (a/b - 1), a price not less than half the one before *)
Lemma factor_cell : forall f g a b, val f = Fin a -> val g = Fin b -> wide 200 a -> wide 200 b -> / 2 <= a / b ->
  exists q, val (fadd (fofZ 1) (fsub (fdiv f g) (fofZ 1))) = Fin q /\ rel (42 / 10) q (a / b).
Proof.
  intros f g a b Vf Vg Wa Wb H. pose proof (wide_pos _ _ Wa) as A0. pose proof (wide_pos _ _ Wb) as B0. pose proof u_small as [U0 U1].
  assert (W : wide 400 (a / b)) by (apply (wide_mult 200 200); [auto|now apply wide_inv]). set (X := a / b) in *. pose proof (wide_big 400 X ltac:(lia) W) as [_ Big]. rewrite Rabs_pos_eq in Big by lra.
  assert (T : 4 * X <= bpow radix2 1020).
  { destruct W as [_ W]. apply Rle_trans with (bpow radix2 2 * bpow radix2 400); [change (bpow radix2 2) with 4; lra|]. rewrite <- bpow_plus. apply bpow_le. lia. }
  assert (K : bpow radix2 (-900) <= X) by (apply Rle_trans with (/ 2); [change (/ 2) with (bpow radix2 (-1)); apply bpow_le; lia|auto]).
  assert (Vd : val (fdiv f g) = Fin (rnd X)).
  { rewrite val_div by (rewrite Vg; intros E; injection E; lra). rewrite Vf, Vg. cbn [xdiv]. destruct Req_EM_T; [lra|]. apply rx_small. fold X. rewrite Rabs_pos_eq; lra. }
  pose proof (rnd_K X K X X ltac:(rewrite Rabs_pos_eq; lra)) as E1. set (q := rnd X) in *. apply abs_le_both in E1.
  assert (UX : 0 < u * X <= / 1000 * X) by (split; [apply Rmult_lt_0_compat; lra|apply Rmult_le_compat_r; lra]).
  assert (S1 : Rabs (q - 1) <= 101 / 100 * X) by (apply Rabs_le; lra).
  assert (Vs : val (fsub (fdiv f g) (fofZ 1)) = Fin (rnd (q - 1))).
  { rewrite val_sub, Vd, (val_small 1) by lia. cbn [xsub xadd xopp]. apply rx_small. replace (q + -1) with (q - 1) by ring. lra. }
  pose proof (rnd_K X K _ _ S1) as E2. set (s := rnd (q - 1)) in *. apply abs_le_both in E2.
  assert (S2 : Rabs (1 + s) <= 102 / 100 * X) by (apply Rabs_le; lra).
  pose proof (rnd_K X K _ _ S2) as E3. exists (rnd (1 + s)). split.
  - rewrite val_add, Vs, (val_small 1) by lia. cbn [xadd]. apply rx_small. lra.
  - apply abs_le_both in E3. unfold rel. apply Rabs_le. replace (42 / 10 * u * X) with (42 / 10 * (u * X)) by ring.
    replace (u * (101 / 100 * X)) with (101 / 100 * (u * X)) in E2 by ring. replace (u * (102 / 100 * X)) with (102 / 100 * (u * X)) in E3 by ring. lra.
Qed.

Lemma nvi_step : forall (ch vp vv : list float) p i, (i < length ch)%nat -> (i < length vp)%nat -> (i < length vv)%nat ->
  nth (S i) (p :: nvi_go p ch vp vv) fnan = (let x := nth i (p :: nvi_go p ch vp vv) fnan in if fltb (nth i vv fnan) (nth i vp fnan) then fmul x (fadd (fofZ 1) (nth i ch fnan)) else x).
Proof.
  induction ch as [|d ch IH]; intros [|a vp] [|b vv] p i H1 H2 H3; cbn [length] in *; try lia. destruct i as [|i]; [reflexivity|].
  change (nth (S (S i)) (p :: nvi_go p (d :: ch) (a :: vp) (b :: vv)) fnan) with (nth (S i) (nvi_go p (d :: ch) (a :: vp) (b :: vv)) fnan).
  cbn [nvi_go]. rewrite IH by lia. reflexivity.
Qed.
Lemma ffill_all : forall (s : list float) x, (forall i, (i < length s)%nat -> exists r, val (nth i s fnan) = Fin r) -> ffill_go x s = s.
Proof.
  induction s as [|y s IH]; intros x H; [reflexivity|]. cbn [ffill_go]. destruct (H 0%nat ltac:(cbn; lia)) as [r V]. cbn [nth] in V. rewrite val_nan, V. f_equal. apply IH. intros i Hi. apply (H (S i)). cbn. lia.
Qed.

Section Rows.
Variables (rows : list (bar float)) (c v : nat -> R).
Hypothesis Hc : forall i b, nth_error rows i = Some b -> (val (b_close b) = Fin (c i) /\ tame (c i)) /\ val (b_volume b) = Fin (v i).
Let x := map b_close rows.
Let y := map b_volume rows.
Lemma cells : forall i, (i < length rows)%nat -> val (nth i x fnan) = Fin (c i) /\ wide 200 (c i) /\ val (nth i y fnan) = Fin (v i).
Proof.
  intros i Hi. destruct (nth_error rows i) as [b|] eqn:E; [|apply nth_error_None in E; lia]. destruct (Hc i b E) as [[A B] C].
  unfold x, y. rewrite (nth_error_nth _ _ fnan (map_nth_error b_close _ _ E)), (nth_error_nth _ _ fnan (map_nth_error b_volume _ _ E)). split; [exact A|]. split; [now apply tame_wide|exact C].
Qed.
Lemma nth_tl : forall (s : list float) i, nth i (tl s) fnan = nth (S i) s fnan.
Proof. intros [|a s] i; [destruct i; reflexivity|reflexivity]. Qed.

Let N := fun i => 1000 * rprod (nvi_factor c v) 1 i.
Theorem nvi_row : forall fl out i z, compute Nvi fl rows = Ok out -> nth_error out i = Some z -> (Z.of_nat i <= 2 ^ 30)%Z ->
  (forall j, (j <= i)%nat -> tame (N j)) -> (forall j, (1 <= j <= i)%nat -> v j < v (j - 1)%nat -> / 2 <= c j / c (j - 1)%nat) ->
  within (part (INR i) (N i)) z (Fin (N i)).
Proof.
  intros fl out i z E Nz Ii HN Hf. cbn [compute] in E. unfold negative_volume_index in E. fold x y in E.
  assert (Lx : length x = length rows) by apply map_length. assert (Ly : length y = length rows) by apply map_length.
  assert (E' : Ok (check_fillna fl (FillInt 1000) (fofZ 1000 :: nvi_go (fofZ 1000) (tl (pct_change x)) y (tl y))) = Ok out) by (destruct x; [discriminate|exact E]).
  assert (Lp : (1 <= length rows)%nat) by (rewrite <- Lx; destruct x; [discriminate|cbn; lia]). clear E. apply ok_inj in E'. subst out.
  assert (Pc : pct_change x = subs (sdiv x (shift 1 x)) (fofZ 1)).
  { unfold pct_change. cbv zeta. assert (F : ffill x = x); [|now rewrite F]. apply ffill_all. intros k Hk. exists (c k). apply cells. lia. }
  assert (Lq : length (pct_change x) = length rows) by (rewrite Pc; unfold subs, sdiv; rewrite map_length, len_map2; rewrite ?len_shift; lia).
  set (raw := fofZ 1000 :: _) in *.
  assert (Lt : forall s : list float, length s = length rows -> length (tl s) = (length rows - 1)%nat) by (intros [|a s] L; cbn in *; lia).
  assert (Lr : length raw = length rows) by (unfold raw; cbn [length]; rewrite len_nvi_go, !Lt by auto; lia).
  assert (Hi : (i < length rows)%nat). { rewrite <- Lr, <- (check_length fl 1000). apply nth_error_Some. now rewrite Nz. }
  pose proof u_small as [U0 U1].
  assert (Main : forall k, (k <= i)%nat -> exists q, val (nth k raw fnan) = Fin q /\ rel (6 * INR k) q (N k)).
  { induction k as [|k IH]; intros Hk.
    - exists 1000. split; [exact (val_small 1000 ltac:(lia))|]. unfold N. cbn [rprod INR]. rewrite Rmult_1_r. apply rel_refl; lra.
    - destruct (IH ltac:(lia)) as (q & Vq & Rq). assert (K0 : 0 <= INR k <= 1073741824). { split; [apply pos_INR|]. rewrite INR_IZR_INZ. apply (IZR_le _ (2 ^ 30)). lia. }
      assert (Nk : N (S k) = N k * nvi_factor c v (S k)) by (unfold N; cbn [rprod Nat.add]; ring).
      pose proof (tame_wide _ (HN k ltac:(lia))) as W0. pose proof (tame_wide _ (HN (S k) Hk)) as W1. pose proof (wide_pos _ _ W0) as N0. pose proof (wide_pos _ _ W1) as N1.
      unfold raw. rewrite nvi_step by (rewrite ?Lt; auto; lia). fold raw. cbv zeta. rewrite !nth_tl.
      destruct (cells (S k) ltac:(lia)) as (Vc & Wc & Vv). destruct (cells k ltac:(lia)) as (Vc' & Wc' & Vv'). rewrite val_ltb, Vv, Vv'. cbn [xltb]. rewrite S_INR.
      unfold nvi_factor in Nk. replace (S k - 1)%nat with k in Nk by lia. destruct (Rlt_dec (v (S k)) (v k)) as [L|L].
      + specialize (Hf (S k) ltac:(lia)). replace (S k - 1)%nat with k in Hf by lia. specialize (Hf L).
        destruct (factor_cell _ _ _ _ Vc Vc' Wc Wc' Hf) as (f & Vf & Rf).
        assert (Np : nth (S k) (pct_change x) fnan = fsub (fdiv (nth (S k) x fnan) (nth k x fnan)) (fofZ 1)).
        { rewrite Pc. unfold subs, sdiv. rewrite (nth_map_lt _ _ _ _ fnan) by (rewrite len_map2; rewrite ?len_shift; lia). rewrite (nth_map2_lt fdiv _ _ _ fnan fnan fnan) by (rewrite ?len_shift; lia).
          rewrite nth_shift1 by lia. replace (S k - 1)%nat with k by lia. reflexivity. }
        rewrite Np. pose proof (rel_mult (6 * INR k) (42 / 10) _ _ _ _ ltac:(lra) ltac:(lra) Rq Rf ltac:(lra) ltac:(lra)) as R. rewrite <- Nk in R.
        exists (rnd (q * f)). split.
        * rewrite val_mul, Vq, Vf. cbn [xmul]. apply rx_small. apply (near_fits 200 _ (N (S k))); [lia|auto|]. apply (rel_sign (6 * INR k + 42 / 10 + 1 / 100)); auto; lra.
        * apply (rel_weak (6 * INR k + 42 / 10 + 1 / 100 + 102 / 100)); [lra| |lra]. apply rel_rnd; auto; [lra|lra|right; apply (wide_big 200); [lia|auto]].
      + exists q. split; [exact Vq|]. rewrite Nk, Rmult_1_r. apply (rel_weak (6 * INR k)); auto; lra. }
  destruct (Main i (Nat.le_refl _)) as (q & Vq & Rq). exists q. rewrite <- (nth_error_nth _ _ fnan Nz). rewrite (kept_row fl 1000 raw i q) by (auto; lia). split; [exact Vq|].
  unfold rel in Rq. eapply Rle_trans; [exact Rq|]. rewrite part_u. pose proof (tame_pos _ (HN i (Nat.le_refl _))) as N0. pose proof (pos_INR i) as I0. replace (INR i * (8 * (u * N i))) with (8 * INR i * u * N i) by ring.
  apply Rmult_le_compat_r; [lra|]. apply Rmult_le_compat_r; lra.
Qed.
End Rows.
