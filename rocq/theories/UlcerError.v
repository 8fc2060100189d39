(** * UlcerError: the ulcer index in binary64 (C110). *)
From Flocq Require Import Core PrimFloat.
From Coq Require Import Reals Lra Floats.
From Verif Require Import Lists Arith FloatArith FloatReal Order FloatOrder Api Align Causal Rows Running FloatPct EmaError FloatEma FloatExact FloatTrack SpecNum Sums Tab Averages Oscillators Channels SumError Stuck Lines SpecTracking Tracking RunningError WilderError RsiError RatioError RollError SpecFlow MfiError.
Local Open Scope R_scope.
#[local] Arguments eta : simpl never.
#[local] Arguments u : simpl never.

Lemma rel_square : forall k x y, 0 <= k <= 10 -> rel k x y -> 0 <= y -> rel (201 / 100 * k) (x * x) (y * y).
Proof.
  intros k x y K E Y. unfold rel in *. pose proof u_small as [U0 U1].
  assert (KU : 0 <= k * u <= / 1000) by (split; [apply Rmult_le_pos; lra|apply Rle_trans with (10 * / 1000000000000000); [apply Rmult_le_compat; lra|lra]]).
  set (d := k * u) in *. assert (D : 0 <= d * y <= y / 1000) by (split; [apply Rmult_le_pos; lra|unfold Rdiv; rewrite Rmult_comm; apply Rmult_le_compat_l; lra]).
  replace (x * x - y * y) with ((x - y) * (x + y)) by ring. rewrite Rabs_mult. replace (201 / 100 * k * u * (y * y)) with (d * y * (201 / 100 * y)) by (unfold d; field).
  apply Rmult_le_compat; try apply Rabs_pos; [exact E|]. apply abs_le_both in E. apply Rabs_le. lra.
Qed.
Lemma rel_sqrt : forall k x y, 0 <= k <= 10000000000 -> rel k x y -> 0 <= y -> rel (51 / 100 * k) (sqrt x) (sqrt y).
Proof.
  intros k x y K E Y. pose proof (rel_sign k x y K E Y) as B. unfold rel in *. pose proof u_small as [U0 U1]. destruct Y as [Y|Y].
  2: { subst y. assert (x = 0) by lra. subst x. rewrite sqrt_0, Rminus_0_r, Rabs_R0. lra. }
  pose proof (sqrt_lt_R0 y Y) as S0. pose proof (sqrt_lt_R0 x ltac:(lra)) as X0. pose proof (sqrt_sqrt y ltac:(lra)) as Sy. pose proof (sqrt_sqrt x ltac:(lra)) as Sx.
  set (a := sqrt x) in *. set (b := sqrt y) in *.
  assert (A : 99 / 100 * b <= a).
  { destruct (Rle_dec (99 / 100 * b) a) as [L|L]; auto. exfalso. assert (a * a < 99 / 100 * b * (99 / 100 * b)) by (apply Rmult_le_0_lt_compat; lra). lra. }
  assert (P : Rabs (a - b) * (a + b) <= k * u * y).
  { rewrite <- (Rabs_pos_eq (a + b)) by lra. rewrite <- Rabs_mult. replace ((a - b) * (a + b)) with (x - y) by (rewrite <- Sx, <- Sy; ring). exact E. }
  apply Rmult_le_reg_r with (a + b); [lra|]. eapply Rle_trans; [exact P|]. rewrite <- Sy. replace (k * u * (b * b)) with (k * u * b * b) by ring.
  replace (51 / 100 * k * u * b * (a + b)) with (k * u * b * (51 / 100 * (a + b))) by ring. apply Rmult_le_compat_l; [|lra]. repeat apply Rmult_le_pos; lra.
Qed.

(** two different binary64 numbers are not too close *)
Lemma apart : forall f g a b, val f = Fin a -> val g = Fin b -> 0 < a < b -> bpow radix2 (-54) <= (b - a) / b /\ a * bpow radix2 (-53) <= b - a.
Proof.
  intros f g a b Vf Vg H. destruct (repr_val _ _ Vf) as [Ra _]. destruct (repr_val _ _ Vg) as [Rb _].
  change (generic_format radix2 (FLT_exp (3 - emax - prec) prec) a) in Ra. change (generic_format radix2 (FLT_exp (3 - emax - prec) prec) b) in Rb.
  assert (PP : Prec_gt_0 prec) by exact Hprec.
  pose proof (succ_le_lt radix2 (FLT_exp (3 - emax - prec) prec) a b Ra Rb ltac:(lra)) as S1. rewrite succ_eq_pos in S1 by lra.
  pose proof (ulp_FLT_gt radix2 (3 - emax - prec) prec a) as S2. rewrite Rabs_pos_eq in S2 by lra. change (bpow radix2 (- prec)) with (bpow radix2 (-53)) in S2.
  assert (D : a * bpow radix2 (-53) <= b - a) by lra. split; [|exact D].
  apply Rmult_le_reg_r with b; [lra|]. unfold Rdiv. rewrite Rmult_assoc, Rinv_l, Rmult_1_r by lra.
  assert (E3 : bpow radix2 (-53) = 2 * bpow radix2 (-54)) by (change 2 with (bpow radix2 1); now rewrite <- bpow_plus). rewrite E3 in D.
  pose proof (bpow_gt_0 radix2 (-54)) as T. assert (T1 : bpow radix2 (-54) <= / 4) by (change (/ 4) with (bpow radix2 (-2)); apply bpow_le; lia).
  destruct (Rle_dec b (2 * a)).
  - apply Rle_trans with (bpow radix2 (-54) * (2 * a)); [apply Rmult_le_compat_l; lra|lra].
  - apply Rle_trans with (/ 4 * b); [apply Rmult_le_compat_r; lra|lra].
Qed.

(** ** one fall from the peak, in percent *)
Lemma fall_cell : forall f g a b, val f = Fin a -> val g = Fin b -> wide 200 a -> wide 200 b -> a <= b ->
  let D := 100 * (b - a) / b in (D = 0 \/ wide 60 D) /\ exists q, val (fdiv (fmul (fofZ 100) (fsub f g)) g) = Fin (- q) /\ rel (31 / 10) q D.
Proof.
  intros f g a b Vf Vg Wa Wb L D. pose proof (wide_pos _ _ Wa) as A0. pose proof (wide_pos _ _ Wb) as B0. pose proof u_small as [U0 U1].
  assert (Hd : b - a = 0 \/ (wide 254 (b - a) /\ wide 60 D)).
  { destruct (Req_dec a b) as [->|N]; [left; ring|right]. destruct (apart f g a b Vf Vg ltac:(lra)) as [P1 P2]. split.
    - destruct Wa as [Wa _], Wb as [_ Wb]. split.
      + apply Rle_trans with (a * bpow radix2 (-53)); [|exact P2]. replace (bpow radix2 (- (254))) with (bpow radix2 (-201) * bpow radix2 (-53)) by now rewrite <- bpow_plus. apply Rmult_le_compat_r; [apply bpow_ge_0|]. eapply Rle_trans; [|exact Wa]. apply bpow_le. lia.
      + apply Rle_trans with (bpow radix2 200); [lra|apply bpow_le; lia].
    - assert (E : D = 100 * ((b - a) / b)) by (unfold D, Rdiv; ring). rewrite E. assert (Q : (b - a) / b <= 1) by (apply div_bound; lra). split.
      + apply Rle_trans with (bpow radix2 (-54)); [apply bpow_le; lia|]. pose proof (bpow_gt_0 radix2 (-54)). lra.
      + apply Rle_trans with 128; [lra|]. change 128 with (bpow radix2 7). apply bpow_le. lia. }
  assert (Vs : val (fsub f g) = Fin (- rnd (b - a))).
  { rewrite val_sub, Vf, Vg. cbn [xsub xadd xopp]. replace (a + - b) with (- (b - a)) by ring. rewrite rx_small, rnd_opp; [reflexivity|]. rewrite Rabs_Ropp, Rabs_pos_eq by lra.
    destruct Wb as [_ Wb]. apply Rle_trans with (bpow radix2 200); [lra|apply bpow_le; lia]. }
  destruct Hd as [Z|[Wd WD]].
  - assert (D0 : D = 0) by (unfold D; rewrite Z; field; lra). split; [now left|]. exists 0. rewrite D0. split; [|apply rel_refl; lra].
    rewrite Z, rnd_0, Ropp_0 in Vs. assert (V1 : val (fmul (fofZ 100) (fsub f g)) = Fin 0).
    { rewrite val_mul, (val_small 100), Vs by lia. cbn [xmul]. rewrite Rmult_0_r, rx_small by (rewrite Rabs_R0; apply bpow_ge_0). now rewrite rnd_0. }
    rewrite val_div by (rewrite Vg; intros X; injection X; lra). rewrite V1, Vg. cbn [xdiv]. destruct Req_EM_T; [lra|]. replace (0 / b) with 0 by (field; lra).
    rewrite rx_small by (rewrite Rabs_R0; apply bpow_ge_0). now rewrite rnd_0, Ropp_0.
  - split; [now right|]. pose proof (wide_pos _ _ Wd) as d0. pose proof (wide_pos _ _ WD) as D0.
    assert (R1 : rel (102 / 100) (rnd (b - a)) (b - a)).
    { apply (rel_weak (0 + 102 / 100)); [lra| |lra]. apply rel_rnd; [lra|apply rel_refl; lra|lra|right; apply (wide_big 254); [lia|auto]]. }
    set (p := rnd (b - a)) in *. assert (R2 : rel (102 / 100) (p * 100) ((b - a) * 100)) by (apply rel_scal; [exact R1|lra]).
    assert (W2 : wide 261 ((b - a) * 100)).
    { apply (wide_mult 254 7); [auto|]. split; [apply Rle_trans with 1; [change 1 with (bpow radix2 0); apply bpow_le; lia|lra]|change (bpow radix2 7) with 128; lra]. }
    assert (R3 : rel (204 / 100) (rnd (p * 100)) ((b - a) * 100)).
    { apply (rel_weak (102 / 100 + 102 / 100)); [lra| |lra]. apply rel_rnd; [lra|exact R2|lra|right; apply (wide_big 261); [lia|auto]]. }
    assert (V1 : val (fmul (fofZ 100) (fsub f g)) = Fin (- rnd (p * 100))).
    { rewrite val_mul, (val_small 100), Vs by lia. cbn [xmul]. replace (100 * - p) with (- (p * 100)) by ring. rewrite rx_small, rnd_opp; [reflexivity|]. rewrite Rabs_Ropp.
      apply (near_fits 261 _ ((b - a) * 100)); [lia|auto|]. apply (rel_sign (102 / 100)); auto; lra. }
    set (s := rnd (p * 100)) in *.
    assert (R4 : rel (204 / 100) (s / b) D).
    { replace D with ((b - a) * 100 * / b) by (unfold D, Rdiv; ring). apply rel_scal; [exact R3|]. apply Rlt_le, Rinv_0_lt_compat; lra. }
    assert (R5 : rel (31 / 10) (rnd (s / b)) D).
    { apply (rel_weak (204 / 100 + 102 / 100)); [lra| |lra]. apply rel_rnd; [lra|exact R4|lra|right; apply (wide_big 60); [lia|auto]]. }
    exists (rnd (s / b)). split; [|exact R5].
    rewrite val_div by (rewrite Vg; intros X; injection X; lra). rewrite V1, Vg. cbn [xdiv]. destruct Req_EM_T; [lra|]. replace (- s / b) with (- (s / b)) by (unfold Rdiv; ring).
    rewrite rx_small, rnd_opp; [reflexivity|]. rewrite Rabs_Ropp. apply (near_fits 60 _ D); [lia|auto|]. apply (rel_sign (204 / 100)); auto; lra.
Qed.
(** its square over w *)
Lemma square_cell : forall v q D w, val v = Fin (- q) -> (D = 0 \/ wide 60 D) -> rel (31 / 10) q D -> (1 <= w)%nat -> (Z.of_nat w <= 2 ^ 25)%Z ->
  let T := D * D / INR w in (T = 0 \/ wide 410 T) /\ exists p, val (fdiv (fmul v v) (fofZ (Z.of_nat w))) = Fin (1 * p) /\ rel (83 / 10) p T.
Proof.
  intros v q D w V HD R Hw Ww T. assert (W : 1 <= INR w <= 33554432).
  { split; [apply (le_INR 1) in Hw; exact Hw|]. rewrite INR_IZR_INZ. apply (IZR_le _ (2 ^ 25)). exact Ww. }
  assert (Vw : val (fofZ (Z.of_nat w)) = Fin (INR w)) by (rewrite INR_IZR_INZ; apply val_small; lia).
  destruct HD as [D0|WD].
  - assert (T0 : T = 0) by (unfold T; rewrite D0; field; lra). split; [now left|]. exists 0. rewrite T0. split; [|apply rel_refl; lra].
    assert (q = 0). { unfold rel in R. rewrite D0, Rmult_0_r, Rminus_0_r in R. apply abs_le_both in R. lra. } subst q. rewrite Ropp_0 in V.
    rewrite val_div by (rewrite Vw; intros X; injection X; lra). rewrite val_mul, V, Vw. cbn [xmul]. rewrite Rmult_0_r, rx_small by (rewrite Rabs_R0; apply bpow_ge_0). rewrite rnd_0.
    cbn [xdiv]. destruct Req_EM_T; [lra|]. replace (0 / INR w) with 0 by (field; lra). rewrite rx_small by (rewrite Rabs_R0; apply bpow_ge_0). now rewrite rnd_0, Rmult_0_r.
  - pose proof (wide_pos _ _ WD) as D0. assert (W2 : wide 120 (D * D)) by (apply (wide_mult 60 60); auto). pose proof (wide_pos _ _ W2) as Q0.
    assert (WT : wide 145 T).
    { apply (wide_mult 120 25); [auto|]. apply wide_inv. split; [apply Rle_trans with 1; [change 1 with (bpow radix2 0); apply bpow_le; lia|lra]|change (bpow radix2 25) with 33554432; lra]. }
    split; [right; now apply (wide_more 145)|]. pose proof (wide_pos _ _ WT) as T0.
    assert (R2 : rel (624 / 100) (q * q) (D * D)) by (apply (rel_weak (201 / 100 * (31 / 10))); [lra| |lra]; apply rel_square; auto; lra).
    assert (R3 : rel (726 / 100) (rnd (q * q)) (D * D)).
    { apply (rel_weak (624 / 100 + 102 / 100)); [lra| |lra]. apply rel_rnd; [lra|exact R2|lra|right; apply (wide_big 120); [lia|auto]]. }
    assert (R4 : rel (726 / 100) (rnd (q * q) / INR w) T) by (apply rel_scal; [exact R3|apply Rlt_le, Rinv_0_lt_compat; lra]).
    assert (R5 : rel (83 / 10) (rnd (rnd (q * q) / INR w)) T).
    { apply (rel_weak (726 / 100 + 102 / 100)); [lra| |lra]. apply rel_rnd; [lra|exact R4|lra|right; apply (wide_big 145); [lia|auto]]. }
    exists (rnd (rnd (q * q) / INR w)). split; [|exact R5]. rewrite Rmult_1_l.
    rewrite val_div by (rewrite Vw; intros X; injection X; lra). rewrite val_mul, V, Vw. cbn [xmul]. replace (- q * - q) with (q * q) by ring.
    rewrite rx_small. 2: { apply (near_fits 120 _ (D * D)); [lia|auto|]. apply (rel_sign (624 / 100)); auto; lra. }
    cbn [xdiv]. destruct Req_EM_T; [lra|]. apply rx_small. apply (near_fits 145 _ T); [lia|auto|]. apply (rel_sign (726 / 100)); auto; lra.
Qed.

Section Closes.
Variables (rows : list (bar float)) (c : nat -> R).
Hypothesis Hc : forall i b, nth_error rows i = Some b -> val (b_close b) = Fin (c i) /\ tame (c i).
Let x := map b_close rows.
Lemma close_cell : forall i, (i < length rows)%nat -> val (nth i x fnan) = Fin (c i) /\ wide 200 (c i).
Proof.
  intros i Hi. destruct (nth_error rows i) as [b|] eqn:E; [|apply nth_error_None in E; lia]. destruct (Hc i b E) as [A B].
  unfold x. rewrite (nth_error_nth _ _ fnan (map_nth_error b_close _ _ E)). split; [exact A|now apply tame_wide].
Qed.
Lemma peaks : forall w, (1 <= w)%nat -> exists s, rolling (Z.of_nat w) 1 agg_max x = Ok s /\ length s = length rows /\
  forall i, (i < length rows)%nat -> val (nth i s fnan) = Fin (wmax w c i).
Proof.
  intros w Hw. destruct (rolled (rolling (Z.of_nat w) 1 agg_max x) (length rows) (from 0 (wmax w c))) as (s & E & L & N).
  - rewrite <- (max_part w 1) by lia. replace (tab (length rows) (from 0 c)) with (map val x).
    + symmetry. exact (v_rolling_all win_max win_max v_agg_max (Z.of_nat w) 1 x).
    + apply list_tab; [apply map_length|]. intros i Hi. apply close_cell; auto.
  - exists s. split; [exact E|]. split; [exact L|]. intros i Hi. exact (N i Hi).
Qed.

Theorem ulcer_row : forall w fl out i y, (1 <= w)%nat -> (Z.of_nat w <= 2 ^ 25)%Z -> compute (Ulcer (Z.of_nat w)) fl rows = Ok out -> nth_error out i = Some y -> (w - 1 <= i)%nat ->
  let V := sqrt (wmean w (fun j => drawdown w c j * drawdown w c j) i) in within (part (INR w / 10 + 1) V) y (Fin V).
Proof.
  intros w fl out i y Hw Ww E Ny Wi V. pose proof u_small as [U0 U1].
  assert (W : 1 <= INR w <= 33554432).
  { split; [apply (le_INR 1) in Hw; exact Hw|]. rewrite INR_IZR_INZ. apply (IZR_le _ (2 ^ 25)). exact Ww. }
  destruct (peaks w Hw) as (s & Es & Ls & Ns). cbn [compute] in E. unfold ulcer_index in E. fold x in E. rewrite Es in E. cbn [bind] in E.
  set (r := sdiv (scal (fofZ 100) (ssub x s)) s) in *. assert (Lx : length x = length rows) by apply map_length.
  assert (Lr : length r = length rows) by (unfold r, sdiv, scal, ssub; rewrite len_map2; rewrite ?map_length, ?len_map2; lia).
  set (D := fun j => 100 * (wmax w c j - c j) / wmax w c j).
  assert (Cell : forall j, (j < length rows)%nat -> (D j = 0 \/ wide 60 (D j)) /\ exists q, val (nth j r fnan) = Fin (- q) /\ rel (31 / 10) q (D j)).
  { intros j Hj. destruct (close_cell j Hj) as [Vc Wc]. assert (Wm : wide 200 (wmax w c j)) by (destruct (wmax_att w c j Hw) as (k & Hk & ->); apply close_cell; lia).
    destruct (fall_cell _ _ _ _ Vc (Ns j Hj) Wc Wm ltac:(apply wmax_ge; [auto|unfold wlo; lia])) as [A (q & B & C)]. fold (D j) in A, C. split; [exact A|]. exists q. split; [|exact C].
    unfold r, sdiv. rewrite (nth_map2_lt fdiv _ _ _ fnan fnan fnan) by (unfold scal, ssub; rewrite ?map_length, ?len_map2; lia). unfold scal. rewrite (nth_map_lt _ _ _ _ fnan) by (unfold ssub; rewrite len_map2; lia).
    unfold ssub. rewrite (nth_map2_lt fsub _ _ _ fnan fnan fnan) by lia. exact B. }
  set (qr := fun j => match val (nth j r fnan) with Fin q => q | _ => 0 end).
  assert (Hr : forall j, (j < length r)%nat -> val (nth j r fnan) = Fin (qr j) /\ Rabs (qr j) <= bpow radix2 402).
  { intros j Hj. rewrite Lr in Hj. destruct (Cell j Hj) as [A (q & B & C)]. unfold qr. rewrite B. split; [reflexivity|]. rewrite Rabs_Ropp.
    destruct A as [A|A]; [unfold rel in C; rewrite A, Rmult_0_r, Rminus_0_r in C; eapply Rle_trans; [exact C|apply bpow_ge_0]|].
    pose proof (wide_pos _ _ A). apply (rel_sign (31 / 10)) in C; [|lra|lra]. rewrite Rabs_pos_eq by lra. destruct A as [_ A]. apply Rle_trans with (bpow radix2 1 * bpow radix2 60); [change (bpow radix2 1) with 2; lra|rewrite <- bpow_plus; apply bpow_le; lia]. }
  assert (Hm : (0 <= Z.of_nat w <= Z.of_nat w)%Z) by lia. rewrite (rolling_ok _ _ _ r Hm) in E. pose proof (rolling_ok (Z.of_nat w) (Z.of_nat w) (agg_apply (fun x0 => fsqrt (fsum (map (fun v => fdiv (fmul v v) (fofZ (Z.of_nat w))) x0)))) r Hm) as R.
  cbn [bind] in E. apply ok_inj in E. subst out. set (raw := roll_rows _ _ _ _) in *.
  assert (La : length raw = length rows) by (rewrite <- Lr; exact (len_rolling _ _ _ _ _ R)).
  assert (Hi : (i < length rows)%nat). { rewrite <- La, <- (check_length fl 0). apply nth_error_Some. now rewrite Ny. }
  assert (Hi' : (i < length r)%nat) by lia.
  assert (Nr : nth i raw fnan = fsqrt (fsum (map (fun v => fdiv (fmul v v) (fofZ (Z.of_nat w))) (window_at w i r)))).
  { rewrite (nth_rolling_row _ _ _ _ _ _ fnan R) by auto. rewrite (prep_self r qr (bpow radix2 402) Hr), Nat2Z.id. cbn [calc_row agg_apply]. unfold win_apply.
    destruct (window_all w r qr (bpow radix2 402) Hw Hr i Hi') as [Ob Le]. rewrite Ob, Le. rewrite (proj2 (Nat.leb_le _ _)) by (unfold wlen; lia). reflexivity. }
  destruct (window_all w r qr (bpow radix2 402) Hw Hr i Hi') as [_ Le]. assert (Lw : wlen w i = w) by (unfold wlen; lia). rewrite Lw in Le.
  destruct (rel_sum (map (fun v => fdiv (fmul v v) (fofZ (Z.of_nat w))) (window_at w i r)) (fun j => D (wlo w i + j)%nat * D (wlo w i + j)%nat / INR w) (83 / 10) 1 ltac:(auto) ltac:(lra)) as [A (q & B & C)].
  - rewrite map_length, Le. exact Ww.
  - rewrite map_length, Le. intros j Hj. destruct (Cell (wlo w i + j)%nat ltac:(unfold wlo; lia)) as [A (q & B & C)].
    rewrite (nth_map_lt _ _ _ _ fnan) by (rewrite Le; lia). rewrite window_at_nth by (auto; lia). apply (square_cell _ q); auto.
  - rewrite map_length, Le in A, C. rewrite Rmult_1_l in B.
    assert (Sh : rsum (fun j => D (wlo w i + j)%nat * D (wlo w i + j)%nat / INR w) 0 w = wmean w (fun j => drawdown w c j * drawdown w c j) i).
    { unfold wmean, wsum. rewrite Lw. rewrite rsum_div. f_equal. rewrite (rsum_shift (fun j => drawdown w c j * drawdown w c j)). apply rsum_ext. intros j Hj. unfold D, drawdown, Rdiv. ring. }
    rewrite Sh in A, C. set (Q := wmean w _ i) in *. assert (Q0 : 0 <= Q) by (destruct A as [->|A]; [lra|apply wide_pos in A; lra]).
    pose proof (rel_sqrt (112 / 100 * INR w + 83 / 10) _ _ ltac:(lra) C Q0) as C2. fold V in C2. assert (V0 : 0 <= V) by apply sqrt_pos.
    assert (C3 : rel (51 / 100 * (112 / 100 * INR w + 83 / 10) + 102 / 100) (rnd (sqrt q)) V).
    { apply rel_rnd; auto; [lra|]. destruct A as [A|A]; [left; unfold V; rewrite A; apply sqrt_0|right]. destruct A as [A _]. apply Rle_trans with (bpow radix2 (-220)).
      - change 2 with (bpow radix2 1). rewrite <- bpow_plus. apply bpow_le. lia.
      - unfold V. rewrite <- (sqrt_Rsqr (bpow radix2 (-220))) by apply bpow_ge_0. apply sqrt_le_1_alt. unfold Rsqr. rewrite <- bpow_plus. exact A. }
    assert (q0 : 0 <= q) by (apply (rel_sign (112 / 100 * INR w + 83 / 10)) in C; lra).
    assert (Vr : val (nth i raw fnan) = Fin (rnd (sqrt q))). { rewrite Nr, val_sqrt, B. destruct Rlt_dec; [lra|reflexivity]. }
    exists (rnd (sqrt q)). rewrite <- (nth_error_nth _ _ fnan Ny). rewrite (kept_row fl 0 raw i (rnd (sqrt q))) by (auto; lia). split; [exact Vr|].
    unfold rel in C3. eapply Rle_trans; [exact C3|]. rewrite part_u. replace ((INR w / 10 + 1) * (8 * (u * V))) with ((8 / 10 * INR w + 8) * u * V) by field. apply Rmult_le_compat_r; auto. apply Rmult_le_compat_r; lra.
Qed.
(** a zero is a true zero *)
Theorem ulcer_zero : forall w fl out i y, (1 <= w)%nat -> (Z.of_nat w <= 2 ^ 25)%Z -> compute (Ulcer (Z.of_nat w)) fl rows = Ok out -> nth_error out i = Some y -> (w - 1 <= i)%nat ->
  (val y = Fin 0 <-> forall j, (wlo w i <= j <= i)%nat -> c j = wmax w c j).
Proof.
  intros w fl out i y Hw Ww E Ny Wi. destruct (ulcer_row w fl out i y Hw Ww E Ny Wi) as (q & Vq & B). set (V := sqrt _) in *. pose proof u_small as [U0 U1].
  assert (W : 1 <= INR w <= 33554432).
  { split; [apply (le_INR 1) in Hw; exact Hw|]. rewrite INR_IZR_INZ. apply (IZR_le _ (2 ^ 25)). exact Ww. }
  assert (V0 : 0 <= V) by apply sqrt_pos. rewrite part_u in B.
  assert (K : (INR w / 10 + 1) * (8 * (u * V)) <= / 2 * V).
  { replace ((INR w / 10 + 1) * (8 * (u * V))) with ((8 / 10 * INR w + 8) * u * V) by field. apply Rmult_le_compat_r; auto.
    apply Rle_trans with (100000000 * / 1000000000000000); [apply Rmult_le_compat; lra|lra]. }
  assert (Z : val y = Fin 0 <-> V = 0).
  { rewrite Vq. apply abs_le_both in B. split; intros H; [injection H as H; lra|]. f_equal. lra. }
  rewrite Z. assert (Hi : (i < length rows)%nat).
  { assert (L : length out = length rows); [|rewrite <- L; apply nth_error_Some; now rewrite Ny].
    destruct (peaks w Hw) as (s & Es & Ls & Ns). cbn [compute] in E. unfold ulcer_index in E. fold x in E. rewrite Es in E. cbn [bind] in E.
    rewrite (rolling_ok _ _ _ _ (conj (Zle_0_nat w) (Z.le_refl _))) in E. cbn [bind] in E. apply ok_inj in E. subst out. rewrite check_length.
    rewrite (len_rolling _ _ _ _ _ (rolling_ok (Z.of_nat w) (Z.of_nat w) _ _ (conj (Zle_0_nat w) (Z.le_refl _)))). unfold sdiv, scal, ssub. assert (Lx : length x = length rows) by apply map_length. rewrite len_map2; rewrite ?map_length, ?len_map2; lia. }
  assert (M : forall j, (j <= i)%nat -> 0 < wmax w c j) by (intros j Hj; destruct (wmax_att w c j Hw) as (k & Hk & ->); destruct (close_cell k ltac:(lia)) as [_ Wk]; now apply wide_pos in Wk).
  assert (DD : forall j, (j <= i)%nat -> (c j = wmax w c j <-> drawdown w c j * drawdown w c j = 0)).
  { intros j Hj. pose proof (M j Hj) as Mj. unfold drawdown. split; intros H; [rewrite H; field; lra|]. apply Rmult_integral in H. assert (H' : 100 * (c j - wmax w c j) / wmax w c j = 0) by tauto. clear H.
    apply Rmult_integral in H' as [H|H]; [lra|]. pose proof (Rinv_neq_0_compat (wmax w c j) ltac:(lra)). contradiction. }
  assert (Lw : wlen w i = w) by (unfold wlen; lia). set (f := fun j => drawdown w c j * drawdown w c j) in *.
  assert (F0 : forall j, 0 <= f j) by (intros j; apply Rle_0_sqr).
  assert (S0 : 0 <= wmean w f i) by (unfold wmean, wsum; rewrite Lw; apply Rmult_le_pos; [apply rsum_nonneg; auto|apply Rlt_le, Rinv_0_lt_compat; lra]).
  split.
  - intros HV j Hj. apply DD; [lia|]. apply sqrt_eq_0 in HV; [|exact S0]. unfold wmean, wsum in HV. rewrite Lw in HV.
    apply Rmult_integral in HV as [HV|HV]; [|pose proof (Rinv_neq_0_compat (INR w) ltac:(lra)); contradiction]. rewrite rsum_shift in HV.
    pose proof (sum_zero _ _ (fun j _ => F0 (wlo w i + j)%nat) HV (j - wlo w i)%nat) as Q. cbv beta in Q. replace (wlo w i + (j - wlo w i))%nat with j in Q by lia. apply Q. unfold wlo in *. lia.
  - intros H. unfold V. replace (wmean w f i) with 0; [apply sqrt_0|]. unfold wmean, wsum. rewrite Lw, (rsum_ext _ (fun _ => 0 * 0)); [rewrite rsum_scal; field; lra|]. intros j Hj. rewrite Rmult_0_r. apply DD; [unfold wlo in *; lia|]. apply H. unfold wlo in *. lia.
Qed.
End Closes.
