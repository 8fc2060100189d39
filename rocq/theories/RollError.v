(** * RollError: quotients of pandas' running sums in binary64 (C107). *)
From Flocq Require Import Core PrimFloat.
From Coq Require Import Reals Lra Floats.
From Verif Require Import Lists Arith FloatArith FloatReal Order FloatOrder Api Align Causal Rows Running FloatPct EmaError FloatEma FloatTrack SpecNum Tab Averages SpecTracking Tracking RunningError WilderError RsiError Stuck RatioError.
Local Open Scope R_scope.
#[local] Arguments eta : simpl never.
#[local] Arguments u : simpl never.

(** ** running sums *)
Section Sums.
Variables (w : nat) (p : list float) (c : nat -> R) (M : R).
Hypothesis Hw : (1 <= w)%nat.
Hypothesis Ww : (Z.of_nat w <= 2 ^ 28)%Z.
Hypothesis Hn : (1000 * Z.of_nat (length p) <= 2 ^ 53)%Z.
Hypothesis HM : ordinary M.
Hypothesis Hc : forall i, (i < length p)%nat -> val (nth i p fnan) = Fin (c i) /\ Rabs (c i) <= M.
Lemma sum_near : forall fl, exists r, rolling (Z.of_nat w) (minp_of fl (Z.of_nat w)) agg_sum p = Ok r /\ length r = length p /\
  forall i, (i < length p)%nat -> (warm fl w <= i)%nat -> exists q, val (nth i r fnan) = Fin q /\ Rabs (q - wsum w c i) <= 12 * (INR (S i) * (INR w * (u * M))).
Proof.
  intros fl. assert (Hm : (0 <= minp_of fl (Z.of_nat w) <= Z.of_nat w)%Z) by (destruct fl; cbn; lia).
  eexists. split; [apply rolling_ok; exact Hm|]. pose proof (rolling_ok (Z.of_nat w) (minp_of fl (Z.of_nat w)) agg_sum p Hm) as R. split; [exact (len_rolling _ _ _ _ _ R)|].
  intros i Hi Wi. rewrite (nth_rolling_row _ _ _ _ _ _ fnan R) by auto. rewrite (prep_self p c M Hc), Nat2Z.id.
  destruct (window_all w p c M Hw Hc i Hi) as [Ob Le]. cbn [calc_row]. unfold calc_sum. rewrite Ob, Le.
  assert (W0 : (1 <= wlen w i)%nat) by (unfold wlen; lia).
  rewrite (proj2 (Nat.ltb_ge _ _)) by (destruct fl; cbn [minp_of warm] in *; rewrite ?Nat2Z.id; unfold wlen in *; cbn; lia).
  rewrite (proj2 (Nat.eqb_neq (wlen w i) 0)) by lia.
  destruct (run_holds w p c M Hw Ww Hn HM Hc i Hi) as (s & a & r & V & _ & _ & B & _ & _).
  exists s. split; [exact V|]. eapply Rle_trans; [exact B|].
  destruct (big_bounds M HM) as (MP & _). assert (UP : 0 < u) by (unfold u; lra). assert (0 < u * M) by (apply Rmult_lt_0_compat; lra).
  assert (K : INR (Nat.min w (S i)) <= INR w) by (apply le_INR; lia). pose proof (pos_INR (S i)) as S0. pose proof (pos_INR (Nat.min w (S i))).
  replace (12 * INR (S i) * (u * (INR (Nat.min w (S i)) * M))) with (12 * (INR (S i) * (INR (Nat.min w (S i)) * (u * M)))) by ring.
  apply Rmult_le_compat_l; [lra|]. apply Rmult_le_compat_l; [lra|]. apply Rmult_le_compat_r; lra.
Qed.
End Sums.
Lemma wsum_close : forall w f g i e, 0 <= e -> (forall j, (j <= i)%nat -> Rabs (f j - g j) <= e) -> Rabs (wsum w f i - wsum w g i) <= INR w * e.
Proof.
  intros w f g i e E0 H. unfold wsum.
  assert (D : forall n a, rsum f a n - rsum g a n = rsum (fun j => f j - g j) a n).
  { induction n; intros a; [cbn; lra|]. cbn [rsum]. rewrite <- IHn. lra. }
  rewrite D. eapply Rle_trans; [apply (rsum_abs e)|].
  - intros j Hj. apply H. unfold wlo, wlen in Hj. lia.
  - apply Rmult_le_compat_r; [auto|]. apply le_INR. unfold wlen. lia.
Qed.
Lemma wsum_le : forall w f i B, (forall j, (j <= i)%nat -> 0 <= f j <= B) -> 0 <= B -> 0 <= wsum w f i <= INR w * B.
Proof.
  intros w f i B H B0. unfold wsum. assert (L : INR (wlen w i) <= INR w) by (apply le_INR; unfold wlen; lia).
  assert (G : forall n a, (a + n <= S i)%nat -> 0 <= rsum f a n <= INR n * B).
  { induction n; intros a Ha; [cbn; lra|]. rewrite S_INR. cbn [rsum]. pose proof (IHn a ltac:(lia)). pose proof (H (a + n)%nat ltac:(lia)). lra. }
  specialize (G (wlen w i) (wlo w i) ltac:(unfold wlo, wlen; lia)). assert (INR (wlen w i) * B <= INR w * B) by (apply Rmult_le_compat_r; lra). lra.
Qed.
Lemma wsum_weighted : forall w f v i X, (forall j, (j <= i)%nat -> Rabs (f j) <= X * v j) -> Rabs (wsum w f i) <= X * wsum w v i.
Proof.
  intros w f v i X H. unfold wsum.
  assert (G : forall n a, (a + n <= S i)%nat -> Rabs (rsum f a n) <= X * rsum v a n).
  { induction n; intros a Ha; [cbn; rewrite Rabs_R0; lra|]. cbn [rsum]. eapply Rle_trans; [apply Rabs_triang|]. pose proof (IHn a ltac:(lia)). pose proof (H (a + n)%nat ltac:(lia)). lra. }
  apply G. unfold wlo, wlen. lia.
Qed.

(** ** a quotient of two numbers known up to absolute errors *)
Lemma quot_abs : forall p d P D A B X eA eB, val p = Fin P -> val d = Fin D -> Rabs (P - A) <= eA -> Rabs (D - B) <= eB -> 0 < B -> eB <= B / 2 ->
  0 <= X -> Rabs A <= X * B -> let E := (eA + X * eB) / B in X + 2 * E <= bpow radix2 1000 ->
  exists q, val (fdiv p d) = Fin q /\ Rabs (q - A / B) <= 201 / 100 * E + u * X + eta.
Proof.
  intros p d P D A B X eA eB Vp Vd HA HB B0 HB2 X0 HX E HE.
  assert (D2 : B / 2 <= D) by (apply abs_le_both in HB; lra). assert (D0 : 0 < D) by lra.
  assert (eA0 : 0 <= eA) by (pose proof (Rabs_pos (P - A)); lra). assert (eB0 : 0 <= eB) by (pose proof (Rabs_pos (D - B)); lra).
  assert (XB : 0 <= X * eB) by (apply Rmult_le_pos; lra).
  assert (E0 : 0 <= E) by (unfold E; apply Rmult_le_pos; [lra|apply Rlt_le, Rinv_0_lt_compat; lra]).
  assert (Q : Rabs (P / D - A / B) <= 2 * E).
  { replace (P / D - A / B) with (((P - A) - A / B * (D - B)) / D) by (field; lra). unfold Rdiv at 1. rewrite Rabs_mult, (Rabs_pos_eq (/ D)) by (apply Rlt_le, Rinv_0_lt_compat; lra).
    assert (AB : Rabs (A / B) <= X).
    { unfold Rdiv. rewrite Rabs_mult, (Rabs_pos_eq (/ B)) by (apply Rlt_le, Rinv_0_lt_compat; lra). apply div_bound; lra. }
    assert (N : Rabs (P - A - A / B * (D - B)) <= eA + X * eB).
    { eapply Rle_trans; [apply Rabs_triang|]. rewrite Rabs_Ropp, Rabs_mult. pose proof (Rabs_pos (A / B)). pose proof (Rabs_pos (D - B)).
      assert (Rabs (A / B) * Rabs (D - B) <= X * eB) by (apply Rmult_le_compat; lra). lra. }
    apply Rle_trans with ((eA + X * eB) / D); [apply Rmult_le_compat_r; [apply Rlt_le, Rinv_0_lt_compat; lra|exact N]|].
    apply div_bound; [lra|]. unfold E. replace (2 * ((eA + X * eB) / B) * D) with ((eA + X * eB) * (2 * D / B)) by (field; lra).
    assert (1 <= 2 * D / B). { apply Rmult_le_reg_r with B; [lra|]. unfold Rdiv. rewrite Rmult_assoc, Rinv_l by lra. lra. }
    rewrite <- (Rmult_1_r (eA + X * eB)) at 1. apply Rmult_le_compat_l; lra. }
  assert (AB : Rabs (A / B) <= X).
  { unfold Rdiv. rewrite Rabs_mult, (Rabs_pos_eq (/ B)) by (apply Rlt_le, Rinv_0_lt_compat; lra). apply div_bound; lra. }
  assert (PD : Rabs (P / D) <= X + 2 * E) by (apply abs_le_both in Q, AB; apply Rabs_le; lra).
  exists (rnd (P / D)). split.
  - rewrite val_div; rewrite Vd; [|intros H; injection H; lra]. rewrite Vp. cbn [xdiv]. destruct Req_EM_T; [lra|]. apply rx_small.
    eapply Rle_trans; [exact PD|]. eapply Rle_trans; [exact HE|]. apply bpow_le. lia.
  - pose proof (rnd_err (P / D)) as R. assert (u * Rabs (P / D) <= u * X + E / 1000).
    { apply Rle_trans with (u * (X + 2 * E)); [apply Rmult_le_compat_l; [unfold u; lra|exact PD]|]. unfold u. lra. }
    apply abs_le_both in R, Q. apply Rabs_le. lra.
Qed.

(** ** a weighted average of X-bounded numbers f by weights v *)
Section Weighted.
Variables (w : nat) (pv vol : list float) (c f v : nat -> R) (X V : R).
Hypothesis Hw : (1 <= w)%nat.
Hypothesis Ww : (Z.of_nat w <= 2 ^ 28)%Z.
Hypothesis Hn : (1000 * Z.of_nat (length pv) <= 2 ^ 53)%Z.
Hypothesis Len : length vol = length pv.
Hypothesis HX : ordinary X.
Hypothesis HV : ordinary V.
Hypothesis HXV : / IZR (2 ^ 900) <= X * V <= IZR (2 ^ 980).
Hypothesis Hv : forall i, (i < length pv)%nat -> val (nth i vol fnan) = Fin (v i) /\ 0 <= v i <= V.
Hypothesis Hf : forall i, (i < length pv)%nat -> Rabs (f i) <= X.
Hypothesis Hc : forall i, (i < length pv)%nat -> val (nth i pv fnan) = Fin (c i) /\ Rabs (c i - f i * v i) <= 9 * (u * (X * V)).
Lemma product_size : forall i, (i < length pv)%nat -> Rabs (f i * v i) <= X * V /\ Rabs (c i) <= 101 / 100 * (X * V).
Proof.
  intros i Hi. destruct (Hc i Hi) as [_ E]. destruct (Hv i Hi) as [_ B]. pose proof (Hf i Hi) as F.
  assert (A : Rabs (f i * v i) <= X * V) by (rewrite Rabs_mult, (Rabs_pos_eq (v i)) by lra; apply Rmult_le_compat; try apply Rabs_pos; lra).
  split; [exact A|]. destruct (big_bounds X HX) as (PX & _). destruct (big_bounds V HV) as (PV & _). assert (0 < X * V) by (apply Rmult_lt_0_compat; lra).
  apply abs_le_both in A, E. apply Rabs_le. unfold u in E. lra.
Qed.
Lemma weighted_row : forall fl, exists a b, rolling (Z.of_nat w) (minp_of fl (Z.of_nat w)) agg_sum pv = Ok a /\ rolling (Z.of_nat w) (minp_of fl (Z.of_nat w)) agg_sum vol = Ok b /\
  length (sdiv a b) = length pv /\
  forall i, (i < length pv)%nat -> (warm fl w <= i)%nat -> let B := wsum w v i in 0 < B -> part (3 * (INR (S i) * INR w)) V <= B ->
  exists q, val (nth i (sdiv a b) fnan) = Fin q /\ Rabs (q - wsum w (fun j => f j * v j) i / B) <= part (9 * (INR (S i) * INR w)) (X * V / B).
Proof.
  intros fl. destruct (big_bounds X HX) as (PX & X1 & X2 & X3 & X4). destruct (big_bounds V HV) as (PV & V1 & V2 & V3 & V4).
  assert (P : 0 < X * V) by (apply Rmult_lt_0_compat; lra). assert (U : 0 < u) by (unfold u; lra).
  destruct (sum_near w pv c (101 / 100 * (X * V)) Hw Ww Hn) with (fl := fl) as (a & Ea & La & Na).
  { split; [lra|]. assert (IZR (2 ^ 990) = 1024 * IZR (2 ^ 980)) by (rewrite <- mult_IZR; f_equal). pose proof (IZR_lt 0 (2 ^ 980) ltac:(reflexivity)). lra. }
  { intros i Hi. split; [apply Hc; auto|apply product_size; auto]. }
  destruct (sum_near w vol v V Hw Ww) with (fl := fl) as (b & Eb & Lb & Nb); auto.
  { rewrite Len. exact Hn. }
  { intros i Hi. rewrite Len in Hi. destruct (Hv i Hi) as [A B]. split; [exact A|]. rewrite Rabs_pos_eq; lra. }
  exists a, b. split; [exact Ea|]. split; [exact Eb|]. split; [unfold sdiv; rewrite len_map2; congruence|].
  intros i Hi Wi B B0 HB. destruct (Na i Hi Wi) as (s & Vs & Es). destruct (Nb i ltac:(lia) Wi) as (t & Vt & Et).
  set (nw := INR (S i) * INR w) in *. assert (S1 : 1 <= INR (S i)) by (rewrite S_INR; pose proof (pos_INR i); lra). assert (W1 : 1 <= INR w) by (apply (le_INR 1); lia).
  assert (NW : INR w <= nw) by (unfold nw; rewrite <- (Rmult_1_l (INR w)) at 1; apply Rmult_le_compat_r; lra).
  fold B in Et. set (A := wsum w (fun j => f j * v j) i) in *.
  assert (Q0 : 0 < u * (X * V)) by (apply Rmult_lt_0_compat; lra).
  assert (Dc : Rabs (wsum w c i - A) <= INR w * (9 * (u * (X * V)))).
  { apply wsum_close; [lra|]. intros j Hj. apply Hc. lia. }
  assert (EA : Rabs (s - A) <= 2112 / 100 * (nw * (u * (X * V)))).
  { assert (R1 : 12 * (INR (S i) * (INR w * (u * (101 / 100 * (X * V))))) = 1212 / 100 * (nw * (u * (X * V)))) by (unfold nw; field). rewrite R1 in Es.
    assert (INR w * (u * (X * V)) <= nw * (u * (X * V))) by (apply Rmult_le_compat_r; lra).
    apply abs_le_both in Es, Dc. apply Rabs_le. lra. }
  replace (12 * (INR (S i) * (INR w * (u * V)))) with (12 * (nw * (u * V))) in Et by (unfold nw; ring).
  rewrite part_u in HB. rewrite part_u.
  assert (AX : Rabs A <= X * B).
  { apply wsum_weighted. intros j Hj. destruct (Hv j ltac:(lia)) as [_ H]. rewrite Rabs_mult, (Rabs_pos_eq (v j)) by lra. apply Rmult_le_compat_r; [lra|]. apply Hf. lia. }
  assert (BV : B <= INR w * V). { apply wsum_le; [|lra]. intros j Hj. apply Hv. lia. }
  set (G := nw * (u * (X * V)) / B).
  assert (GX : G <= X / 24).
  { unfold G. apply div_bound; [lra|]. replace (nw * (u * (X * V))) with (X * (nw * (u * V))) by ring. replace (X / 24 * B) with (X * (B / 24)) by field. apply Rmult_le_compat_l; lra. }
  assert (G1 : u * X <= G).
  { unfold G. apply Rmult_le_reg_r with B; [lra|]. replace (nw * (u * (X * V)) / B * B) with (u * X * (nw * V)) by (field; lra).
    apply Rmult_le_compat_l; [apply Rmult_le_pos; lra|]. apply Rle_trans with (INR w * V); [exact BV|]. apply Rmult_le_compat_r; lra. }
  assert (EG : (2112 / 100 * (nw * (u * (X * V))) + X * (12 * (nw * (u * V)))) / B = 3312 / 100 * G) by (unfold G; field; lra).
  pose proof (quot_abs (nth i a fnan) (nth i b fnan) s t A B X (2112 / 100 * (nw * (u * (X * V)))) (12 * (nw * (u * V))) Vs Vt EA Et B0 ltac:(lra) ltac:(lra) AX) as Q.
  cbv zeta in Q. rewrite EG in Q. destruct (Q ltac:(lra)) as (q & Vq & Eq).
  exists q. split; [unfold sdiv; rewrite (nth_map2_lt fdiv _ _ _ fnan fnan fnan) by lia; exact Vq|].
  replace (9 * nw * (8 * (u * (X * V / B)))) with (72 * G) by (unfold G; field; lra). assert (0 < u * X) by (apply Rmult_lt_0_compat; lra). lra.
Qed.
End Weighted.

Lemma kept_weighted : forall fl (raw : list float) i y r e, nth_error (check_fillna fl (FillInt 0) raw) i = Some y ->
  (exists q, val (nth i raw fnan) = Fin q /\ Rabs (q - r) <= e) -> (i < length raw)%nat -> within e y (Fin r).
Proof.
  intros fl raw i y r e Ny (q & V & E) Hi. rewrite <- (nth_error_nth _ _ fnan Ny). rewrite (kept_row fl 0 raw i q) by (auto; lia). exists q. auto.
Qed.

Section Rows.
Variables (rows : list (bar float)) (h l c v : nat -> R) (M V : R).
Hypothesis Hc : closes rows c M.
Hypothesis Hr : ranges rows h l M.
Hypothesis Hv : volumes rows v V.
Hypothesis Pv : forall i, (i < length rows)%nat -> 0 <= v i.
Hypothesis HV : ordinary V.
Hypothesis Hn : (1000 * Z.of_nat (length rows) <= 2 ^ 53)%Z.
Lemma cells : forall i, (i < length rows)%nat ->
  (val (nth i (map b_high rows) fnan) = Fin (h i) /\ Rabs (h i) <= M) /\ (val (nth i (map b_low rows) fnan) = Fin (l i) /\ Rabs (l i) <= M) /\
  (val (nth i (map b_close rows) fnan) = Fin (c i) /\ Rabs (c i) <= M) /\ (val (nth i (map b_volume rows) fnan) = Fin (v i) /\ 0 <= v i <= V).
Proof.
  intros i Hi. destruct (nth_error rows i) as [b|] eqn:E; [|apply nth_error_None in E; lia].
  rewrite (nth_error_nth _ _ fnan (map_nth_error b_high _ _ E)), (nth_error_nth _ _ fnan (map_nth_error b_low _ _ E)), (nth_error_nth _ _ fnan (map_nth_error b_close _ _ E)), (nth_error_nth _ _ fnan (map_nth_error b_volume _ _ E)).
  destruct (Hr i b E) as [A B]. destruct (Hv i b E) as [C D]. pose proof (Pv i Hi). rewrite Rabs_pos_eq in D by lra. split; [exact A|]. split; [exact B|]. split; [exact (Hc i b E)|]. auto.
Qed.
Lemma times_volume : forall x X Y z, val x = Fin Y -> 0 < X -> / IZR (2 ^ 900) <= X * V <= IZR (2 ^ 980) -> Rabs (Y - z) <= 78 / 10 * (u * X) -> Rabs z <= X ->
  forall i, (i < length rows)%nat -> exists q, val (fmul x (nth i (map b_volume rows) fnan)) = Fin q /\ Rabs (q - z * v i) <= 9 * (u * (X * V)).
Proof.
  intros x X Y z Vx X0 HXV E Z i Hi. destruct (cells i Hi) as (_ & _ & _ & [Vv Bv]). rewrite pow900 in HXV. destruct HXV as [XV1 XV2]. destruct (big_bounds V HV) as (PV & _).
  assert (P : 0 < X * V) by (apply Rmult_lt_0_compat; lra). assert (UX : 0 < u * X <= X / 1000000) by (unfold u; lra).
  assert (BY : Rabs Y <= 101 / 100 * X) by (apply abs_le_both in E, Z; apply Rabs_le; lra).
  assert (BYv : Rabs (Y * v i) <= 101 / 100 * (X * V)).
  { rewrite Rabs_mult, (Rabs_pos_eq (v i)) by lra. apply Rle_trans with (101 / 100 * X * V); [apply Rmult_le_compat; try apply Rabs_pos; lra|lra]. }
  exists (rnd (Y * v i)). split.
  - rewrite val_mul, Vx, Vv. cbn [xmul]. apply rx_small. eapply Rle_trans; [exact BYv|]. apply Rle_trans with (2 * IZR (2 ^ 980)); [lra|].
    change (IZR (2 ^ 980)) with (IZR (Zpower radix2 980)). rewrite IZR_Zpower by lia. change 2 with (bpow radix2 1). rewrite <- bpow_plus. apply bpow_le. lia.
  - pose proof (rnd_K (X * V) XV1 _ _ BYv) as R. assert (D : Rabs ((Y - z) * v i) <= 78 / 10 * (u * (X * V))).
    { rewrite Rabs_mult, (Rabs_pos_eq (v i)) by lra. apply Rle_trans with (78 / 10 * (u * X) * V); [apply Rmult_le_compat; try apply Rabs_pos; lra|lra]. }
    replace (u * (101 / 100 * (X * V))) with (101 / 100 * (u * (X * V))) in R by field. assert (0 < u * (X * V)) by (apply Rmult_lt_0_compat; [unfold u; lra|lra]).
    replace (rnd (Y * v i) - z * v i) with ((rnd (Y * v i) - Y * v i) + (Y - z) * v i) by ring. eapply Rle_trans; [apply Rabs_triang|]. lra.
Qed.

(** *** VWAP *)
Section Vwap.
Hypothesis HM : ordinary M.
Hypothesis HMV : / IZR (2 ^ 900) <= M * V <= IZR (2 ^ 980).
Let tp := divs (sadd (sadd (map b_high rows) (map b_low rows)) (map b_close rows)) (fofZ 3).
Let pv := smul tp (map b_volume rows).
Lemma len_tp : length tp = length rows.
Proof. unfold tp, divs, sadd. rewrite map_length, !len_map2; rewrite ?len_map2; rewrite ?map_length; auto. Qed.
Lemma tp_cell : forall i, (i < length rows)%nat -> Rabs (typical h l c i) <= M /\ exists q, val (nth i tp fnan) = Fin q /\ Rabs (q - typical h l c i) <= 78 / 10 * (u * M).
Proof.
  intros i Hi. destruct (cells i Hi) as ([V1 B1] & [V2 B2] & [V3 B3] & _). destruct (big_bounds M HM) as (P & M1 & M2 & M3 & M4).
  assert (UM : 0 < u * M <= M / 1000000) by (unfold u; lra). apply abs_le_both in B1, B2, B3.
  unfold tp, divs, sadd. rewrite (nth_map_lt _ _ _ _ fnan) by (rewrite !len_map2; rewrite ?len_map2; rewrite ?map_length; auto).
  rewrite (nth_map2_lt fadd _ _ _ fnan fnan fnan) by (rewrite ?len_map2; rewrite ?map_length; auto).
  rewrite (nth_map2_lt fadd _ _ _ fnan fnan fnan) by (rewrite ?map_length; auto).
  assert (A1 : Rabs (h i + l i) <= 2 * M) by (apply Rabs_le; lra). pose proof (rnd_K M M1 _ _ A1) as E1.
  assert (W1 : val (fadd (nth i (map b_high rows) fnan) (nth i (map b_low rows) fnan)) = Fin (rnd (h i + l i))).
  { rewrite val_add, V1, V2. cbn [xadd]. apply rx_small. lra. }
  set (s := rnd (h i + l i)) in *. replace (u * (2 * M)) with (2 * (u * M)) in E1 by ring. apply abs_le_both in E1.
  assert (A2 : Rabs (s + c i) <= 301 / 100 * M) by (apply Rabs_le; lra). pose proof (rnd_K M M1 _ _ A2) as E2.
  assert (W2 : val (fadd (fadd (nth i (map b_high rows) fnan) (nth i (map b_low rows) fnan)) (nth i (map b_close rows) fnan)) = Fin (rnd (s + c i))).
  { rewrite val_add, W1, V3. cbn [xadd]. apply rx_small. lra. }
  set (t := rnd (s + c i)) in *. replace (u * (301 / 100 * M)) with (301 / 100 * (u * M)) in E2 by field. apply abs_le_both in E2.
  assert (A3 : Rabs (t / 3) <= 101 / 100 * M) by (apply Rabs_le; lra). pose proof (rnd_K M M1 _ _ A3) as E3.
  replace (u * (101 / 100 * M)) with (101 / 100 * (u * M)) in E3 by field. apply abs_le_both in E3.
  split; [unfold typical; apply Rabs_le; lra|]. exists (rnd (t / 3)). split.
  - rewrite val_div; rewrite (val_small 3) by lia; [|intros H; injection H; lra]. rewrite W2. cbn [xdiv]. destruct Req_EM_T; [lra|]. apply rx_small. lra.
  - unfold typical. apply Rabs_le. lra.
Qed.
Theorem vwap_row : forall fl w out i x, (1 <= w)%nat -> (Z.of_nat w <= 2 ^ 28)%Z -> compute (Vwap (Z.of_nat w)) fl rows = Ok out -> nth_error out i = Some x -> (warm fl w <= i)%nat ->
  let B := wsum w v i in 0 < B -> part (3 * (INR (S i) * INR w)) V <= B ->
  within (part (9 * (INR (S i) * INR w)) (M * V / B)) x (Fin (wsum w (fun j => typical h l c j * v j) i / B)).
Proof.
  intros fl w out i x Hw Ww E Nx Wi B B0 HB. cbn [compute] in E. unfold volume_weighted_average_price in E. fold tp in E. fold pv in E.
  assert (Lp : length pv = length rows) by (unfold pv, smul; rewrite len_map2; rewrite len_tp; rewrite ?map_length; auto).
  assert (Pc : forall j, (j < length pv)%nat -> exists q, val (nth j pv fnan) = Fin q /\ Rabs (q - typical h l c j * v j) <= 9 * (u * (M * V))).
  { intros j Hj. rewrite Lp in Hj. unfold pv, smul. rewrite (nth_map2_lt fmul _ _ _ fnan fnan fnan) by (rewrite ?len_tp, ?map_length; auto).
    destruct (tp_cell j Hj) as [A (q & Vq & Eq)]. destruct (big_bounds M HM) as (P & _). exact (times_volume _ M q _ Vq P HMV Eq A j Hj). }
  destruct (weighted_row w pv (map b_volume rows) (fun j => match val (nth j pv fnan) with Fin q => q | _ => 0 end) (typical h l c) v M V Hw Ww) with (fl := fl) as (a & b & Ea & Eb & Lab & N); auto.
  - rewrite Lp. exact Hn.
  - now rewrite Lp, map_length.
  - intros j Hj. rewrite Lp in Hj. apply cells. exact Hj.
  - intros j Hj. rewrite Lp in Hj. apply tp_cell. exact Hj.
  - intros j Hj. destruct (Pc j Hj) as (q & -> & Eq). auto.
  - rewrite Ea, Eb in E. cbn [bind] in E. apply ok_inj in E. subst out.
    assert (Hi : (i < length (sdiv a b))%nat). { assert (H : nth_error (check_fillna fl (FillInt 0) (sdiv a b)) i <> None) by congruence. apply nth_error_Some in H. now rewrite check_length in H. }
    eapply kept_weighted; [exact Nx| |exact Hi]. apply N; auto. lia.
Qed.
End Vwap.

(** *** Chaikin money flow *)
Section Cmf.
Hypothesis HM : M <= IZR (2 ^ 990).
Hypothesis Hs : forall i, (i < length rows)%nat -> l i <= c i <= h i /\ (h i = l i \/ / IZR (2 ^ 900) <= h i - l i).
Hypothesis HV1 : V <= IZR (2 ^ 980).
Let loc := clv (map b_high rows) (map b_low rows) (map b_close rows).
Let mfv := smul loc (map b_volume rows).
Lemma len_loc : length loc = length rows.
Proof. unfold loc, clv, fillna_const, sdiv, ssub. rewrite map_length, !len_map2; rewrite ?len_map2; rewrite ?map_length; auto; rewrite !len_map2; rewrite !map_length; auto. Qed.
Lemma loc_cell : forall i, (i < length rows)%nat -> Rabs (location h l c i) <= 1 /\ exists q, val (nth i loc fnan) = Fin q /\ Rabs (q - location h l c i) <= 78 / 10 * (u * 1).
Proof.
  intros i Hi. destruct (cells i Hi) as ([V1 B1] & [V2 B2] & [V3 B3] & _). destruct (Hs i Hi) as [Hs1 Hs2]. rewrite pow990 in HM. rewrite pow900 in Hs2.
  assert (Nl : nth i loc fnan = let x := fdiv (fsub (fsub (nth i (map b_close rows) fnan) (nth i (map b_low rows) fnan)) (fsub (nth i (map b_high rows) fnan) (nth i (map b_close rows) fnan)))
    (fsub (nth i (map b_high rows) fnan) (nth i (map b_low rows) fnan)) in if fisnan x then fofZ 0 else x).
  { pose proof len_loc as LL. unfold loc, clv, fillna_const, sdiv, ssub in LL |- *. rewrite map_length in LL.
    rewrite (nth_map_lt _ _ _ _ fnan) by lia.
    assert (L1 : length (map2 fsub (map b_close rows) (map b_low rows)) = length rows) by (rewrite len_map2; rewrite !map_length; auto).
    assert (L2 : length (map2 fsub (map b_high rows) (map b_close rows)) = length rows) by (rewrite len_map2; rewrite !map_length; auto).
    assert (L3 : length (map2 fsub (map b_high rows) (map b_low rows)) = length rows) by (rewrite len_map2; rewrite !map_length; auto).
    assert (L4 : length (map2 fsub (map2 fsub (map b_close rows) (map b_low rows)) (map2 fsub (map b_high rows) (map b_close rows))) = length rows) by (rewrite len_map2; lia).
    rewrite (nth_map2_lt fdiv _ _ _ fnan fnan fnan) by lia. rewrite (nth_map2_lt fsub _ _ _ fnan fnan fnan) by lia.
    rewrite !(nth_map2_lt fsub (map b_close rows) _ _ fnan fnan fnan), !(nth_map2_lt fsub (map b_high rows) _ _ fnan fnan fnan) by (rewrite map_length; auto). reflexivity. }
  cbv zeta in Nl. rewrite Nl. clear Nl. apply abs_le_both in B1, B2, B3.
  set (fh := nth i (map b_high rows) fnan) in *. set (f_l := nth i (map b_low rows) fnan) in *. set (fc := nth i (map b_close rows) fnan) in *.
  destruct hundred_990 as [T1 T2]. assert (T3 : bpow radix2 1000 <= bpow radix2 1020) by (apply bpow_le; lia). pose proof (bpow_gt_0 radix2 990) as T4.
  set (a := c i - l i). set (b := h i - c i). set (R := h i - l i) in *. assert (Rab : R = a + b) by (unfold R, a, b; ring).
  assert (Va : val (fsub fc f_l) = Fin (rnd a)) by (apply val_diff; auto; apply Rabs_le; unfold a; lra).
  assert (Vb : val (fsub fh fc) = Fin (rnd b)) by (apply val_diff; auto; apply Rabs_le; unfold b; lra).
  assert (Vd : val (fsub fh f_l) = Fin (rnd R)) by (apply val_diff; auto; apply Rabs_le; unfold R; lra).
  unfold location. destruct (Req_EM_T (h i) (l i)) as [Eq|Ne].
  - split; [rewrite Rabs_R0; lra|]. assert (R0 : R = 0) by (unfold R; lra). assert (a0 : a = 0) by (unfold a; lra). assert (b0 : b = 0) by (unfold b; lra).
    rewrite R0, rnd_0 in Vd. rewrite a0, rnd_0 in Va. rewrite b0, rnd_0 in Vb.
    assert (Vn : val (fsub (fsub fc f_l) (fsub fh fc)) = Fin 0).
    { rewrite (val_diff _ _ 0 0 Va Vb); [|replace (0 - 0) with 0 by ring; rewrite Rabs_R0; pose proof (bpow_gt_0 radix2 1020); lra]. replace (0 - 0) with 0 by ring. now rewrite rnd_0. }
    rewrite val_nan, (val_div_00 _ _ Vn Vd). cbn [xisnan]. exists 0. split; [apply val_small; lia|]. replace (0 - 0) with 0 by ring. rewrite Rabs_R0. unfold u. lra.
  - destruct Hs2 as [Hs2|Hs2]; [lra|]. fold R in Hs2. assert (RP : 0 < R) by (pose proof (bpow_gt_0 radix2 (-900)); lra).
    pose proof (etaM R Hs2) as ET. assert (UR : 0 < u * R <= R / 1000000) by (unfold u; lra).
    assert (A0 : 0 <= a) by (unfold a; lra). assert (B0 : 0 <= b) by (unfold b; lra).
    pose proof (rnd_err a) as Ra. pose proof (rnd_err b) as Rb. pose proof (rnd_err R) as Rr. rewrite (Rabs_pos_eq a A0) in Ra. rewrite (Rabs_pos_eq b B0) in Rb. rewrite (Rabs_pos_eq R) in Rr by lra.
    apply abs_le_both in Ra, Rb, Rr. assert (Ua : u * a + u * b = u * R) by (rewrite Rab; ring).
    assert (Bn : Rabs (rnd a - rnd b) <= 101 / 100 * R) by (apply Rabs_le; assert (0 <= u * a) by (apply Rmult_le_pos; [unfold u; lra|lra]); assert (0 <= u * b) by (apply Rmult_le_pos; [unfold u; lra|lra]); lra).
    pose proof (rnd_K R Hs2 _ _ Bn) as En. replace (u * (101 / 100 * R)) with (101 / 100 * (u * R)) in En by field. apply abs_le_both in En.
    assert (Vn : val (fsub (fsub fc f_l) (fsub fh fc)) = Fin (rnd (rnd a - rnd b))) by (apply val_diff; auto; apply Rle_trans with (101 / 100 * R); [exact Bn|unfold R; lra]).
    assert (Ab : Rabs (a - b) <= 1 * R) by (apply Rabs_le; lra).
    pose proof (quot_abs _ _ _ _ (a - b) R 1 (203 / 100 * (u * R)) (101 / 100 * (u * R)) Vn Vd ltac:(apply Rabs_le; lra) ltac:(apply Rabs_le; lra) RP ltac:(lra) ltac:(lra) Ab) as Q.
    cbv zeta in Q. replace ((203 / 100 * (u * R) + 1 * (101 / 100 * (u * R))) / R) with (304 / 100 * u) in Q by (field; lra).
    destruct (Q ltac:(apply Rle_trans with (bpow radix2 1); [cbn; unfold u; lra|apply bpow_le; lia])) as (q & Vq & Eq).
    rewrite val_nan, Vq. cbn [xisnan]. split.
    + unfold a, b in Ab. fold R. unfold Rdiv. rewrite Rabs_mult, (Rabs_pos_eq (/ R)) by (apply Rlt_le, Rinv_0_lt_compat; lra). apply div_bound; lra.
    + exists q. split; [exact Vq|]. fold R a b. eapply Rle_trans; [exact Eq|].
      assert (eta <= u / 1000). { pose proof (etaM 1 ltac:(change 1 with (bpow radix2 0); apply bpow_le; lia)). lra. } unfold u in *. lra.
Qed.
Theorem cmf_row : forall fl w out i x, (1 <= w)%nat -> (Z.of_nat w <= 2 ^ 28)%Z -> compute (Cmf (Z.of_nat w)) fl rows = Ok out -> nth_error out i = Some x -> (warm fl w <= i)%nat ->
  let B := wsum w v i in 0 < B -> part (3 * (INR (S i) * INR w)) V <= B ->
  within (part (9 * (INR (S i) * INR w)) (V / B)) x (Fin (wsum w (fun j => location h l c j * v j) i / B)).
Proof.
  intros fl w out i x Hw Ww E Nx Wi B B0 HB. cbn [compute] in E. unfold chaikin_money_flow in E. fold loc in E. fold mfv in E.
  assert (O1 : ordinary 1). { split; [rewrite <- Rinv_1; apply Rinv_le_contravar; [lra|apply IZR_le; discriminate]|apply IZR_le; discriminate]. }
  assert (HV2 : / IZR (2 ^ 900) <= 1 * V <= IZR (2 ^ 980)) by (rewrite Rmult_1_l; split; [apply HV|exact HV1]).
  assert (Lp : length mfv = length rows) by (unfold mfv, smul; rewrite len_map2; rewrite len_loc; rewrite ?map_length; auto).
  assert (Pc : forall j, (j < length mfv)%nat -> exists q, val (nth j mfv fnan) = Fin q /\ Rabs (q - location h l c j * v j) <= 9 * (u * (1 * V))).
  { intros j Hj. rewrite Lp in Hj. unfold mfv, smul. rewrite (nth_map2_lt fmul _ _ _ fnan fnan fnan) by (rewrite ?len_loc, ?map_length; auto).
    destruct (loc_cell j Hj) as [A (q & Vq & Eq)]. exact (times_volume _ 1 q _ Vq Rlt_0_1 HV2 Eq A j Hj). }
  destruct (weighted_row w mfv (map b_volume rows) (fun j => match val (nth j mfv fnan) with Fin q => q | _ => 0 end) (location h l c) v 1 V Hw Ww) with (fl := fl) as (a & b & Ea & Eb & Lab & N); auto.
  - rewrite Lp. exact Hn.
  - now rewrite Lp, map_length.
  - intros j Hj. rewrite Lp in Hj. apply cells. exact Hj.
  - intros j Hj. rewrite Lp in Hj. apply loc_cell. exact Hj.
  - intros j Hj. destruct (Pc j Hj) as (q & -> & Eq). auto.
  - rewrite Ea, Eb in E. cbn [bind] in E. apply ok_inj in E. subst out. specialize (N i).
    assert (Hi : (i < length (sdiv a b))%nat). { assert (H : nth_error (check_fillna fl (FillInt 0) (sdiv a b)) i <> None) by congruence. apply nth_error_Some in H. now rewrite check_length in H. }
    eapply kept_weighted; [exact Nx| |exact Hi]. rewrite Rmult_1_l in N. apply N; auto. lia.
Qed.
End Cmf.
End Rows.
