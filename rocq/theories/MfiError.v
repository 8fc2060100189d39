(** * MfiError: the money flow index in binary64 (C109). *)
From Flocq Require Import Core PrimFloat.
From Coq Require Import Reals Lra Floats Permutation.
From Verif Require Import Lists Arith FloatArith FloatReal Order FloatOrder Api Align Causal Rows Running FloatPct EmaError FloatEma FloatTrack SpecNum Sums Tab Averages SpecTracking Tracking RunningError SumError WilderError RsiError Stuck RatioError Lines RollError SpecFlow.
Local Open Scope R_scope.
#[local] Arguments eta : simpl never.
#[local] Arguments u : simpl never.

Lemma u_small : 0 < u <= / 1000000000000000. Proof. unfold u. lra. Qed.
(** one rounding, relative *)
Lemma rnd_rel : forall r, r = 0 \/ bpow radix2 (-900) <= r -> Rabs (rnd r - r) <= 1001 / 1000 * u * r.
Proof.
  intros r [->|H].
  - rewrite rnd_0. rewrite Rminus_0_r, Rabs_R0. lra.
  - pose proof (bpow_gt_0 radix2 (-900)). pose proof (rnd_K r H r r) as R. rewrite Rabs_pos_eq in R by lra. specialize (R (Rle_refl _)). lra.
Qed.
(** |x - y| <= k u y *)
Definition rel (k x y : R) : Prop := Rabs (x - y) <= k * u * y.
Lemma rel_rnd : forall k x y, 0 <= k <= 10000000000 -> rel k x y -> 0 <= y -> (y = 0 \/ 2 * bpow radix2 (-900) <= y) -> rel (k + 102 / 100) (rnd x) y.
Proof.
  intros k x y K E Y D. unfold rel in *. pose proof u_small as [U0 U1]. pose proof (bpow_gt_0 radix2 (-900)) as P.
  assert (KU : 0 <= k * u <= / 100000) by (split; [apply Rmult_le_pos; lra|apply Rle_trans with (10000000000 * / 1000000000000000); [apply Rmult_le_compat; lra|lra]]).
  set (d := k * u) in *. assert (DY : 0 <= d * y <= y / 100000) by (split; [apply Rmult_le_pos; lra|unfold Rdiv; rewrite Rmult_comm; apply Rmult_le_compat_l; lra]).
  apply abs_le_both in E.
  assert (X : x = 0 \/ bpow radix2 (-900) <= x) by (destruct D as [->|D]; [left|right]; lra).
  pose proof (rnd_rel x X) as R. apply abs_le_both in R. replace ((k + 102 / 100) * u * y) with (d * y + 102 / 100 * u * y) by (unfold d; ring).
  assert (Ux : 1001 / 1000 * u * x <= 102 / 100 * u * y).
  { replace (1001 / 1000 * u * x) with (u * (1001 / 1000 * x)) by ring. replace (102 / 100 * u * y) with (u * (102 / 100 * y)) by ring. apply Rmult_le_compat_l; lra. }
  apply Rabs_le. lra.
Qed.
Lemma rel_sign : forall k x y, 0 <= k <= 10000000000 -> rel k x y -> 0 <= y -> 99 / 100 * y <= x <= 101 / 100 * y.
Proof.
  intros k x y K E Y. unfold rel in E. pose proof u_small as [U0 U1].
  assert (KU : 0 <= k * u <= / 100000) by (split; [apply Rmult_le_pos; lra|apply Rle_trans with (10000000000 * / 1000000000000000); [apply Rmult_le_compat; lra|lra]]).
  assert (DY : 0 <= k * u * y <= y / 100000) by (split; [apply Rmult_le_pos; lra|unfold Rdiv; rewrite Rmult_comm; apply Rmult_le_compat_l; lra]).
  apply abs_le_both in E. lra.
Qed.
Lemma rel_weak : forall k k' x y, k <= k' -> rel k x y -> 0 <= y -> rel k' x y.
Proof. intros k k' x y K E Y. unfold rel in *. pose proof u_small as [U0 U1]. eapply Rle_trans; [exact E|]. apply Rmult_le_compat_r; auto. apply Rmult_le_compat_r; lra. Qed.
Lemma rel_add : forall k x y x' y', rel k x y -> rel k x' y' -> rel k (x + x') (y + y').
Proof.
  intros k x y x' y' E E'. unfold rel in *. replace (x + x' - (y + y')) with ((x - y) + (x' - y')) by ring. eapply Rle_trans; [apply Rabs_triang|].
  rewrite (Rmult_plus_distr_l (k * u)). lra.
Qed.
Lemma rel_scal : forall k x y a, rel k x y -> 0 <= a -> rel k (x * a) (y * a).
Proof. intros k x y a E A. unfold rel in *. replace (x * a - y * a) with ((x - y) * a) by ring. rewrite Rabs_mult, (Rabs_pos_eq a) by lra. rewrite <- Rmult_assoc. apply Rmult_le_compat_r; auto. Qed.
Lemma rel_refl : forall k x, 0 <= k -> 0 <= x -> rel k x x.
Proof. intros k x K X. unfold rel. replace (x - x) with 0 by ring. rewrite Rabs_R0. apply Rmult_le_pos; auto. apply Rmult_le_pos; auto. pose proof u_small. lra. Qed.

(** tame numbers and their products *)
Lemma pow200 : IZR (2 ^ 200) = bpow radix2 200. Proof. reflexivity. Qed.
Lemma pow200' : / IZR (2 ^ 200) = bpow radix2 (-200). Proof. reflexivity. Qed.
Lemma tame_pos : forall x, tame x -> 0 < x.
Proof. intros x [H _]. rewrite pow200' in H. pose proof (bpow_gt_0 radix2 (-200)). lra. Qed.
Definition wide (e : Z) (x : R) : Prop := bpow radix2 (- e) <= x <= bpow radix2 e.
Lemma tame_wide : forall x, tame x -> wide 200 x. Proof. intros x [A B]. rewrite pow200' in A. rewrite pow200 in B. split; auto. Qed.
Lemma wide_pos : forall e x, wide e x -> 0 < x. Proof. intros e x [A _]. pose proof (bpow_gt_0 radix2 (- e)). lra. Qed.
Lemma wide_mult : forall e f x y, wide e x -> wide f y -> wide (e + f) (x * y).
Proof.
  intros e f x y [A B] [C D]. pose proof (bpow_gt_0 radix2 (- e)). pose proof (bpow_gt_0 radix2 (- f)). split.
  - replace (- (e + f))%Z with (- e + - f)%Z by lia. rewrite bpow_plus. apply Rmult_le_compat; lra.
  - rewrite bpow_plus. apply Rmult_le_compat; lra.
Qed.
Lemma wide_more : forall e f x, (e <= f)%Z -> wide e x -> wide f x.
Proof. intros e f x H [A B]. split; [eapply Rle_trans; [|exact A]; apply bpow_le; lia|eapply Rle_trans; [exact B|]; apply bpow_le; lia]. Qed.
Lemma wide_near : forall e x y, (0 <= e)%Z -> wide e y -> y / 2 <= x <= 2 * y -> wide (e + 1) x.
Proof.
  intros e x y E [A B] H. replace (- (e + 1))%Z with (- e - 1)%Z by lia. unfold wide. rewrite bpow_plus. replace (- (e + 1))%Z with (- e + -1)%Z by lia. rewrite bpow_plus.
  change (bpow radix2 1) with 2. change (bpow radix2 (-1)) with (/ 2). lra.
Qed.
Lemma wide_inv : forall e x, wide e x -> wide e (/ x).
Proof.
  intros e x [A B]. pose proof (bpow_gt_0 radix2 (- e)). split.
  - rewrite bpow_opp. apply Rinv_le_contravar; lra.
  - rewrite <- (Z.opp_involutive e) at 1. rewrite (bpow_opp radix2 (- e)). apply Rinv_le_contravar; lra.
Qed.
Lemma wide_big : forall e x, (e <= 890)%Z -> wide e x -> 2 * bpow radix2 (-900) <= x /\ Rabs x <= bpow radix2 1019.
Proof.
  intros e x E W. pose proof (wide_pos _ _ W) as P. destruct (wide_more e 890 x E W) as [A B]. split.
  - eapply Rle_trans; [|exact A]. change 2 with (bpow radix2 1). rewrite <- bpow_plus. apply bpow_le. lia.
  - rewrite Rabs_pos_eq by lra. eapply Rle_trans; [exact B|]. apply bpow_le. lia.
Qed.
Lemma near_fits : forall e x y, (e <= 890)%Z -> wide e y -> 99 / 100 * y <= x <= 101 / 100 * y -> Rabs x <= bpow radix2 1020.
Proof.
  intros e x y E W H. pose proof (wide_pos _ _ W). destruct (wide_big e y E W) as [_ B]. rewrite Rabs_pos_eq in B by lra. rewrite Rabs_pos_eq by lra.
  change 1020%Z with (1 + 1019)%Z. rewrite bpow_plus. change (bpow radix2 1) with 2. lra.
Qed.

(** ** sums of numbers of one sign *)
Lemma zero_sum : forall (l : list float) x, totals l x -> Forall (fun y => val y = Fin 0) l -> val x = Fin 0.
Proof.
  intros l x H. induction H as [|x|l m n x y H1 IH1 H2 IH2 Pm]; intros Hl.
  - now apply (val_small 0).
  - exact (Forall_inv Hl).
  - assert (Q : Forall (fun y => val y = Fin 0) (l ++ m)) by (rewrite Forall_forall in *; intros z Z; apply Hl; now rewrite <- Pm). apply Forall_app in Q as [Q1 Q2].
    rewrite val_add, IH1, IH2 by auto. cbn [xadd]. rewrite Rplus_0_r, rx_small by (rewrite Rabs_R0; apply bpow_ge_0). now rewrite rnd_0.
Qed.
Lemma sum_zero : forall f n, (forall j, (j < n)%nat -> 0 <= f j) -> rsum f 0 n = 0 -> forall j, (j < n)%nat -> f j = 0.
Proof.
  intros f n P E. assert (Q : forall m, (m <= n)%nat -> 0 <= rsum f 0 m).
  { induction m; intros Hm; cbn [rsum]; [lra|]. specialize (IHm ltac:(lia)). pose proof (P m ltac:(lia)). rewrite Nat.add_0_l. lra. }
  induction n; intros j Hj; [lia|]. cbn [rsum] in E. rewrite Nat.add_0_l in E. pose proof (Q n ltac:(lia)). pose proof (P n ltac:(lia)).
  destruct (Nat.eq_dec j n) as [->|D]; [lra|]. apply IHn; try lia; try (intros; apply P; lia); try (intros; apply Q; lia); lra.
Qed.
Lemma rel_sum : forall (l : list float) (t : nat -> R) k sg, sg = 1 \/ sg = -1 -> 0 <= k <= 10 -> (Z.of_nat (length l) <= 2 ^ 25)%Z ->
  (forall j, (j < length l)%nat -> (t j = 0 \/ wide 410 (t j)) /\ exists q, val (nth j l fnan) = Fin (sg * q) /\ rel k q (t j)) ->
  let S := rsum t 0 (length l) in (S = 0 \/ wide 440 S) /\ exists q, val (fsum l) = Fin (sg * q) /\ rel (112 / 100 * INR (length l) + k) q S.
Proof.
  intros l t k sg Sg K L H. set (n := length l) in *. intros S.
  assert (Tp : forall j, (j < n)%nat -> 0 <= t j) by (intros j Hj; destruct (H j Hj) as [[->|W] _]; [lra|apply wide_pos in W; lra]).
  assert (N2 : 0 <= INR n <= 33554432) by (split; [apply pos_INR|rewrite INR_IZR_INZ; apply IZR_le; lia]). pose proof u_small as [U0 U1].
  assert (SP : 0 <= S). { unfold S. clear - Tp. induction n; cbn [rsum]; [lra|]. rewrite Nat.add_0_l. pose proof (Tp n ltac:(lia)). specialize (IHn ltac:(intros; apply Tp; lia)). lra. }
  destruct (Req_dec S 0) as [Z|Z].
  - split; [now left|]. exists 0. pose proof (sum_zero t n Tp Z) as T0. split.
    + rewrite Rmult_0_r. apply (zero_sum l); [apply fsum_totals|]. apply Forall_forall. intros x Hx. apply (In_nth _ _ fnan) in Hx as (j & Hj & <-).
      destruct (H j Hj) as [_ (q & V & E)]. rewrite (T0 j Hj) in E. unfold rel in E. rewrite Rmult_0_r, Rminus_0_r in E. apply abs_le_both in E. assert (q = 0) by lra. subst q. now rewrite V, Rmult_0_r.
    + unfold rel. rewrite Z, Rminus_0_r, Rabs_R0, Rmult_0_r. lra.
  - assert (Ws : wide 440 S).
    { assert (Ub : S <= INR n * bpow radix2 410).
      { unfold S. clear - H. fold n in H. induction n as [|n' IH]; [cbn; lra|]. cbn [rsum]. rewrite S_INR, Nat.add_0_l. specialize (IH ltac:(intros; apply H; lia)).
        assert (t n' <= bpow radix2 410) by (destruct (H n' ltac:(lia)) as [[->|[_ W]] _]; [apply bpow_ge_0|exact W]). lra. }
      split.
      - assert (Ex : exists j, (j < n)%nat /\ t j <> 0).
        { unfold S in Z. clear - Z. induction n as [|n' IH]; [cbn in Z; lra|]. cbn [rsum] in Z. rewrite Nat.add_0_l in Z. destruct (Req_dec (t n') 0) as [E|E]; [|exists n'; split; auto].
          destruct IH as (j & Hj & E'); [lra|]. exists j. split; auto. }
        destruct Ex as (j & Hj & Ej). destruct (H j Hj) as [[X|[W _]] _]; [congruence|]. apply Rle_trans with (t j); [eapply Rle_trans; [|exact W]; apply bpow_le; lia|].
        unfold S. clear - Tp Hj. induction n as [|n' IH]; [lia|]. cbn [rsum]. rewrite Nat.add_0_l. pose proof (Tp n' ltac:(lia)). destruct (Nat.eq_dec j n') as [->|D].
        + assert (0 <= rsum t 0 n'). { clear - Tp. assert (G : forall m, (m <= n')%nat -> 0 <= rsum t 0 m). { induction m; intros Hm; cbn [rsum]; [lra|]. rewrite Nat.add_0_l. pose proof (Tp m ltac:(lia)). specialize (IHm ltac:(lia)). lra. } now apply G. } lra.
        + specialize (IH ltac:(intros; apply Tp; lia) ltac:(lia)). lra.
      - eapply Rle_trans; [exact Ub|]. change 440%Z with (30 + 410)%Z. rewrite bpow_plus. apply Rmult_le_compat_r; [apply bpow_ge_0|]. change (bpow radix2 30) with 1073741824. lra. }
    split; [now right|]. pose proof (wide_pos _ _ Ws) as S0. destruct (wide_big 440 S ltac:(lia) Ws) as [B1 B2]. rewrite Rabs_pos_eq in B2 by lra. pose proof (bpow_gt_0 radix2 (-900)) as P9.
    assert (KU : 0 <= k * u <= / 1000) by (split; [apply Rmult_le_pos; lra|apply Rle_trans with (10 * / 1000000000000000); [apply Rmult_le_compat; lra|lra]]).
    assert (SgA : forall x, Rabs (sg * x) = Rabs x) by (intros x; rewrite Rabs_mult; destruct Sg as [-> | ->]; [rewrite Rabs_R1|rewrite (Rabs_left (-1)) by lra]; lra).
    assert (Sc : forall a f, rsum (fun j => a * f j) 0 n = a * rsum f 0 n) by (intros; apply rsum_scal).
    destruct (fsum_near (101 / 100 * S) l (fun j => sg * t j) (fun j => k * u * t j)) as (q & V & E); fold n.
    + lra.
    + change 1020%Z with (1 + 1019)%Z. rewrite bpow_plus. change (bpow radix2 1) with 2. destruct Ws as [_ Ws]. apply Rmult_le_compat_l; [lra|].
      apply Rle_trans with (2 * bpow radix2 440); [lra|]. change 2 with (bpow radix2 1). rewrite <- bpow_plus. apply bpow_le. lia.
    + intros j Hj. destruct (H j Hj) as [_ (q & V & E)]. exists (sg * q). split; [exact V|]. replace (sg * q - sg * t j) with (sg * (q - t j)) by ring. rewrite SgA. exact E.
    + rewrite (rsum_ext _ (fun j => (1 + k * u) * t j)) by (intros j Hj; rewrite SgA, Rabs_pos_eq by (apply Tp; lia); ring). rewrite Sc. fold S.
      apply Rmult_le_compat_r; lra.
    + apply Rle_trans with (33554432 * / 1000000000000000); [apply Rmult_le_compat; lra|lra].
    + fold n in E. rewrite !Sc in E. fold S in E. exists (sg * q). split.
      * replace (sg * (sg * q)) with q; [exact V|]. destruct Sg as [-> | ->]; ring.
      * unfold rel. replace (sg * q - S) with (sg * (q - sg * S)) by (destruct Sg as [-> | ->]; ring). rewrite SgA. eapply Rle_trans; [exact E|].
        replace (INR n * (11 / 10 * (u * (101 / 100 * S))) + k * u * S) with ((1111 / 1000 * INR n + k) * u * S) by field.
        apply Rmult_le_compat_r; [lra|]. apply Rmult_le_compat_r; lra.
Qed.

(** ** the typical price and the signed flow of a row *)
Section Rows.
Variables (rows : list (bar float)) (h l c v : nat -> R).
Hypothesis Hp : priced rows h l c v.
Let t := typical h l c.
Let tp := divs (sadd (sadd (map b_high rows) (map b_low rows)) (map b_close rows)) (fofZ 3).
Let dir := fun x p : float => if fltb p x then fofZ 1 else if fltb x p then fofZ (-1) else fofZ 0.
Let mfr := smul (smul tp (map b_volume rows)) (map2 dir tp (shift 1 tp)).

Lemma row_cells : forall i, (i < length rows)%nat ->
  (val (nth i (map b_high rows) fnan) = Fin (h i) /\ tame (h i)) /\ (val (nth i (map b_low rows) fnan) = Fin (l i) /\ tame (l i)) /\
  (val (nth i (map b_close rows) fnan) = Fin (c i) /\ tame (c i)) /\ (val (nth i (map b_volume rows) fnan) = Fin (v i) /\ (v i = 0 \/ tame (v i))).
Proof.
  intros i Hi. destruct (nth_error rows i) as [b|] eqn:E; [|apply nth_error_None in E; lia].
  rewrite (nth_error_nth _ _ fnan (map_nth_error b_high _ _ E)), (nth_error_nth _ _ fnan (map_nth_error b_low _ _ E)), (nth_error_nth _ _ fnan (map_nth_error b_close _ _ E)), (nth_error_nth _ _ fnan (map_nth_error b_volume _ _ E)).
  exact (Hp i b E).
Qed.
Lemma len_tp : length tp = length rows.
Proof. unfold tp, divs, sadd. rewrite map_length, !len_map2; rewrite ?len_map2; rewrite ?map_length; auto. Qed.
Lemma typical_wide : forall i, (i < length rows)%nat -> wide 200 (t i).
Proof.
  intros i Hi. destruct (row_cells i Hi) as ([_ A] & [_ B] & [_ C] & _). apply tame_wide in A, B, C. destruct A, B, C. unfold t, typical. split; lra.
Qed.
(** the computed typical price is a function of the three prices *)
Definition tp_of (a b d : R) : R := rnd (rnd (rnd (a + b) + d) / 3).
Lemma tp_value : forall i, (i < length rows)%nat -> val (nth i tp fnan) = Fin (tp_of (h i) (l i) (c i)) /\ rel (31 / 10) (tp_of (h i) (l i) (c i)) (t i).
Proof.
  intros i Hi. destruct (row_cells i Hi) as ([V1 A] & [V2 B] & [V3 C] & _). apply tame_wide in A, B, C. pose proof (wide_pos _ _ A) as A0. pose proof (wide_pos _ _ B) as B0. pose proof (wide_pos _ _ C) as C0.
  assert (W1 : wide 202 (h i + l i)). { destruct A, B. split; [apply Rle_trans with (bpow radix2 (- (200))); [apply bpow_le; lia|lra]|apply Rle_trans with (4 * bpow radix2 200); [lra|change 4 with (bpow radix2 2); rewrite <- bpow_plus; apply bpow_le; lia]]. }
  assert (W2 : wide 202 (h i + l i + c i)). { destruct A, B, C. split; [apply Rle_trans with (bpow radix2 (- (200))); [apply bpow_le; lia|lra]|apply Rle_trans with (4 * bpow radix2 200); [lra|change 4 with (bpow radix2 2); rewrite <- bpow_plus; apply bpow_le; lia]]. }
  pose proof (typical_wide i Hi) as W3. pose proof (wide_pos _ _ W3) as T0.
  assert (R1 : rel (102 / 100) (rnd (h i + l i)) (h i + l i)).
  { apply (rel_weak (0 + 102 / 100)); [lra| |lra]. apply rel_rnd; [lra|apply rel_refl; lra|lra|right; apply (wide_big 202); [lia|auto]]. }
  assert (R2 : rel (102 / 100) (rnd (h i + l i) + c i) (h i + l i + c i)) by (apply rel_add; [exact R1|apply rel_refl; lra]).
  assert (R3 : rel (204 / 100) (rnd (rnd (h i + l i) + c i)) (h i + l i + c i)).
  { apply (rel_weak (102 / 100 + 102 / 100)); [lra| |lra]. apply rel_rnd; [lra|exact R2|lra|right; apply (wide_big 202); [lia|auto]]. }
  assert (R4 : rel (204 / 100) (rnd (rnd (h i + l i) + c i) / 3) (t i)) by (unfold t, typical; apply (rel_scal _ _ _ (/ 3)); [exact R3|lra]).
  assert (R5 : rel (31 / 10) (tp_of (h i) (l i) (c i)) (t i)).
  { apply (rel_weak (204 / 100 + 102 / 100)); [lra| |lra]. apply rel_rnd; [lra|exact R4|lra|right; apply (wide_big 200); [lia|auto]]. }
  split; [|exact R5].
  unfold tp, divs, sadd. rewrite (nth_map_lt _ _ _ _ fnan) by (rewrite !len_map2; rewrite ?len_map2; rewrite ?map_length; auto).
  rewrite (nth_map2_lt fadd _ _ _ fnan fnan fnan) by (rewrite ?len_map2; rewrite ?map_length; auto).
  rewrite (nth_map2_lt fadd _ _ _ fnan fnan fnan) by (rewrite ?map_length; auto).
  rewrite val_div; rewrite (val_small 3) by lia; [|intros X; injection X; lra]. rewrite !val_add, V1, V2, V3. cbn [xadd].
  rewrite (rx_small (h i + l i)). 2: { apply (near_fits 202 _ (h i + l i)); [lia|auto|]. lra. }
  cbn [xadd]. rewrite (rx_small (_ + c i)). 2: { apply (near_fits 202 _ (h i + l i + c i)); [lia|auto|]. apply (rel_sign (102 / 100)); auto; lra. }
  cbn [xdiv]. destruct Req_EM_T; [lra|]. apply rx_small. apply (near_fits 200 _ (t i)); [lia|auto|]. apply (rel_sign (204 / 100)); auto; lra.
Qed.
Lemma dir_value : forall i, (i < length rows)%nat ->
  exists s, val (nth i (map2 dir tp (shift 1 tp)) fnan) = Fin s /\ (s = 1 \/ s = -1 \/ s = 0) /\ (i = 0%nat -> s = 0) /\
    (v i <> 0 -> (1 <= i)%nat -> clear h l c v i -> (t (i - 1)%nat < t i -> s = 1) /\ (t i < t (i - 1)%nat -> s = -1) /\ (t i = t (i - 1)%nat -> s = 0)).
Proof.
  intros i Hi. assert (Lt := len_tp).
  rewrite (nth_map2_lt dir _ _ _ fnan fnan fnan) by (rewrite ?len_shift; lia). destruct i as [|i].
  - exists 0. split; [|split; [auto|split; [auto|intros; lia]]]. unfold dir. rewrite !val_ltb.
    assert (N : val (nth 0 (shift 1 tp) fnan) = NaN). { unfold shift, shift_fill. cbn [Z.leb Z.compare]. destruct tp eqn:Et; [cbn in Lt; lia|]. cbn. exact val_fnan. }
    rewrite N. destruct (tp_value 0 Hi) as [V _]. rewrite V. cbn [xltb]. now apply (val_small 0).
  - rewrite nth_shift1 by lia. replace (S i - 1)%nat with i by lia. destruct (tp_value (S i) Hi) as [V R]. destruct (tp_value i ltac:(lia)) as [V' R'].
    unfold dir. rewrite !val_ltb, V, V'. cbn [xltb]. set (a := tp_of (h (S i)) _ _) in *. set (b := tp_of (h i) _ _) in *.
    assert (E : exists s, val (if (if Rlt_dec b a then true else false) then fofZ 1 else if (if Rlt_dec a b then true else false) then fofZ (-1) else fofZ 0) = Fin s /\
      (b < a -> s = 1) /\ (a < b -> s = -1) /\ (a = b -> s = 0)).
    { destruct (Rlt_dec b a); [exists 1; split; [now apply (val_small 1)|]; repeat split; intros; lra|].
      destruct (Rlt_dec a b); [exists (-1); split; [now apply (val_small (-1))|]; repeat split; intros; lra|]. exists 0. split; [now apply (val_small 0)|]. repeat split; intros; lra. }
    destruct E as (s & E & S1 & S2 & S3). exists s. split; [exact E|]. split; [destruct (Rtotal_order a b) as [?|[?|?]]; auto|]. split; [discriminate|].
    intros Nv _ Cl. unfold clear in Cl. replace (S i - 1)%nat with i in Cl by lia. destruct Cl as [Cl|[(C1 & C2 & C3)|Cl]]; [congruence| |].
    + assert (t (S i) = t i) by (unfold t, typical; now rewrite C1, C2, C3). assert (a = b) by (unfold a, b; now rewrite C1, C2, C3). repeat split; intros; try lra; auto.
    + fold t in Cl. rewrite part_u in Cl. unfold rel in R, R'. apply abs_le_both in R, R'. pose proof u_small as [U0 _].
      pose proof (wide_pos _ _ (typical_wide (S i) Hi)) as T1. pose proof (wide_pos _ _ (typical_wide i ltac:(lia))) as T2.
      set (x := t (S i)) in *. set (y := t i) in *. assert (P1 : 0 < u * x) by (apply Rmult_lt_0_compat; lra). assert (P2 : 0 < u * y) by (apply Rmult_lt_0_compat; lra).
      replace (31 / 10 * u * x) with (31 / 10 * (u * x)) in R by ring. replace (31 / 10 * u * y) with (31 / 10 * (u * y)) in R' by ring.
      replace (1 * (8 * (u * (x + y)))) with (8 * (u * x) + 8 * (u * y)) in Cl by ring. split; [|split].
      * intros L. rewrite Rabs_pos_eq in Cl by lra. apply S1. lra.
      * intros L. rewrite Rabs_left in Cl by lra. apply S2. lra.
      * intros L. rewrite L in Cl. replace (y - y) with 0 in Cl by ring. rewrite Rabs_R0 in Cl. lra.
Qed.

Let mf := money_flow h l c v.
Lemma len_mfr : length mfr = length rows.
Proof. pose proof len_tp as L. unfold mfr, smul. rewrite !len_map2; rewrite ?len_map2; rewrite ?len_shift, ?map_length; auto. Qed.
Lemma mf_parts : forall i, (i < length rows)%nat -> let x := t i * v i in
  x = 0 \/ wide 400 x.
Proof.
  intros i Hi. destruct (row_cells i Hi) as (_ & _ & _ & _ & [E|T]); cbv zeta; [left; rewrite E; ring|right].
  apply (wide_mult 200 200); [now apply typical_wide|now apply tame_wide].
Qed.
Lemma flow_value : forall i, (i < length rows)%nat -> exists q, val (nth i mfr fnan) = Fin q /\ Rabs q <= bpow radix2 402 /\
  (i = 0%nat \/ clear h l c v i -> rel 5 (Rmax 0 q) (Rmax 0 (mf i)) /\ rel 5 (Rmax 0 (- q)) (Rmax 0 (- mf i)) /\
     (Rmax 0 (mf i) = 0 \/ wide 400 (Rmax 0 (mf i))) /\ (Rmax 0 (- mf i) = 0 \/ wide 400 (Rmax 0 (- mf i)))).
Proof.
  intros i Hi. pose proof len_tp as Lt. destruct (row_cells i Hi) as (_ & _ & _ & [Vv Bv]). destruct (tp_value i Hi) as [Vt Rt]. destruct (dir_value i Hi) as (s & Vs & Ss & S0 & Sc).
  pose proof (wide_pos _ _ (typical_wide i Hi)) as T0. set (q0 := tp_of (h i) (l i) (c i)) in *.
  assert (v0 : 0 <= v i) by (destruct Bv as [->|B]; [lra|apply tame_pos in B; lra]). assert (x0 : 0 <= t i * v i) by (apply Rmult_le_pos; lra).
  assert (R1 : rel (31 / 10) (q0 * v i) (t i * v i)) by (apply rel_scal; auto).
  assert (R2 : rel 5 (rnd (q0 * v i)) (t i * v i)).
  { apply (rel_weak (31 / 10 + 102 / 100)); [lra| |lra]. apply rel_rnd; [lra|exact R1|lra|]. destruct (mf_parts i Hi) as [E|W]; [now left|right; apply (wide_big 400); [lia|exact W]]. }
  assert (V1 : val (fmul (nth i tp fnan) (nth i (map b_volume rows) fnan)) = Fin (rnd (q0 * v i))).
  { rewrite val_mul, Vt, Vv. cbn [xmul]. apply rx_small. destruct (mf_parts i Hi) as [E|W].
    - unfold rel in R1. rewrite E, Rmult_0_r, Rminus_0_r in R1. eapply Rle_trans; [exact R1|apply bpow_ge_0].
    - apply (near_fits 400 _ (t i * v i)); [lia|exact W|]. apply (rel_sign (31 / 10)); auto; lra. }
  assert (V2 : val (nth i mfr fnan) = Fin (rnd (q0 * v i) * s)).
  { unfold mfr, smul. rewrite (nth_map2_lt fmul _ _ _ fnan fnan fnan) by (rewrite ?len_map2; rewrite ?len_shift, ?map_length; auto; lia).
    rewrite (nth_map2_lt fmul _ _ _ fnan fnan fnan) by (rewrite ?map_length; lia). rewrite val_mul, V1, Vs. cbn [xmul].
    assert (I : rx (Fin (rnd (q0 * v i))) = Fin (rnd (q0 * v i))) by (rewrite <- V1; apply rx_id).
    destruct Ss as [-> | [-> | ->]].
    - rewrite Rmult_1_r. exact I.
    - replace (rnd (q0 * v i) * -1) with (- rnd (q0 * v i)) by ring.
      pose proof (rx_id (fopp (fmul (nth i tp fnan) (nth i (map b_volume rows) fnan)))) as I'. rewrite val_opp, V1 in I'. exact I'.
    - rewrite Rmult_0_r, rx_small by (rewrite Rabs_R0; apply bpow_ge_0). now rewrite rnd_0. }
  exists (rnd (q0 * v i) * s). split; [exact V2|]. split.
  { assert (B : Rabs (rnd (q0 * v i)) <= bpow radix2 402).
    { apply (rel_sign 5) in R2; [|lra|lra]. rewrite Rabs_pos_eq by lra. destruct (mf_parts i Hi) as [E|[_ W]]; [rewrite E in R2; pose proof (bpow_ge_0 radix2 402); lra|].
      apply Rle_trans with (bpow radix2 2 * bpow radix2 400); [change (bpow radix2 2) with 4; pose proof (bpow_gt_0 radix2 400); lra|rewrite <- bpow_plus; apply bpow_le; lia]. }
    rewrite Rabs_mult. apply Rle_trans with (bpow radix2 402 * 1); [|lra]. apply Rmult_le_compat; try apply Rabs_pos; auto.
    destruct Ss as [-> | [-> | ->]]; [rewrite Rabs_R1|rewrite Rabs_left by lra|rewrite Rabs_R0]; lra. }
  intros Cl. set (q := rnd (q0 * v i)) in *. set (x := t i * v i) in *.
  assert (Q0 : 0 <= q) by (apply (rel_sign 5) in R2; lra).
  assert (Z : rel 5 0 0) by (apply rel_refl; lra).
  assert (E : (mf i = x /\ (s = 1 \/ q = 0)) \/ (mf i = - x /\ (s = -1 \/ q = 0)) \/ (mf i = 0 /\ (s = 0 \/ q = 0))).
  { unfold mf, money_flow. destruct i as [|j]; [right; right; split; auto|]. fold t. cbv zeta. destruct Cl as [Cl|Cl]; [discriminate|].
    destruct (Req_dec (v (S j)) 0) as [v1|v1].
    - assert (X : x = 0) by (unfold x; rewrite v1; ring). assert (Y : q = 0). { unfold rel in R2. rewrite X, Rmult_0_r, Rminus_0_r in R2. apply abs_le_both in R2. lra. }
      left. split; [|auto]. fold x. rewrite X. destruct (Rlt_dec _ _); [auto|]. destruct (Rlt_dec _ _); [ring|auto].
    - destruct (Sc v1 ltac:(lia) Cl) as (A1 & A2 & A3). replace (S j - 1)%nat with j in * by lia. destruct (Rlt_dec (t j) (t (S j))); [left; auto|].
      destruct (Rlt_dec (t (S j)) (t j)); [right; left; auto|right; right; split; [auto|left; apply A3; lra]]. }
  destruct (mf_parts i Hi) as [X|W]; fold x in X || fold x in W.
  - assert (Y : q = 0). { unfold rel in R2. rewrite X, Rmult_0_r, Rminus_0_r in R2. apply abs_le_both in R2. lra. }
    assert (M0 : mf i = 0) by (destruct E as [[-> _]|[[-> _]|[-> _]]]; lra). rewrite M0, Y, Rmult_0_l, Ropp_0, (Rmax_left 0 0) by lra. auto.
  - pose proof (wide_pos _ _ W) as X0. assert (Qp : 0 < q) by (apply (rel_sign 5) in R2; lra).
    destruct E as [[-> [->|Y]]|[[-> [->|Y]]|[-> [->|Y]]]]; try lra.
    + rewrite Rmult_1_r, (Rmax_right 0 q), (Rmax_right 0 x), (Rmax_left 0 (- q)), (Rmax_left 0 (- x)) by lra. auto.
    + replace (q * -1) with (- q) by ring. rewrite !Ropp_involutive, (Rmax_right 0 q), (Rmax_right 0 x), (Rmax_left 0 (- q)), (Rmax_left 0 (- x)) by lra. auto.
    + rewrite Rmult_0_r, Ropp_0, (Rmax_left 0 0) by lra. auto.
Qed.
Let qf (i : nat) : R := match val (nth i mfr fnan) with Fin q => q | _ => 0 end.
Lemma mfr_cell : forall i, (i < length mfr)%nat -> val (nth i mfr fnan) = Fin (qf i) /\ Rabs (qf i) <= bpow radix2 402.
Proof. intros i Hi. rewrite len_mfr in Hi. destruct (flow_value i Hi) as (q & V & B & _). unfold qf. rewrite V. split; auto. Qed.

(** ** the two sums of a window *)
Section Window.
Variable w : nat.
Hypothesis Hw : (1 <= w)%nat.
Hypothesis Ww : (Z.of_nat w <= 2 ^ 25)%Z.
Variables (g : float -> float) (sg : R) (part_of : R -> R).
Hypothesis Sg : sg = 1 \/ sg = -1.
Hypothesis Hg : forall x q, val x = Fin q -> val (g x) = Fin (sg * part_of q).
Hypothesis Hpart : forall i, (i < length rows)%nat -> i = 0%nat \/ clear h l c v i -> rel 5 (part_of (qf i)) (part_of (mf i)) /\ (part_of (mf i) = 0 \/ wide 400 (part_of (mf i))).
Lemma flow_sum : forall fl, exists r, rolling (Z.of_nat w) (minp_of fl (Z.of_nat w)) (agg_apply (fun x => fsum (map g x))) mfr = Ok r /\ length r = length mfr /\
  forall i, (i < length rows)%nat -> (warm fl w <= i)%nat -> (forall j, (wlo w i <= j <= i)%nat -> j = 0%nat \/ clear h l c v j) ->
  let S := wsum w (fun j => part_of (mf j)) i in (S = 0 \/ wide 440 S) /\ exists q, val (nth i r fnan) = Fin (sg * q) /\ rel (112 / 100 * INR w + 5) q S.
Proof.
  intros fl. assert (Hm : (0 <= minp_of fl (Z.of_nat w) <= Z.of_nat w)%Z) by (destruct fl; cbn; lia).
  eexists. split; [apply rolling_ok; exact Hm|]. pose proof (rolling_ok (Z.of_nat w) (minp_of fl (Z.of_nat w)) (agg_apply (fun x => fsum (map g x))) mfr Hm) as R. split; [exact (len_rolling _ _ _ _ _ R)|].
  intros i Hi Wi Cl S. pose proof len_mfr as Lm. assert (Hi' : (i < length mfr)%nat) by lia.
  rewrite (nth_rolling_row _ _ _ _ _ _ fnan R) by auto. rewrite (prep_self mfr qf (bpow radix2 402) mfr_cell), Nat2Z.id. cbn [calc_row agg_apply]. unfold win_apply.
  destruct (window_all w mfr qf (bpow radix2 402) Hw mfr_cell i Hi') as [Ob Le]. rewrite Ob, Le.
  rewrite (proj2 (Nat.leb_le _ _)) by (destruct fl; cbn [minp_of warm] in *; rewrite ?Nat2Z.id; unfold wlen in *; cbn; lia).
  set (n := wlen w i) in *. assert (Nw : (n <= w)%nat) by (unfold n, wlen; lia).
  assert (Sh : S = rsum (fun j => part_of (mf (wlo w i + j)%nat)) 0 n) by (unfold S, wsum; apply rsum_shift).
  destruct (rel_sum (map g (window_at w i mfr)) (fun j => part_of (mf (wlo w i + j)%nat)) 5 sg Sg ltac:(lra)) as [A (q & V & E)].
  - rewrite map_length, Le. lia.
  - rewrite map_length, Le. intros j Hj. assert (B : (wlo w i + j < length rows)%nat) by (unfold n, wlen, wlo in *; lia).
    destruct (Hpart (wlo w i + j)%nat B (Cl (wlo w i + j)%nat ltac:(unfold n, wlen, wlo in *; lia))) as [P1 P2].
    split; [destruct P2; [now left|right; apply (wide_more 400); [lia|auto]]|]. exists (part_of (qf (wlo w i + j)%nat)). split; [|exact P1].
    rewrite (nth_map_lt _ _ _ _ fnan) by (rewrite Le; lia). rewrite window_at_nth by (auto; unfold n, wlen in Hj; lia). apply Hg. change (nth (wlo w i + j) mfr fnan) with (nth (wlo w i + j) mfr fnan). apply mfr_cell. lia.
  - rewrite map_length, Le, <- Sh in *. split; [exact A|]. exists q. split; [exact V|].
    assert (S0 : 0 <= S) by (destruct A as [->|A]; [lra|apply wide_pos in A; lra]). apply (rel_weak (112 / 100 * INR n + 5)); auto. assert (INR n <= INR w) by (apply le_INR; lia). lra.
Qed.
End Window.

(** ** from the two sums to the index *)
Lemma rel_div : forall k x y x' y', 0 <= k <= 10000000000 -> rel k x y -> rel k x' y' -> 0 <= y -> 0 < y' -> rel (201 / 100 * k) (x / x') (y / y').
Proof.
  intros k x y x' y' K E E' Y Y'. pose proof u_small as [U0 U1]. unfold rel in *.
  assert (KU : 0 <= k * u <= / 100000) by (split; [apply Rmult_le_pos; lra|apply Rle_trans with (10000000000 * / 1000000000000000); [apply Rmult_le_compat; lra|lra]]).
  set (d := k * u) in *. assert (D : 0 <= d * y' <= y' / 100000) by (split; [apply Rmult_le_pos; lra|unfold Rdiv; rewrite Rmult_comm; apply Rmult_le_compat_l; lra]).
  assert (X' : 99999 / 100000 * y' <= x') by (apply abs_le_both in E'; lra). assert (X0 : 0 < x') by lra.
  replace (x / x' - y / y') with (((x - y) * y' + y * (y' - x')) / (x' * y')) by (field; lra).
  unfold Rdiv at 1. rewrite Rabs_mult, (Rabs_pos_eq (/ (x' * y'))) by (apply Rlt_le, Rinv_0_lt_compat, Rmult_lt_0_compat; lra).
  apply div_bound; [apply Rmult_lt_0_compat; lra|]. replace (201 / 100 * k * u * (y / y') * (x' * y')) with (201 / 100 * (d * y) * x') by (unfold d; field; lra).
  assert (DY : 0 <= d * y) by (apply Rmult_le_pos; lra).
  apply Rle_trans with (2 * (d * y) * y').
  - eapply Rle_trans; [apply Rabs_triang|]. rewrite !Rabs_mult, (Rabs_pos_eq y'), (Rabs_pos_eq y) by lra. rewrite (Rabs_minus_sym y' x').
    assert (Rabs (x - y) * y' <= d * y * y') by (apply Rmult_le_compat_r; lra). assert (y * Rabs (x' - y') <= y * (d * y')) by (apply Rmult_le_compat_l; lra). lra.
  - apply Rle_trans with (201 / 100 * (d * y) * (99999 / 100000 * y')); [|apply Rmult_le_compat_l; lra].
    assert (0 <= d * y * y') by (apply Rmult_le_pos; lra). lra.
Qed.
Lemma rel_inv : forall k x y, 0 <= k <= 10000000000 -> rel k x y -> 0 < y -> rel (101 / 100 * k) (/ x) (/ y).
Proof.
  intros k x y K E Y. pose proof u_small as [U0 U1]. unfold rel in *.
  assert (KU : 0 <= k * u <= / 100000) by (split; [apply Rmult_le_pos; lra|apply Rle_trans with (10000000000 * / 1000000000000000); [apply Rmult_le_compat; lra|lra]]).
  set (d := k * u) in *. assert (D : 0 <= d * y <= y / 100000) by (split; [apply Rmult_le_pos; lra|unfold Rdiv; rewrite Rmult_comm; apply Rmult_le_compat_l; lra]).
  assert (X : 99999 / 100000 * y <= x) by (apply abs_le_both in E; lra).
  replace (/ x - / y) with ((y - x) / (x * y)) by (field; lra). unfold Rdiv at 1. rewrite Rabs_mult, (Rabs_pos_eq (/ (x * y))) by (apply Rlt_le, Rinv_0_lt_compat, Rmult_lt_0_compat; lra).
  apply div_bound; [apply Rmult_lt_0_compat; lra|]. rewrite Rabs_minus_sym. eapply Rle_trans; [exact E|]. replace (101 / 100 * k * u * / y * (x * y)) with (101 / 100 * d * x) by (unfold d; field; lra).
  apply Rle_trans with (101 / 100 * d * (99999 / 100000 * y)); [lra|]. apply Rmult_le_compat_l; lra.
Qed.
Lemma val_div_0 : forall x y r, val x = Fin r -> 0 < r -> val y = Fin 0 -> val (fdiv x (fabs y)) = PInf.
Proof.
  intros x y r Vx R D. unfold val in *. cbn [fdiv fabs FloatA]. rewrite !div_equiv, abs_equiv. apply valB_0 in D. destruct D as (s & ->).
  destruct (Prim2B x) as [[]|[]| |[] m e H] eqn:E, s; cbn [valB] in Vx; try discriminate; try (injection Vx as Vx; cbn [BinarySingleNaN.B2R] in Vx; lra); try easy;
    exfalso; injection Vx as Vx; cbn [BinarySingleNaN.B2R] in Vx; apply Rlt_not_le in R; apply R; rewrite <- Vx; apply Rlt_le, Flocq.Core.Float_prop.F2R_lt_0; reflexivity.
Qed.
Definition index_of (a b : float) : float := fsub (fofZ 100) (fdiv (fofZ 100) (fadd (fofZ 1) (fdiv a (fabs b)))).
Lemma index_near : forall k a b p n P N, 1 <= k <= 1000000000 -> val a = Fin p -> val b = Fin (-1 * n) -> rel k p P -> rel k n N -> (P = 0 \/ wide 440 P) -> (N = 0 \/ wide 440 N) ->
  match mfi_value P N with
  | Fin r => exists q, val (index_of a b) = Fin q /\ Rabs (q - r) <= (215 * k + 520) * u
  | _ => val (index_of a b) = NaN
  end.
Proof.
  intros k a b p n P N K Va Vb Ep En WP WN. pose proof u_small as [U0 U1].
  assert (P0 : 0 <= P) by (destruct WP as [->|W]; [lra|apply wide_pos in W; lra]). assert (N0 : 0 <= N) by (destruct WN as [->|W]; [lra|apply wide_pos in W; lra]).
  assert (n0 : 0 <= n) by (apply (rel_sign k) in En; lra). assert (p0 : 0 <= p) by (apply (rel_sign k) in Ep; lra).
  assert (Vab : val (fabs b) = Fin n) by (rewrite val_abs, Vb; cbn [xabs]; f_equal; rewrite Rabs_left1 by lra; lra).
  unfold mfi_value, index_of. destruct (Req_EM_T N 0) as [Nz|Nz].
  - assert (nz : n = 0). { unfold rel in En. rewrite Nz, Rmult_0_r, Rminus_0_r in En. apply abs_le_both in En. lra. } subst n.
    destruct (Req_EM_T P 0) as [Pz|Pz].
    + assert (pz : p = 0). { unfold rel in Ep. rewrite Pz, Rmult_0_r, Rminus_0_r in Ep. apply abs_le_both in Ep. lra. } subst p.
      rewrite val_sub, val_div; rewrite val_add, (val_small 1), (val_div_00 _ _ Va Vab) by lia; cbn [xadd]; [|discriminate].
      rewrite !(val_small 100) by lia. reflexivity.
    + assert (pp : 0 < p) by (apply (rel_sign k) in Ep; lra).
      assert (Vd : val (fdiv a (fabs b)) = PInf).
      { apply (val_div_0 _ _ p); auto. rewrite Vb. f_equal. ring. }
      exists 100. split; [|replace (100 - 100) with 0 by ring; rewrite Rabs_R0; apply Rmult_le_pos; lra].
      rewrite val_sub, val_div; rewrite val_add, (val_small 1), Vd by lia; cbn [xadd rx]; [|discriminate].
      rewrite !(val_small 100) by lia. cbn [xdiv]. rewrite (rx_small 0) by (rewrite Rabs_R0; apply bpow_ge_0). rewrite rnd_0. replace (xsub (Fin 100) (Fin 0)) with (val (fofZ 100)); [rewrite rx_id; now apply val_small|]. rewrite val_small by lia. cbn [xsub xadd xopp]. f_equal. lra.
  - assert (Np : 0 < N) by lra. destruct WN as [?|WN]; [lra|]. set (rho := P / N).
    assert (rho0 : 0 <= rho) by (apply Rmult_le_pos; [lra|apply Rlt_le, Rinv_0_lt_compat; lra]).
    assert (Wr : rho = 0 \/ wide 880 rho). { destruct WP as [->|WP]; [left; unfold rho; field; lra|right]. apply (wide_mult 440 440); [auto|now apply wide_inv]. }
    pose proof (rel_div k p P n N ltac:(lra) Ep En P0 Np) as R1. fold rho in R1.
    assert (np : 0 < n) by (apply (rel_sign k) in En; lra).
    assert (R2 : rel (201 / 100 * k + 102 / 100) (rnd (p / n)) rho). { apply rel_rnd; auto; [lra|]. destruct Wr as [?|W]; [now left|right; apply (wide_big 880); [lia|auto]]. }
    assert (V1 : val (fdiv a (fabs b)) = Fin (rnd (p / n))).
    { rewrite val_div by (rewrite Vab; intros X; injection X; lra). rewrite Va, Vab. cbn [xdiv]. destruct Req_EM_T; [lra|]. apply rx_small.
      destruct Wr as [Z|W]; [unfold rel in R1; rewrite Z, Rmult_0_r, Rminus_0_r in R1; eapply Rle_trans; [exact R1|apply bpow_ge_0]|].
      apply (near_fits 880 _ rho); [lia|auto|]. apply (rel_sign (201 / 100 * k)); auto; lra. }
    set (r1 := rnd (p / n)) in *.
    assert (W1 : wide 882 (1 + rho)).
    { split; [apply Rle_trans with 1; [change 1 with (bpow radix2 0); apply bpow_le; lia|lra]|]. apply Rle_trans with (2 * bpow radix2 880); [|change 2 with (bpow radix2 1); rewrite <- bpow_plus; apply bpow_le; lia].
      assert (1 <= bpow radix2 880) by (change 1 with (bpow radix2 0); apply bpow_le; lia). destruct Wr as [->|[_ W]]; lra. }
    assert (R3 : rel (201 / 100 * k + 102 / 100) (1 + r1) (1 + rho)) by (apply rel_add; auto; apply rel_refl; lra).
    assert (R4 : rel (201 / 100 * k + 204 / 100) (rnd (1 + r1)) (1 + rho)).
    { apply (rel_weak (201 / 100 * k + 102 / 100 + 102 / 100)); [lra| |lra]. apply rel_rnd; auto; [lra|lra|right; apply (wide_big 882); [lia|auto]]. }
    assert (V2 : val (fadd (fofZ 1) (fdiv a (fabs b))) = Fin (rnd (1 + r1))).
    { rewrite val_add, V1, (val_small 1) by lia. cbn [xadd]. apply rx_small. apply (near_fits 882 _ (1 + rho)); [lia|auto|]. apply (rel_sign (201 / 100 * k + 102 / 100)); auto; lra. }
    set (s := rnd (1 + r1)) in *. assert (s1 : 99 / 100 <= s) by (apply (rel_sign (201 / 100 * k + 204 / 100)) in R4; lra).
    set (Y := 100 / (1 + rho)). assert (Y0 : 0 < Y <= 100).
    { unfold Y. split; [apply Rdiv_lt_0_compat; lra|]. apply div_bound; lra. }
    assert (WY : wide 889 Y).
    { apply (wide_mult 7 882); [|now apply wide_inv]. split; [apply Rle_trans with 1; [change 1 with (bpow radix2 0); apply bpow_le; lia|lra]|change (bpow radix2 7) with 128; lra]. }
    assert (R5 : rel (101 / 100 * (201 / 100 * k + 204 / 100)) (100 / s) Y).
    { unfold Y, Rdiv. rewrite !(Rmult_comm 100). apply rel_scal; [|lra]. apply rel_inv; auto; lra. }
    assert (R6 : rel (101 / 100 * (201 / 100 * k + 204 / 100) + 102 / 100) (rnd (100 / s)) Y).
    { apply rel_rnd; auto; [lra|lra|right; apply (wide_big 889); [lia|auto]]. }
    assert (V3 : val (fdiv (fofZ 100) (fadd (fofZ 1) (fdiv a (fabs b)))) = Fin (rnd (100 / s))).
    { rewrite val_div by (rewrite V2; intros X; injection X; lra). rewrite V2, (val_small 100) by lia. cbn [xdiv]. destruct Req_EM_T; [lra|]. apply rx_small.
      apply (near_fits 889 _ Y); [lia|auto|]. apply (rel_sign (101 / 100 * (201 / 100 * k + 204 / 100))); auto; lra. }
    pose proof (rel_sign (101 / 100 * (201 / 100 * k + 204 / 100) + 102 / 100) _ Y ltac:(lra) R6 ltac:(lra)) as B. set (z := rnd (100 / s)) in *.
    unfold rel in R6. assert (R8 : (101 / 100 * (201 / 100 * k + 204 / 100) + 102 / 100) * u * Y <= (101 / 100 * (201 / 100 * k + 204 / 100) + 102 / 100) * u * 100).
      { apply Rmult_le_compat_l; [|lra]. apply Rmult_le_pos; lra. }
    assert (KU : 0 <= k * u <= / 100000) by (split; [apply Rmult_le_pos; lra|apply Rle_trans with (10000000000 * / 1000000000000000); [apply Rmult_le_compat; lra|lra]]).
    replace ((101 / 100 * (201 / 100 * k + 204 / 100) + 102 / 100) * u * 100) with (20301 / 100 * (k * u) + 30804 / 100 * u) in R8 by field.
    apply abs_le_both in R6.
    assert (A1 : Rabs (100 - z) <= 101) by (apply Rabs_le; lra).
    assert (K1 : bpow radix2 (-900) <= 1) by (change 1 with (bpow radix2 0); apply bpow_le; lia). pose proof (rnd_K 1 K1 _ _ A1) as R7.
    exists (rnd (100 - z)). split.
    + rewrite val_sub, V3, (val_small 100) by lia. cbn [xsub]. apply rx_small. eapply Rle_trans; [exact A1|]. apply Rle_trans with (bpow radix2 7); [change (bpow radix2 7) with 128; lra|apply bpow_le; lia].
    +       apply abs_le_both in R7. change (P / N) with rho. fold Y.       replace ((215 * k + 520) * u) with (215 * (k * u) + 520 * u) by ring. apply Rabs_le. lra.
Qed.

(** ** the index *)
Theorem mfi_row : forall w fl out i x, (1 <= w)%nat -> (Z.of_nat w <= 2 ^ 25)%Z -> compute (Mfi (Z.of_nat w)) fl rows = Ok out -> nth_error out i = Some x -> (warm fl w <= i)%nat ->
  (forall j, (wlo w i <= j <= i)%nat -> j = 0%nat \/ clear h l c v j) ->
  let P := wsum w (fun j => Rmax 0 (mf j)) i in let N := wsum w (fun j => Rmax 0 (- mf j)) i in (fl = false \/ mfi_value P N <> NaN) ->
  within (part (31 * INR w + 200) 1) x (mfi_value P N).
Proof.
  intros w fl out i x Hw Ww E Nx Wi Cl P N Fl.
  pose proof u_small as [U0 _].
  assert (Gp : forall y q, val y = Fin q -> val (if fleb (fofZ 0) y then y else fofZ 0) = Fin (1 * Rmax 0 q)).
  { intros y q V. rewrite Rmult_1_l, val_leb, (val_small 0), V by lia. unfold xleb. cbn [xltb xeqb]. destruct (Rlt_dec 0 q); [cbn [orb]; rewrite Rmax_right by lra; auto|]. destruct (Req_EM_T 0 q); cbn [orb]; [rewrite Rmax_right by lra; auto|rewrite Rmax_left by lra; now apply (val_small 0)]. }
  assert (Gn : forall y q, val y = Fin q -> val (if fltb y (fofZ 0) then y else fofZ 0) = Fin (-1 * Rmax 0 (- q))).
  { intros y q V. rewrite val_ltb, (val_small 0), V by lia. cbn [xltb]. destruct Rlt_dec; [rewrite Rmax_right by lra; rewrite V; f_equal; ring|rewrite Rmax_left by lra; rewrite (val_small 0) by lia; f_equal; ring]. }
  destruct (flow_sum w Hw Ww (fun y => if fleb (fofZ 0) y then y else fofZ 0) 1 (Rmax 0) ltac:(auto) Gp) with (fl := fl) as (rp & Ep & Lp & Fp).
  { intros j Hj Cj. destruct (flow_value j Hj) as (q & V & _ & A). unfold qf. rewrite V. destruct (A Cj) as (A1 & A2 & A3 & A4). auto. }
  destruct (flow_sum w Hw Ww (fun y => if fltb y (fofZ 0) then y else fofZ 0) (-1) (fun q => Rmax 0 (- q)) ltac:(auto) Gn) with (fl := fl) as (rn & En & Ln & Fn).
  { intros j Hj Cj. destruct (flow_value j Hj) as (q & V & _ & A). unfold qf. rewrite V. destruct (A Cj) as (A1 & A2 & A3 & A4). auto. }
  cbn [compute] in E. unfold money_flow_index in E. fold tp in E. change (map2 _ tp (shift 1 tp)) with (map2 dir tp (shift 1 tp)) in E. fold mfr in E.
  rewrite Ep in E. cbn [bind] in E. rewrite En in E. cbn [bind] in E. apply ok_inj in E. subst out.
  set (raw := map _ (sdiv rp (map fabs rn))) in *. pose proof len_mfr as Lm.
  assert (Lr : length raw = length rows) by (unfold raw, sdiv; rewrite map_length, len_map2; rewrite ?map_length; lia).
  assert (Hi : (i < length rows)%nat). { rewrite <- Lr, <- (check_length fl 50). apply nth_error_Some. now rewrite Nx. }
  destruct (Fp i Hi Wi Cl) as [WP (p & Vp & Rp)]. destruct (Fn i Hi Wi Cl) as [WN (n & Vn & Rn)]. fold P in WP, Rp. fold N in WN, Rn.
  assert (Nr : nth i raw fnan = index_of (nth i rp fnan) (nth i rn fnan)).
  { unfold raw, sdiv. rewrite (nth_map_lt _ _ _ _ fnan) by (rewrite len_map2; rewrite ?map_length; lia). rewrite (nth_map2_lt fdiv _ _ _ fnan fnan fnan) by (rewrite ?map_length; lia).
    rewrite (nth_map_lt _ _ _ _ fnan) by lia. reflexivity. }
  assert (Kw : 1 <= INR w <= 33554432).
  { split; [apply (le_INR 1) in Hw; exact Hw|]. rewrite INR_IZR_INZ. apply (IZR_le _ (2 ^ 25)). exact Ww. }
  rewrite Rmult_1_l in Vp.
  pose proof (index_near (112 / 100 * INR w + 5) _ _ p n P N ltac:(lra) Vp Vn Rp Rn WP WN) as A. rewrite <- Nr in A.
  rewrite <- (nth_error_nth _ _ fnan Nx). unfold within. destruct (mfi_value P N) as [| | |r] eqn:Em; try (unfold mfi_value in Em; repeat destruct Req_EM_T in Em; discriminate).
  - destruct Fl as [->|Fl]; [|easy]. change (PrimFloat.is_nan ?y) with (fisnan y). cbn [check_fillna]. rewrite val_nan, A. reflexivity.
  - destruct A as (q & V & B). exists q. rewrite (kept_row fl 50 raw i q) by (auto; lia). split; [exact V|]. eapply Rle_trans; [exact B|]. rewrite part_u.
    replace ((31 * INR w + 200) * (8 * (u * 1))) with ((248 * INR w + 1600) * u) by ring. apply Rmult_le_compat_r; lra.
Qed.
End Rows.
