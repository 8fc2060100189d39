(** * Start: lemmas for C104, results for a history that begins k rows later. *)
From Coq Require Import Reals Lra.
From Verif Require Import Lists Api SpecNum Tab Averages Bands Channels Oscillators Kama Directional Flows SpecForget Forget SpecStart.
Local Open Scope R_scope.

(** ** exponential averages *)
(** f from row s + d on is g from row s' on: the averages approach each other *)
Lemma exp_meet : forall a f g s s' d j, (forall t, (1 <= t)%nat -> f (s + d + t)%nat = g (s' + t)%nat) ->
  exp_go a f s (d + j) - exp_go a g s' j = (1 - a) ^ j * (exp_go a f s d - g s').
Proof.
  intros a f g s s' d j H. induction j; [rewrite Nat.add_0_r; cbn; ring|].
  rewrite Nat.add_succ_r. cbn [exp_go pow]. replace (s + S (d + j))%nat with (s + d + S j)%nat by lia. rewrite (H (S j)) by lia.
  transitivity ((1 - a) * (exp_go a f s (d + j) - exp_go a g s' j)); [ring|]. rewrite IHj. ring.
Qed.
(** the same when the data only approach each other, at rate q *)
Lemma exp_meet_slow : forall a f g s s' d j q B, 0 < a <= 1 -> 1 - a <= q <= 1 -> 0 <= B ->
  (forall t, (1 <= t)%nat -> Rabs (f (s + d + t)%nat - g (s' + t)%nat) <= B * q ^ t) -> Rabs (exp_go a f s d - g s') <= B ->
  Rabs (exp_go a f s (d + j) - exp_go a g s' j) <= B * q ^ j * (1 + a * INR j).
Proof.
  intros a f g s s' d j q B Ha Hq HB H H0. induction j.
  - rewrite Nat.add_0_r. cbn. lra.
  - rewrite Nat.add_succ_r. cbn [exp_go]. replace (s + S (d + j))%nat with (s + d + S j)%nat by lia. specialize (H (S j) ltac:(lia)).
    match goal with |- Rabs (?p * ?x + ?r * ?y - (?p * ?x' + ?r * ?y')) <= _ => replace (p * x + r * y - (p * x' + r * y')) with (p * (x - x') + r * (y - y')) by ring end.
    eapply Rle_trans; [apply Rabs_triang|]. rewrite !Rabs_mult, (Rabs_pos_eq a), (Rabs_pos_eq (1 - a)) by lra. rewrite S_INR. cbn [pow] in *.
    assert (P : 0 <= B * q ^ j) by (apply Rmult_le_pos; [auto|apply pow_le; lra]).
    assert (A1 : (1 - a) * Rabs (exp_go a f s (d + j) - exp_go a g s' j) <= q * (B * q ^ j * (1 + a * INR j))) by (apply Rmult_le_compat; auto; try lra; apply Rabs_pos).
    assert (A2 : a * Rabs (f (s + d + S j)%nat - g (s' + S j)%nat) <= a * (B * (q * q ^ j))) by (apply Rmult_le_compat_l; lra). lra.
Qed.
(** numbers >= 0: the longer history keeps a share of the shorter one's average *)
Lemma exp_share : forall a f g s s' d j r, 0 < a <= 1 -> 0 <= r -> (forall t, (s <= t)%nat -> 0 <= f t) ->
  (forall t, r * g (s' + t)%nat <= f (s + d + t)%nat) -> a * (r * exp_go a g s' j) <= exp_go a f s (d + j).
Proof.
  intros a f g s s' d j r Ha Hr Hf H.
  assert (P : forall i, 0 <= exp_go a f s i). { induction i; cbn [exp_go]; [apply Hf; lia|]. assert (0 <= f (s + S i)%nat) by (apply Hf; lia). assert (0 <= (1 - a) * exp_go a f s i) by (apply Rmult_le_pos; lra). assert (0 <= a * f (s + S i)%nat) by (apply Rmult_le_pos; lra). lra. }
  induction j.
  - rewrite Nat.add_0_r. cbn [exp_go]. specialize (H 0%nat). rewrite !Nat.add_0_r in H. destruct d as [|d]; cbn [exp_go].
    + rewrite Nat.add_0_r in H. specialize (Hf s (Nat.le_refl _)). assert (a * (r * g s') <= a * f s) by (apply Rmult_le_compat_l; lra). assert (a * f s <= 1 * f s) by (apply Rmult_le_compat_r; lra). lra.
    + assert (0 <= (1 - a) * exp_go a f s d) by (apply Rmult_le_pos; [lra|apply P]). assert (a * (r * g s') <= a * f (s + S d)%nat) by (apply Rmult_le_compat_l; lra). lra.
  - rewrite Nat.add_succ_r. cbn [exp_go]. replace (s + S (d + j))%nat with (s + d + S j)%nat by lia. specialize (H (S j)).
    assert ((1 - a) * (a * (r * exp_go a g s' j)) <= (1 - a) * exp_go a f s (d + j)) by (apply Rmult_le_compat_l; lra).
    assert (Z : a * (r * g (s' + S j)%nat) <= a * f (s + d + S j)%nat) by (apply Rmult_le_compat_l; lra).
    assert (a * (a * (r * g (s' + S j)%nat)) <= a * (r * g (s' + S j)%nat) \/ r * g (s' + S j)%nat < 0) as [Q|Q].
    { destruct (Rle_dec 0 (r * g (s' + S j)%nat)); [left|right; lra]. rewrite <- Rmult_1_l. apply Rmult_le_compat_r; [apply Rmult_le_pos; lra|lra]. }
    + lra.
    + assert (a * (a * (r * g (s' + S j)%nat)) <= a * 0) by (apply Rmult_le_compat_l; [lra|]; assert (a * - (r * g (s' + S j)%nat) >= 0) by (apply Rle_ge, Rmult_le_pos; lra); lra).
      assert (0 <= a * f (s + d + S j)%nat) by (apply Rmult_le_pos; [lra|apply Hf; lia]). lra.
Qed.
Lemma late_ema : forall w c k j lo hi n, (1 <= w)%nat -> inside lo hi n c -> (k + j < n)%nat ->
  Rabs (ema w c 0 (k + j) - ema w (skip k c) 0 j) <= (1 - 2 / (INR w + 1)) ^ j * (hi - lo).
Proof.
  intros w c k j lo hi n Hw H Hj. assert (S0 := span w Hw). unfold ema, expavg. rewrite !Nat.sub_0_r.
  rewrite (exp_meet _ c (skip k c) 0 0 k j) by reflexivity. rewrite Rabs_mult, Rabs_pos_eq by (apply pow_le; lra). apply Rmult_le_compat_l; [apply pow_le; lra|].
  assert (B := exp_bounds (2 / (INR w + 1)) c 0 k lo hi S0 ltac:(intros; apply H; lia)). unfold skip. rewrite Nat.add_0_r. specialize (H k ltac:(lia)). apply Rabs_le. lra.
Qed.
Lemma inside_skip : forall lo hi n k f, inside lo hi (k + n) f -> inside lo hi n (skip k f).
Proof. intros lo hi n k f H i Hi. apply H. lia. Qed.

Ltac opening := do 2 eexists; split; [reflexivity|]; split; [reflexivity|]; intros j Hj; rewrite !nth_tab by lia.
Section Market.
Variables (k n : nat) (h l c v : nat -> R).
Let full := frame (k + n) h l c v.
Let tail := frame n (skip k h) (skip k l) (skip k c) (skip k v).
Variables lo hi : R.
Hypothesis Hc : inside lo hi (k + n) c.
Let D := hi - lo.

Lemma ema_start : forall fl w, (1 <= w)%nat ->
  start_matters (fun j => (1 - 2 / (INR w + 1)) ^ j * D) k (warm fl w) n (compute (Ema (Z.of_nat w)) fl full) (compute (Ema (Z.of_nat w)) fl tail).
Proof.
  intros fl w Hw. unfold full, tail. rewrite !ema_formula by auto. opening. unfold from, fromx.
  destruct (Nat.ltb_spec j (warm fl w)); [lia|]. destruct (Nat.ltb_spec (k + j) (warm fl w)); [lia|].
  do 2 eexists. split; [reflexivity|]. split; [reflexivity|]. apply (late_ema w c k j lo hi (k + n)); auto; lia.
Qed.

(** ** MACD *)
Lemma rate : forall w, (1 <= w)%nat -> 0 <= 1 - 2 / (INR w + 1).
Proof. intros w Hw. assert (S0 := span w Hw). lra. Qed.
Lemma D_pos : (0 < k + n)%nat -> 0 <= D.
Proof. intros H. specialize (Hc 0%nat H). unfold D. lra. Qed.
Section Macd.
Variables (fl : bool) (s f g : nat).
Hypothesis S1 : (1 <= s)%nat.
Hypothesis F1 : (1 <= f)%nat.
Hypothesis G1 : (1 <= g)%nat.
Variable q : R.
Hypothesis Qs : 1 - 2 / (INR s + 1) <= q.
Hypothesis Qf : 1 - 2 / (INR f + 1) <= q.
Hypothesis Qg : 1 - 2 / (INR g + 1) <= q.
Hypothesis Q1 : q <= 1.
Let K0 := warm fl (Nat.max f s).
Let line (x : nat -> R) (i : nat) := ema f x 0 i - ema s x 0 i.
Lemma line_late : forall j, (j < n)%nat -> Rabs (line c (k + j) - line (skip k c) j) <= 2 * D * q ^ j.
Proof.
  intros j Hj. assert (D0 := D_pos ltac:(lia)). pose proof (late_ema f c k j lo hi (k + n) F1 Hc ltac:(lia)) as A. pose proof (late_ema s c k j lo hi (k + n) S1 Hc ltac:(lia)) as B.
  fold D in A, B. pose proof (rate f F1). pose proof (rate s S1).
  assert ((1 - 2 / (INR f + 1)) ^ j * D <= q ^ j * D) by (apply Rmult_le_compat_r; [auto|apply pow_incr; lra]).
  assert ((1 - 2 / (INR s + 1)) ^ j * D <= q ^ j * D) by (apply Rmult_le_compat_r; [auto|apply pow_incr; lra]).
  unfold line. replace (ema f c 0 (k + j) - ema s c 0 (k + j) - (ema f (skip k c) 0 j - ema s (skip k c) 0 j))
    with ((ema f c 0 (k + j) - ema f (skip k c) 0 j) + - (ema s c 0 (k + j) - ema s (skip k c) 0 j)) by ring.
  eapply Rle_trans; [apply Rabs_triang|]. rewrite Rabs_Ropp. lra.
Qed.
Lemma line_size : forall x m i, inside lo hi m x -> (i < m)%nat -> - D <= line x i <= D.
Proof.
  intros x m i H Hi. unfold line. assert (A := ema_bounds f x 0 i lo hi F1 ltac:(intros; apply H; lia)). assert (B := ema_bounds s x 0 i lo hi S1 ltac:(intros; apply H; lia)). unfold D. lra.
Qed.
Lemma signal_late : forall j, (K0 <= j < n)%nat ->
  Rabs (ema g (line c) K0 (k + j) - ema g (line (skip k c)) K0 j) <= 2 * D * q ^ (j - K0) * (1 + 2 / (INR g + 1) * INR (j - K0)).
Proof.
  intros j Hj. assert (D0 := D_pos ltac:(lia)). assert (S0 := span g G1). unfold ema, expavg. replace (k + j - K0)%nat with (k + (j - K0))%nat by lia.
  pose (f1 := fun i => if (i <? k + n)%nat then line c i else line (skip k c) (i - k)).
  assert (X : forall i, (K0 + i < k + n)%nat -> exp_go (2 / (INR g + 1)) (line c) K0 i = exp_go (2 / (INR g + 1)) f1 K0 i).
  { assert (Y : forall i, (i < k + n)%nat -> f1 i = line c i) by (intros i Hi; unfold f1; now rewrite (proj2 (Nat.ltb_lt i (k + n)) Hi)).
    intros i. induction i; intros Hi; cbn [exp_go]; rewrite Y by lia; [reflexivity|]. rewrite IHi by lia. reflexivity. }
  rewrite X by lia. pose proof (rate g G1). assert (q0 : 0 <= q) by lra.
  apply exp_meet_slow; auto; try lra.
  - intros t Ht. unfold f1. destruct (Nat.ltb_spec (K0 + k + t) (k + n)).
    + replace (K0 + k + t)%nat with (k + (K0 + t))%nat by lia. eapply Rle_trans; [apply line_late; lia|]. apply Rmult_le_compat_l; [lra|]. rewrite pow_add. rewrite <- (Rmult_1_l (q ^ t)) at 2.
      apply Rmult_le_compat_r; [apply pow_le; auto|]. rewrite <- (pow1 K0). apply pow_incr. lra.
    + replace (K0 + k + t - k)%nat with (K0 + t)%nat by lia. rewrite Rminus_diag_eq, Rabs_R0 by reflexivity. apply Rmult_le_pos; [lra|apply pow_le; auto].
  - rewrite <- X by lia. assert (A := exp_bounds (2 / (INR g + 1)) (line c) K0 k (- D) D S0 ltac:(intros; apply (line_size c (k + n)); auto; lia)).
    assert (B := line_size (skip k c) n K0 (inside_skip _ _ _ _ _ Hc) ltac:(lia)). apply Rabs_le. lra.
Qed.
Lemma macd_start :
  start_matters (fun j => 2 * D * q ^ j) k K0 n (compute (Macd (Z.of_nat s) (Z.of_nat f) (Z.of_nat g)) fl full) (compute (Macd (Z.of_nat s) (Z.of_nat f) (Z.of_nat g)) fl tail) /\
  start_matters (fun j => 2 * D * q ^ (j - K0) * (1 + 2 / (INR g + 1) * INR (j - K0))) k (K0 + warm fl g) n
    (compute (MacdSignal (Z.of_nat s) (Z.of_nat f) (Z.of_nat g)) fl full) (compute (MacdSignal (Z.of_nat s) (Z.of_nat f) (Z.of_nat g)) fl tail) /\
  start_matters (fun j => 2 * D * q ^ (j - K0) * (2 + 2 / (INR g + 1) * INR (j - K0))) k (K0 + warm fl g) n
    (compute (MacdDiff (Z.of_nat s) (Z.of_nat f) (Z.of_nat g)) fl full) (compute (MacdDiff (Z.of_nat s) (Z.of_nat f) (Z.of_nat g)) fl tail).
Proof.
  unfold full, tail. destruct (macd_formula fl s f g (k + n) h l c v S1 F1 G1) as (-> & -> & ->). destruct (macd_formula fl s f g n (skip k h) (skip k l) (skip k c) (skip k v) S1 F1 G1) as (-> & -> & ->).
  split; [|split]; opening; unfold gaps; fold K0.
  - rewrite (proj2 (Nat.ltb_ge (k + j) K0)), (proj2 (Nat.ltb_ge j K0)) by lia. do 2 eexists. split; [reflexivity|]. split; [reflexivity|]. apply line_late. lia.
  - rewrite (proj2 (Nat.ltb_ge (k + j) (K0 + warm fl g))), (proj2 (Nat.ltb_ge j (K0 + warm fl g))) by lia. do 2 eexists. split; [reflexivity|]. split; [reflexivity|]. apply signal_late. lia.
  - rewrite (proj2 (Nat.ltb_ge (k + j) (K0 + warm fl g))), (proj2 (Nat.ltb_ge j (K0 + warm fl g))) by lia. do 2 eexists. split; [reflexivity|]. split; [reflexivity|].
    change (Rabs (line c (k + j) - ema g (line c) K0 (k + j) - (line (skip k c) j - ema g (line (skip k c)) K0 j)) <= 2 * D * q ^ (j - K0) * (2 + 2 / (INR g + 1) * INR (j - K0))).
    assert (A := signal_late j ltac:(lia)). assert (B := line_late j ltac:(lia)). pose proof (rate g G1). assert (D0 := D_pos ltac:(lia)).
    assert (2 * D * q ^ j <= 2 * D * q ^ (j - K0)).
    { apply Rmult_le_compat_l; [lra|]. replace j with (K0 + (j - K0))%nat at 1 by lia. rewrite pow_add. rewrite <- (Rmult_1_l (q ^ (j - K0))) at 2. apply Rmult_le_compat_r; [apply pow_le; lra|]. rewrite <- (pow1 K0). apply pow_incr. lra. }
    replace (line c (k + j) - ema g (line c) K0 (k + j) - (line (skip k c) j - ema g (line (skip k c)) K0 j))
      with ((line c (k + j) - line (skip k c) j) + - (ema g (line c) K0 (k + j) - ema g (line (skip k c)) K0 j)) by ring.
    eapply Rle_trans; [apply Rabs_triang|]. rewrite Rabs_Ropp. lra.
Qed.
End Macd.

(** ** RSI *)
Lemma gain_size : forall m x i, inside lo hi m x -> (i < m)%nat -> 0 <= gain x i <= D /\ 0 <= loss x i <= D.
Proof.
  intros m x i H Hi. unfold gain, loss, delta. destruct (Nat.eqb_spec i 0); [specialize (H i Hi); unfold D; lra|]. assert (A := H i Hi). assert (B := H (i - 1)%nat ltac:(lia)).
  unfold Rmax, D. repeat destruct Rle_dec; lra.
Qed.
Lemma wspan : forall w, (1 <= w)%nat -> 0 < 1 / INR w <= 1.
Proof. intros w Hw. apply (le_INR 1) in Hw. cbn in Hw. split; [apply Rdiv_lt_0_compat; lra|]. apply Rmult_le_reg_r with (INR w); [lra|]. field_simplify; lra. Qed.
(** the averages of the longer history are larger by what it has in store *)
Lemma wilder_late : forall w j (x y : nat -> R), (1 <= w)%nat -> (k + j < k + n)%nat -> y 0%nat = 0 -> (forall t, (1 <= t)%nat -> x (k + t)%nat = y t) ->
  (forall i, (i < k + n)%nat -> 0 <= x i <= D) -> 0 <= wilder w x 0 (k + j) - wilder w y 0 j <= (1 - 1 / INR w) ^ j * D.
Proof.
  intros w j x y Hw Hj H0 H1 H2. assert (S0 := wspan w Hw). unfold wilder, expavg. rewrite !Nat.sub_0_r. rewrite (exp_meet _ x y 0 0 k j) by auto. rewrite H0.
  assert (B := exp_bounds (1 / INR w) x 0 k 0 D S0 ltac:(intros; apply H2; lia)). assert (0 <= (1 - 1 / INR w) ^ j) by (apply pow_le; lra). split; [apply Rmult_le_pos; lra|]. apply Rmult_le_compat_l; lra.
Qed.
Lemma share_late : forall g d g' d' e, 0 <= g' -> 0 <= d' -> 0 < g' + d' -> 0 <= g - g' <= e -> 0 <= d - d' <= e -> Rabs (rsi_value g d - rsi_value g' d') <= 100 * (e / (g' + d')).
Proof.
  intros g d g' d' e G D' P Eg Ed.
  assert (V : forall a b, 0 <= a -> 0 <= b -> 0 < a + b -> rsi_value a b = 100 * (a / (a + b))).
  { intros a b Ha Hb Hs. unfold rsi_value. destruct Req_EM_T as [->|N]; [field; lra|]. field. lra. }
  rewrite !V by lra. replace (100 * (g / (g + d)) - 100 * (g' / (g' + d'))) with (100 * (((g - g') * d' - (d - d') * g') / (g + d) / (g' + d'))) by (field; lra).
  rewrite Rabs_mult, (Rabs_pos_eq 100) by lra. apply Rmult_le_compat_l; [lra|].
  unfold Rdiv at 1. rewrite Rabs_mult, (Rabs_pos_eq (/ (g' + d'))) by (left; apply Rinv_0_lt_compat; lra). unfold Rdiv at 2. apply Rmult_le_compat_r; [left; apply Rinv_0_lt_compat; lra|].
  unfold Rdiv. rewrite Rabs_mult, (Rabs_pos_eq (/ (g + d))) by (left; apply Rinv_0_lt_compat; lra). apply Rmult_le_reg_r with (g + d); [lra|]. rewrite Rmult_assoc, Rinv_l, Rmult_1_r by lra.
  assert (0 <= (g - g') * d' <= e * d') by (split; [apply Rmult_le_pos; lra|apply Rmult_le_compat_r; lra]). assert (0 <= (d - d') * g' <= e * g') by (split; [apply Rmult_le_pos; lra|apply Rmult_le_compat_r; lra]).
  assert (e * (g' + d') <= e * (g + d)) by (apply Rmult_le_compat_l; lra). apply Rabs_le. lra.
Qed.
Lemma rsi_start : forall fl w j, (1 <= w)%nat -> (warm fl w <= j < n)%nat ->
  let up := wilder w (gain (skip k c)) 0 j in let down := wilder w (loss (skip k c)) 0 j in 0 < up + down ->
  exists out out' x x', compute (Rsi (Z.of_nat w)) fl full = Ok out /\ compute (Rsi (Z.of_nat w)) fl tail = Ok out' /\
    nth (k + j) out NaN = Fin x /\ nth j out' NaN = Fin x' /\ Rabs (x - x') <= 100 * ((1 - 1 / INR w) ^ j * D / (up + down)).
Proof.
  intros fl w j Hw Hj up down P. unfold full, tail. rewrite !rsi_formula by auto. do 4 eexists. split; [reflexivity|]. split; [reflexivity|]. rewrite !nth_tab by lia. unfold from, fromx.
  rewrite (proj2 (Nat.ltb_ge (k + j) (warm fl w))), (proj2 (Nat.ltb_ge j (warm fl w))) by lia. split; [reflexivity|]. split; [reflexivity|].
  assert (I := inside_skip _ _ _ _ _ Hc).
  assert (Pos : forall x, (forall i, (i < n)%nat -> 0 <= x i <= D) -> 0 <= wilder w x 0 j).
  { intros x Hx. apply (exp_bounds (1 / INR w) x 0 (j - 0) 0 D (wspan w Hw)). intros t Ht. apply Hx. lia. }
  apply share_late; auto.
  - apply Pos. intros. now apply (gain_size n).
  - apply Pos. intros. now apply (gain_size n).
  - apply wilder_late; auto; try lia; [|intros; now apply (gain_size (k + n))]. intros t Ht. unfold gain, delta, skip. destruct (Nat.eqb_spec (k + t) 0); [lia|]. destruct (Nat.eqb_spec t 0); [lia|]. now rewrite Nat.add_sub_assoc.
  - apply wilder_late; auto; try lia; [|intros; now apply (gain_size (k + n))]. intros t Ht. unfold loss, delta, skip. destruct (Nat.eqb_spec (k + t) 0); [lia|]. destruct (Nat.eqb_spec t 0); [lia|]. now rewrite Nat.add_sub_assoc.
Qed.

(** ** quotients of averages *)
Lemma quot_late : forall N B N' B' e1 e2, Rabs N <= B -> 0 < B' -> Rabs (N - N') <= e1 -> Rabs (B - B') <= e2 ->
  Rabs ((if Req_EM_T B 0 then 0 else N / B) - N' / B') <= (e1 + e2) / B'.
Proof.
  intros N B N' B' e1 e2 HN HB E1 E2. assert (0 <= e2) by (eapply Rle_trans; [apply Rabs_pos|exact E2]).
  assert (I : 0 < / B') by now apply Rinv_0_lt_compat. destruct Req_EM_T as [Z|Z].
  - subst B. assert (N = 0) by (unfold Rabs in HN; destruct Rcase_abs in HN; lra). subst N. rewrite Rminus_0_l, Rabs_Ropp. unfold Rdiv. rewrite Rabs_mult, (Rabs_pos_eq (/ B')) by lra.
    rewrite Rminus_0_l, Rabs_Ropp in E1. apply Rmult_le_compat_r; lra.
  - assert (P : 0 < B) by (pose proof (Rabs_pos N); lra). replace (N / B - N' / B') with (((N - N') + N / B * (B' - B)) * / B') by (field; lra).
    rewrite Rabs_mult, (Rabs_pos_eq (/ B')) by lra. apply Rmult_le_compat_r; [lra|]. eapply Rle_trans; [apply Rabs_triang|]. rewrite Rabs_mult.
    assert (Rabs (N / B) <= 1). { unfold Rdiv. rewrite Rabs_mult, Rabs_inv, (Rabs_pos_eq B) by lra. apply Rmult_le_reg_r with B; [lra|]. rewrite Rmult_assoc, Rinv_l by lra. lra. }
    rewrite (Rabs_minus_sym B' B). assert (Rabs (N / B) * Rabs (B - B') <= 1 * e2) by (apply Rmult_le_compat; auto; apply Rabs_pos). lra.
Qed.

(** ** TSI *)
Lemma exp_abs : forall a x y i j, 0 < a <= 1 -> (forall t, (i <= t)%nat -> Rabs (x t) <= y t) -> Rabs (exp_go a x i j) <= exp_go a y i j.
Proof.
  intros a x y i j Ha H. induction j; cbn [exp_go]; [apply H; lia|]. eapply Rle_trans; [apply Rabs_triang|]. rewrite !Rabs_mult, (Rabs_pos_eq a), (Rabs_pos_eq (1 - a)) by lra.
  specialize (H (i + S j)%nat ltac:(lia)). assert ((1 - a) * Rabs (exp_go a x i j) <= (1 - a) * exp_go a y i j) by (apply Rmult_le_compat_l; lra).
  assert (a * Rabs (x (i + S j)%nat) <= a * y (i + S j)%nat) by (apply Rmult_le_compat_l; lra). lra.
Qed.
Lemma double_late : forall s f K q x y A, (1 <= s)%nat -> (1 <= f)%nat -> (1 <= K)%nat -> 1 - 2 / (INR s + 1) <= q -> 1 - 2 / (INR f + 1) <= q -> q <= 1 -> 0 <= A ->
  (forall t, (1 <= t)%nat -> x (k + t)%nat = y t) -> forall mn mx, mx - mn <= A -> (forall i, (1 <= i < k + n)%nat -> mn <= x i <= mx) ->
  forall j, (K <= j < n)%nat ->
  Rabs (ema f (ema s x 1) K (k + j) - ema f (ema s y 1) K j) <= A * q ^ (j - K) * (1 + 2 / (INR f + 1) * INR (j - K)).
Proof.
  intros s f K q x y A Hs Hf HK Q1 Q2 Q3 HA Hxy mn mx HD Hx j Hj. assert (Ss := span s Hs). assert (Sf := span f Hf). unfold ema at 1 3. unfold expavg. replace (k + j - K)%nat with (k + (j - K))%nat by lia.
  assert (In : forall t, (1 <= t)%nat -> Rabs (ema s x 1 (k + t) - ema s y 1 t) <= A * q ^ (t - 1)).
  { intros t Ht. unfold ema, expavg. replace (k + t - 1)%nat with (k + (t - 1))%nat by lia. rewrite (exp_meet _ x y 1 1 k (t - 1)) by (intros i Hi; rewrite <- (Hxy (1 + i)%nat) by lia; f_equal; lia).
    rewrite Rabs_mult, Rabs_pos_eq by (apply pow_le; lra). rewrite (Rmult_comm A). apply Rmult_le_compat; try apply Rabs_pos; try (apply pow_le; lra); [apply pow_incr; lra|].
    assert (B := exp_bounds (2 / (INR s + 1)) x 1 k mn mx Ss ltac:(intros; apply Hx; lia)). assert (B2 := Hx (k + 1)%nat ltac:(lia)). rewrite (Hxy 1%nat) in B2 by lia. apply Rabs_le. lra. }
  apply exp_meet_slow; auto; try lra.
  - intros t Ht. replace (K + k + t)%nat with (k + (K + t))%nat by lia. eapply Rle_trans; [apply In; lia|]. apply Rmult_le_compat_l; auto. replace (K + t - 1)%nat with (K - 1 + t)%nat by lia.
    rewrite pow_add. rewrite <- (Rmult_1_l (q ^ t)) at 2. apply Rmult_le_compat_r; [apply pow_le; lra|]. rewrite <- (pow1 (K - 1)). apply pow_incr. lra.
  - assert (B := exp_bounds (2 / (INR f + 1)) (ema s x 1) K k mn mx Sf ltac:(intros t Ht; apply ema_bounds; auto; intros; apply Hx; lia)).
    assert (B2 := ema_bounds s y 1 K mn mx Hs ltac:(intros t Ht; rewrite <- Hxy by lia; apply Hx; lia)). apply Rabs_le. lra.
Qed.
Lemma tsi_start : forall fl s f q j, (1 <= s)%nat -> (1 <= f)%nat -> 1 - 2 / (INR s + 1) <= q -> 1 - 2 / (INR f + 1) <= q -> q <= 1 ->
  let K := (1 + warm fl s)%nat in (K + warm fl f <= j < n)%nat ->
  let size := ema f (ema s (fun t => Rabs (delta (skip k c) t)) 1) K j in 0 < size ->
  exists out out' x x', compute (Tsi (Z.of_nat s) (Z.of_nat f)) fl full = Ok out /\ compute (Tsi (Z.of_nat s) (Z.of_nat f)) fl tail = Ok out' /\
    nth (k + j) out NaN = Fin x /\ nth j out' NaN = Fin x' /\ Rabs (x - x') <= 100 * (3 * D * q ^ (j - K) * (1 + 2 / (INR f + 1) * INR (j - K)) / size).
Proof.
  intros fl s f q j Hs Hf Q1 Q2 Q3 K Hj size P. assert (D0 := D_pos ltac:(lia)).
  assert (Sk : forall t, (1 <= t)%nat -> delta c (k + t) = delta (skip k c) t) by (intros t Ht; unfold delta, skip; now rewrite Nat.add_sub_assoc).
  assert (Dl : forall i, (1 <= i < k + n)%nat -> - D <= delta c i <= D) by (intros i Hi; assert (A := Hc i ltac:(lia)); assert (B := Hc (i - 1)%nat ltac:(lia)); unfold delta, D; lra).
  set (N := ema f (ema s (delta c) 1) K (k + j)). set (B := ema f (ema s (fun t => Rabs (delta c t)) 1) K (k + j)).
  set (N' := ema f (ema s (delta (skip k c)) 1) K j).
  assert (HN : Rabs N <= B) by (unfold N, B, ema, expavg; apply exp_abs; [now apply span|]; intros t Ht; apply exp_abs; [now apply span|]; intros; apply Rle_refl).
  assert (E1 : Rabs (N - N') <= 2 * D * q ^ (j - K) * (1 + 2 / (INR f + 1) * INR (j - K))).
  { apply (double_late s f K q (delta c) (delta (skip k c)) (2 * D)) with (mn := - D) (mx := D); auto; try lra; unfold K in *; lia. }
  assert (E2 : Rabs (B - size) <= D * q ^ (j - K) * (1 + 2 / (INR f + 1) * INR (j - K))).
  { apply (double_late s f K q (fun t => Rabs (delta c t)) (fun t => Rabs (delta (skip k c) t)) D) with (mn := 0) (mx := D); auto; try lra; try (unfold K in *; lia).
    - intros t Ht. now rewrite Sk.
    - intros i Hi. split; [apply Rabs_pos|]. apply Rabs_le, Dl, Hi. }
  assert (HB : B <> 0).
  { assert (Z : 2 / (INR f + 1) * (2 / (INR s + 1) * size) <= B).
    { replace B with (exp_go (2 / (INR f + 1)) (ema s (fun t => Rabs (delta c t)) 1) K (k + (j - K))) by (replace (k + (j - K))%nat with (k + j - K)%nat by lia; reflexivity).
      change size with (exp_go (2 / (INR f + 1)) (ema s (fun t => Rabs (delta (skip k c) t)) 1) K (j - K)). apply exp_share; [now apply span|left; apply (span s Hs)| |].
      - intros t Ht. apply Rle_trans with (Rabs (ema s (delta c) 1 t)); [apply Rabs_pos|]. apply exp_abs; [now apply span|]. intros; apply Rle_refl.
      - intros t. assert (Y := exp_share (2 / (INR s + 1)) (fun t => Rabs (delta c t)) (fun t => Rabs (delta (skip k c) t)) 1 1 k (K + t - 1) 1 (span s Hs) ltac:(lra)).
        rewrite Rmult_1_l in Y. unfold ema, expavg. replace (K + k + t - 1)%nat with (k + (K + t - 1))%nat by (unfold K; lia). apply Y; [intros; apply Rabs_pos|].
        intros i. rewrite Rmult_1_l. replace (1 + k + i)%nat with (k + (1 + i))%nat by lia. rewrite Sk by lia. apply Rle_refl. }
    assert (0 < 2 / (INR f + 1) * (2 / (INR s + 1) * size)) by (apply Rmult_lt_0_compat; [apply (span f Hf)|]; apply Rmult_lt_0_compat; [apply (span s Hs)|exact P]). lra. }
  destruct (tsi_formula fl s f (k + n) h l c v Hs Hf) as (out & E & F0). destruct (tsi_formula fl s f n (skip k h) (skip k l) (skip k c) (skip k v) Hs Hf) as (out' & E' & F0').
  exists out, out', (N / B * 100), (N' / size * 100). split; [exact E|]. split; [exact E'|]. split; [|split].
  - eapply shows_row; [apply (tsi_formula fl s f (k + n) h l c v Hs Hf)|exact E|lia|]. unfold fromx. fold K. rewrite (proj2 (Nat.ltb_ge (k + j) (K + warm fl f))) by lia.
    unfold ratio. fold N B. destruct Req_EM_T; [contradiction|]. reflexivity.
  - eapply shows_row; [apply (tsi_formula fl s f n (skip k h) (skip k l) (skip k c) (skip k v) Hs Hf)|exact E'|lia|]. unfold fromx. fold K. rewrite (proj2 (Nat.ltb_ge j (K + warm fl f))) by lia.
    unfold ratio. fold size N'. destruct Req_EM_T; [lra|]. reflexivity.
  - assert (Q := quot_late N B N' size _ _ HN P E1 E2). destruct Req_EM_T; [contradiction|]. replace (N / B * 100 - N' / size * 100) with (100 * (N / B - N' / size)) by ring.
    rewrite Rabs_mult, (Rabs_pos_eq 100) by lra. apply Rmult_le_compat_l; [lra|]. eapply Rle_trans; [exact Q|]. apply Req_le. pose proof (pos_INR f). field. split; lra.
Qed.

(** ** KAMA *)
Lemma rsum_skip : forall x y m i d, (forall t, (d <= t < d + i)%nat -> x (m + t)%nat = y t) -> rsum x (m + d) i = rsum y d i.
Proof.
  intros x y m i d. induction i; intros H; cbn [rsum]; [reflexivity|]. rewrite IHi by (intros; apply H; lia). f_equal. rewrite <- H by lia. f_equal. lia.
Qed.
Lemma efficiency_skip : forall w i, (1 <= w <= i)%nat -> efficiency w (skip k c) i = efficiency w c (k + i).
Proof.
  intros w i Hi. unfold efficiency. replace (S (k + i) - w)%nat with (k + (S i - w))%nat by lia.
  assert (E : rsum (fun j => Rabs (delta c j)) (k + (S i - w)) w = rsum (fun j => Rabs (delta (skip k c) j)) (S i - w) w).
  { apply rsum_skip. intros t Ht. unfold delta, skip. rewrite Nat.add_sub_assoc by lia. reflexivity. }
  rewrite E. destruct Req_EM_T; auto. unfold skip. replace (k + i - w)%nat with (k + (i - w))%nat by lia. reflexivity.
Qed.
Lemma kama_meet : forall sc x sc' y s d j r, (forall t, (1 <= t)%nat -> sc (s + d + t)%nat = sc' (s + t)%nat /\ x (s + d + t)%nat = y (s + t)%nat) ->
  (forall t, (1 <= t)%nat -> 1 - r <= sc' (s + t)%nat <= 1) -> 0 <= r ->
  Rabs (kama_val sc x s (d + j) - kama_val sc' y s j) <= r ^ j * Rabs (kama_val sc x s d - y s).
Proof.
  intros sc x sc' y s d j r H R r0. induction j; [rewrite Nat.add_0_r; cbn; lra|]. rewrite Nat.add_succ_r. cbn [kama_val pow]. destruct (H (S j) ltac:(lia)) as [H1 H2].
  replace (s + S (d + j))%nat with (s + d + S j)%nat by lia. rewrite H1, H2. specialize (R (S j) ltac:(lia)). set (m := sc' (s + S j)%nat) in *.
  match goal with |- Rabs (?a + m * (?z - ?a) - (?b + m * (?z - ?b))) <= _ => replace (a + m * (z - a) - (b + m * (z - b))) with ((1 - m) * (a - b)) by ring end.
  rewrite Rabs_mult, (Rabs_pos_eq (1 - m)) by lra. rewrite Rmult_assoc. apply Rmult_le_compat; auto; try apply Rabs_pos; lra.
Qed.
Lemma kama_start : forall w p q, (1 <= w)%nat -> (1 <= p <= q)%Z ->
  start_matters (fun j => (1 - Rsqr (2 / IZR (q + 1))) ^ (j - (w - 1)) * D) k (w - 1) n
    (compute (Kama (Z.of_nat w) p q) false full) (compute (Kama (Z.of_nat w) p q) false tail).
Proof.
  intros w p q Hw Hp. unfold full, tail. rewrite !kama_formula by lia. opening. unfold from, fromx. rewrite (proj2 (Nat.ltb_ge (k + j) (w - 1))), (proj2 (Nat.ltb_ge j (w - 1))) by lia.
  do 2 eexists. split; [reflexivity|]. split; [reflexivity|]. replace (k + j - (w - 1))%nat with (k + (j - (w - 1)))%nat by lia.
  set (P := 2 / IZR (p + 1)). set (Q := 2 / IZR (q + 1)).
  assert (Ip : 2 <= IZR (p + 1)) by (apply (IZR_le 2); lia). assert (Iq : IZR (p + 1) <= IZR (q + 1)) by (apply IZR_le; lia).
  assert (HQ : 0 < Q <= P) by (unfold P, Q; split; [apply Rdiv_lt_0_compat; lra|]; apply Rmult_le_compat_l; [lra|]; apply Rinv_le_contravar; lra).
  assert (HP : P <= 1) by (unfold P; apply Rmult_le_reg_r with (IZR (p + 1)); [lra|]; field_simplify; lra).
  assert (Er : forall i, (w <= i)%nat -> 0 <= efficiency w (skip k c) i <= 1) by (intros i Hi; apply efficiency_range; lia).
  eapply Rle_trans; [apply (kama_meet _ c _ (skip k c) (w - 1) k (j - (w - 1)) (1 - Rsqr Q))|].
  - intros t Ht. cbv beta. replace (w - 1 + k + t)%nat with (k + (w - 1 + t))%nat by lia. split; [|reflexivity]. now rewrite efficiency_skip by lia.
  - intros t Ht. specialize (Er (w - 1 + t)%nat ltac:(lia)). unfold kama_sc_value. set (e := efficiency _ _ _) in *. assert (A : Q <= e * (P - Q) + Q <= 1).
    { assert (0 <= e * (P - Q)) by (apply Rmult_le_pos; lra). assert (e * (P - Q) <= 1 * (P - Q)) by (apply Rmult_le_compat_r; lra). lra. }
    set (z := e * (P - Q) + Q) in *. assert (Rsqr Q <= Rsqr z) by (apply Rsqr_incr_1; lra). assert (Rsqr z <= Rsqr 1) by (apply Rsqr_incr_1; lra). rewrite Rsqr_1 in *. lra.
  - assert (Rsqr Q <= Rsqr 1) by (apply Rsqr_incr_1; lra). rewrite Rsqr_1 in *. lra.
  - apply Rmult_le_compat_l. { apply pow_le. assert (Rsqr Q <= Rsqr 1) by (apply Rsqr_incr_1; lra). rewrite Rsqr_1 in *. lra. }
    assert (B := Hc (k + (w - 1))%nat ltac:(lia)). unfold skip.
    assert (A : lo <= kama_val (fun j => kama_sc_value P Q (efficiency w c j)) c (w - 1) k <= hi); [|apply Rabs_le; unfold D; lra].
    apply kama_val_range; [|intros; apply Hc; lia]. intros i Hi. pose proof (efficiency_range w c i ltac:(lia)) as X. unfold kama_sc_value. set (e := efficiency w c i) in *.
    assert (0 <= e * (P - Q)) by (apply Rmult_le_pos; lra). assert (e * (P - Q) <= 1 * (P - Q)) by (apply Rmult_le_compat_r; lra).
    split; [apply Rle_0_sqr|]. rewrite <- Rsqr_1. apply Rsqr_incr_1; lra.
Qed.
End Market.

Section Bars.
Variables (k n : nat) (h l c v : nat -> R).
Let full := frame (k + n) h l c v.
Let tail := frame n (skip k h) (skip k l) (skip k c) (skip k v).
Variables lo hi : R.
Hypothesis Hh : inside lo hi (k + n) h.
Hypothesis Hl : inside lo hi (k + n) l.
Hypothesis Hc : inside lo hi (k + n) c.
Hypothesis Hs : sane (k + n) h l c.
Let D := hi - lo.
(** ** ATR and the channel made with it *)
Lemma tr_size : forall m h l c i, inside lo hi m h -> inside lo hi m l -> inside lo hi m c -> sane m h l c -> (i < m)%nat -> 0 <= trange h l c i <= D.
Proof.
  clear. intros m h l c i Hh Hl Hc Hs Hi. subst D. assert (A := Hh i Hi). assert (B := Hl i Hi). assert (S := Hs i Hi). destruct i as [|i]; cbn [trange]; [lra|].
  assert (C := Hc i ltac:(lia)). unfold Rmax, Rabs. repeat destruct Rle_dec; repeat destruct Rcase_abs; lra.
Qed.
Lemma tr_skip : forall t, (1 <= t)%nat -> trange h l c (k + t) = trange (skip k h) (skip k l) (skip k c) t.
Proof. intros t Ht. destruct t as [|t]; [lia|]. rewrite Nat.add_succ_r. cbn [trange]. unfold skip. now rewrite Nat.add_succ_r. Qed.
Lemma rsum_bounds : forall x m i d, (forall t, (d <= t < d + i)%nat -> 0 <= x t <= m) -> 0 <= rsum x d i <= INR i * m.
Proof.
  induction i; intros d H; [cbn; lra|]. cbn [rsum]. rewrite S_INR. assert (A := IHi d ltac:(intros; apply H; lia)). assert (B := H (d + i)%nat ltac:(lia)). lra.
Qed.
Lemma atr_bounds : forall w x m j, (1 <= w)%nat -> (forall t, (t <= w - 1 + j)%nat -> 0 <= x t <= m) -> 0 <= atr_at w x j <= m.
Proof.
  clear. intros w x m j Hw H. assert (W : 1 <= INR w) by (apply (le_INR 1) in Hw; cbn in Hw; lra). induction j; cbn [atr_at].
  - assert (A := rsum_bounds x m w 0 ltac:(intros; apply H; lia)). split; [apply Rmult_le_pos; [lra|left; apply Rinv_0_lt_compat; lra]|]. apply Rmult_le_reg_r with (INR w); [lra|]. unfold Rdiv. rewrite Rmult_assoc, Rinv_l by lra. lra.
  - assert (A := IHj ltac:(intros; apply H; lia)). assert (B := H (w - 1 + S j)%nat ltac:(lia)). set (a := atr_at w x j) in *. set (b := x (w - 1 + S j)%nat) in *.
    assert (0 <= a * (INR w - 1) <= m * (INR w - 1)) by (split; [apply Rmult_le_pos; lra|apply Rmult_le_compat_r; lra]).
    split; [apply Rmult_le_pos; [lra|left; apply Rinv_0_lt_compat; lra]|]. apply Rmult_le_reg_r with (INR w); [lra|]. unfold Rdiv. rewrite Rmult_assoc, Rinv_l by lra. lra.
Qed.
Lemma atr_meet : forall w x y d j, (1 <= w)%nat -> (forall t, (w <= t)%nat -> x (d + t)%nat = y t) ->
  atr_at w x (d + j) - atr_at w y j = (1 - 1 / INR w) ^ j * (atr_at w x d - atr_at w y 0).
Proof.
  clear. intros w x y d j Hw H. assert (W : 1 <= INR w) by (apply (le_INR 1) in Hw; cbn in Hw; lra). induction j; [rewrite Nat.add_0_r; rewrite pow_O; ring|].
  rewrite Nat.add_succ_r. cbn [atr_at]. replace (w - 1 + S (d + j))%nat with (d + (w - 1 + S j))%nat by lia. rewrite H by lia. cbn [pow].
  transitivity ((1 - 1 / INR w) * (atr_at w x (d + j) - atr_at w y j)); [field; lra|]. rewrite IHj. cbn [atr_at]. ring.
Qed.
Lemma atr_late : forall w j, (1 <= w)%nat -> (w - 1 <= j < n)%nat ->
  Rabs (atr_value w (trange h l c) (k + j) - atr_value w (trange (skip k h) (skip k l) (skip k c)) j) <= (1 - 1 / INR w) ^ (j - (w - 1)) * D.
Proof.
  intros w j Hw Hj. unfold atr_value. rewrite (proj2 (Nat.ltb_ge (k + j) (w - 1))), (proj2 (Nat.ltb_ge j (w - 1))) by lia. replace (k + j - (w - 1))%nat with (k + (j - (w - 1)))%nat by lia.
  rewrite atr_meet by (auto; intros; apply tr_skip; lia). assert (S0 := wspan w Hw). rewrite Rabs_mult, Rabs_pos_eq by (apply pow_le; lra). apply Rmult_le_compat_l; [apply pow_le; lra|].
  assert (A := atr_bounds w (trange h l c) D k Hw ltac:(intros; apply (tr_size (k + n)); auto; lia)).
  assert (B := atr_bounds w (trange (skip k h) (skip k l) (skip k c)) D 0 Hw ltac:(intros; apply (tr_size n); auto using inside_skip; [intros i Hi; apply Hs; lia|lia])). apply Rabs_le. lra.
Qed.
Lemma atr_start : forall fl w, (1 <= w <= n)%nat ->
  start_matters (fun j => (1 - 1 / INR w) ^ (j - (w - 1)) * D) k (w - 1) n (compute (Atr (Z.of_nat w)) fl full) (compute (Atr (Z.of_nat w)) fl tail).
Proof.
  intros fl w Hw. unfold full, tail. rewrite !atr_formula by lia. opening. unfold from, fromx. rewrite (proj2 (Nat.ltb_ge (k + j) 0)), (proj2 (Nat.ltb_ge j 0)) by lia.
  do 2 eexists. split; [reflexivity|]. split; [reflexivity|]. apply atr_late; lia.
Qed.
Lemma keltner_start : forall fl w a m q, (1 <= w)%nat -> (1 <= a <= n)%nat -> 1 - 2 / (INR w + 1) <= q -> 1 - 1 / INR a <= q -> q <= 1 ->
  let b := fun j => (1 + Rabs m) * D * q ^ (j - (a - 1)) in let s := Nat.max (warm fl w) (a - 1) in
  start_matters b k s n (compute (KcH (Z.of_nat w) (Z.of_nat a) false (Fin m)) fl full) (compute (KcH (Z.of_nat w) (Z.of_nat a) false (Fin m)) fl tail) /\
  start_matters b k s n (compute (KcL (Z.of_nat w) (Z.of_nat a) false (Fin m)) fl full) (compute (KcL (Z.of_nat w) (Z.of_nat a) false (Fin m)) fl tail).
Proof.
  intros fl w a m q Hw Ha Q1 Q2 Q3 b s. unfold full, tail.
  destruct (kc_bands_ema fl w a m (k + n) h l c v Hw ltac:(lia)) as (_ & E1 & E2 & _). destruct (kc_bands_ema fl w a m n (skip k h) (skip k l) (skip k c) (skip k v) Hw Ha) as (_ & E3 & E4 & _).
  rewrite E1, E2, E3, E4. assert (Wa := wspan a ltac:(lia)). assert (Sw := span w Hw). assert (D0 : 0 <= D) by (apply (D_pos k n c lo hi Hc); lia).
  assert (B : forall j, (s <= j < n)%nat -> Rabs (ema w c 0 (k + j) - ema w (skip k c) 0 j) <= D * q ^ (j - (a - 1)) /\
     Rabs (m * atr_value a (trange h l c) (k + j) - m * atr_value a (trange (skip k h) (skip k l) (skip k c)) j) <= Rabs m * D * q ^ (j - (a - 1))).
  { intros j Hj. split.
    - eapply Rle_trans; [apply (late_ema w c k j lo hi (k + n)); auto; lia|]. fold D. rewrite Rmult_comm. apply Rmult_le_compat_l; auto.
      eapply Rle_trans; [apply (pow_incr _ q); lra|]. replace j with (a - 1 + (j - (a - 1)))%nat at 1 by lia. rewrite pow_add. rewrite <- (Rmult_1_l (q ^ (j - (a - 1)))) at 2.
      apply Rmult_le_compat_r; [apply pow_le; lra|]. rewrite <- (pow1 (a - 1)). apply pow_incr. lra.
    - rewrite <- Rmult_minus_distr_l, Rabs_mult, Rmult_assoc. apply Rmult_le_compat_l; [apply Rabs_pos|]. eapply Rle_trans; [apply atr_late; lia|]. rewrite Rmult_comm. apply Rmult_le_compat_l; auto. apply pow_incr. lra. }
  split; opening; unfold from, fromx; rewrite (proj2 (Nat.ltb_ge (k + j) (warm fl w))), (proj2 (Nat.ltb_ge j (warm fl w))) by lia;
    do 2 eexists; (split; [reflexivity|]); (split; [reflexivity|]); destruct (B j Hj) as [B1 B2]; subst b; cbv beta;
    replace ((1 + Rabs m) * D * q ^ (j - (a - 1))) with (D * q ^ (j - (a - 1)) + Rabs m * D * q ^ (j - (a - 1))) by ring.
  - match goal with |- Rabs (?p + ?x - (?r + ?y)) <= _ => replace (p + x - (r + y)) with ((p - r) + (x - y)) by ring end. eapply Rle_trans; [apply Rabs_triang|]. lra.
  - match goal with |- Rabs (?p - ?x - (?r - ?y)) <= _ => replace (p - x - (r - y)) with ((p - r) + - (x - y)) by ring end. eapply Rle_trans; [apply Rabs_triang|]. rewrite Rabs_Ropp. lra.
Qed.
(** ** directional indicators *)
Lemma wsum_bounds : forall w x m t, (1 <= w)%nat -> (forall i, (1 <= i <= w + t)%nat -> 0 <= x i <= m) -> 0 <= wilder_sum w x t <= INR w * m.
Proof.
  clear. intros w x m t Hw H. assert (W : 1 <= INR w) by (apply (le_INR 1) in Hw; cbn in Hw; lra). induction t; cbn [wilder_sum]; [apply rsum_bounds; intros; apply H; lia|].
  assert (A := IHt ltac:(intros; apply H; lia)). assert (B := H (w + S t)%nat ltac:(lia)). set (a := wilder_sum w x t) in *. assert (S0 := wspan w Hw).
  replace (a - a / INR w) with ((1 - 1 / INR w) * a) by (field; lra). assert (0 <= (1 - 1 / INR w) * a <= (1 - 1 / INR w) * (INR w * m)) by (split; [apply Rmult_le_pos; lra|apply Rmult_le_compat_l; lra]).
  replace ((1 - 1 / INR w) * (INR w * m)) with (INR w * m - m) in * by (field; lra). lra.
Qed.
Lemma wsum_le : forall w x y t, (1 <= w)%nat -> (forall i, (1 <= i <= w + t)%nat -> x i <= y i) -> wilder_sum w x t <= wilder_sum w y t.
Proof.
  clear. intros w x y t Hw H. assert (S0 := wspan w Hw). assert (W : 1 <= INR w) by (apply (le_INR 1) in Hw; cbn in Hw; lra). induction t; cbn [wilder_sum].
  - assert (A : forall i d, (1 <= d)%nat -> (d + i <= w + 1)%nat -> rsum x d i <= rsum y d i).
    { induction i; intros d H1 H2; cbn [rsum]; [lra|]. assert (A := IHi d H1 ltac:(lia)). assert (B := H (d + i)%nat ltac:(lia)). lra. }
    apply A; lia.
  - assert (A := IHt ltac:(intros; apply H; lia)). assert (B := H (w + S t)%nat ltac:(lia)).
    replace (wilder_sum w x t - wilder_sum w x t / INR w) with ((1 - 1 / INR w) * wilder_sum w x t) by (field; lra). replace (wilder_sum w y t - wilder_sum w y t / INR w) with ((1 - 1 / INR w) * wilder_sum w y t) by (field; lra).
    assert ((1 - 1 / INR w) * wilder_sum w x t <= (1 - 1 / INR w) * wilder_sum w y t) by (apply Rmult_le_compat_l; lra). lra.
Qed.
Lemma wsum_meet : forall w x y d t, (1 <= w)%nat -> (forall i, (w < i)%nat -> x (d + i)%nat = y i) ->
  wilder_sum w x (d + t) - wilder_sum w y t = (1 - 1 / INR w) ^ t * (wilder_sum w x d - wilder_sum w y 0).
Proof.
  clear. intros w x y d t Hw H. assert (W : 1 <= INR w) by (apply (le_INR 1) in Hw; cbn in Hw; lra). induction t; [rewrite Nat.add_0_r; rewrite pow_O; ring|].
  rewrite Nat.add_succ_r. cbn [wilder_sum]. replace (w + S (d + t))%nat with (d + (w + S t))%nat by lia. rewrite H by lia. cbn [pow].
  transitivity ((1 - 1 / INR w) * (wilder_sum w x (d + t) - wilder_sum w y t)); [field; lra|]. rewrite IHt. cbn [wilder_sum]. ring.
Qed.
Lemma moves : forall m h l c i, inside lo hi m h -> inside lo hi m l -> inside lo hi m c -> sane m h l c -> (1 <= i < m)%nat ->
  0 <= dm_plus h l i <= dm_range h l c i /\ 0 <= dm_minus h l i <= dm_range h l c i /\ dm_range h l c i <= D.
Proof.
  clear. intros m h l c i Hh Hl Hc Hs Hi. subst D. assert (A := Hh i ltac:(lia)). assert (B := Hl i ltac:(lia)). assert (S := Hs i ltac:(lia)). assert (C := Hc (i - 1)%nat ltac:(lia)). assert (S' := Hs (i - 1)%nat ltac:(lia)).
  unfold dm_plus, dm_minus, dm_range, Rmax, Rmin. repeat destruct Rlt_dec; repeat destruct Rle_dec; lra.
Qed.
Lemma di_late : forall w j x y tr tr', (1 <= w)%nat -> (w < j < n)%nat ->
  (forall i, (1 <= i)%nat -> x (k + i)%nat = y i) -> (forall i, (1 <= i)%nat -> tr (k + i)%nat = tr' i) ->
  (forall i, (1 <= i < k + n)%nat -> 0 <= x i <= tr i /\ tr i <= D) -> (forall i, (1 <= i < n)%nat -> 0 <= y i <= tr' i /\ tr' i <= D) ->
  0 < wilder_sum w tr' (j - w) ->
  Rabs (di_value w x tr (k + j) - di_value w y tr' j) <= 100 * (2 * INR w * D * (1 - 1 / INR w) ^ (j - w) / wilder_sum w tr' (j - w)).
Proof.
  clear - D. intros w j x y tr tr' Hw Hj Hx Ht H H' P. assert (S0 := wspan w Hw). set (r := 1 - 1 / INR w) in *.
  assert (Z : forall a b, (forall i, (1 <= i)%nat -> a (k + i)%nat = b i) -> (forall i, (1 <= i < k + n)%nat -> 0 <= a i <= D) -> (forall i, (1 <= i < n)%nat -> 0 <= b i <= D) ->
    Rabs (wilder_sum w a (k + (j - w)) - wilder_sum w b (j - w)) <= INR w * D * r ^ (j - w)).
  { intros a b Hab Ha Hb. rewrite wsum_meet by (auto; intros; apply Hab; lia). fold r. rewrite Rabs_mult, Rabs_pos_eq by (apply pow_le; unfold r; lra). rewrite Rmult_comm. apply Rmult_le_compat_r; [apply pow_le; unfold r; lra|].
    assert (A := wsum_bounds w a D k Hw ltac:(intros; apply Ha; lia)). assert (B := wsum_bounds w b D 0 Hw ltac:(intros; apply Hb; lia)). apply Rabs_le. lra. }
  assert (E1 := Z x y Hx ltac:(intros i Hi; destruct (H i Hi); lra) ltac:(intros i Hi; destruct (H' i Hi); lra)).
  assert (E2 := Z tr tr' Ht ltac:(intros i Hi; destruct (H i Hi); lra) ltac:(intros i Hi; destruct (H' i Hi); lra)).
  unfold di_value. replace (k + j - w)%nat with (k + (j - w))%nat by lia. set (B := wilder_sum w tr (k + (j - w))) in *. set (B' := wilder_sum w tr' (j - w)) in *. set (N := wilder_sum w x (k + (j - w))) in *.
  assert (HN : Rabs N <= B). { assert (A := wsum_bounds w x D (k + (j - w)) Hw ltac:(intros i Hi; destruct (H i ltac:(lia)); lra)). fold N in A. rewrite Rabs_pos_eq by lra. apply wsum_le; auto. intros i Hi. apply H. lia. }
  assert (Q := quot_late N B (wilder_sum w y (j - w)) B' _ _ HN P E1 E2). destruct (Req_EM_T B' 0); [lra|].
  replace ((if Req_EM_T B 0 then 0 else 100 * (N / B)) - 100 * (wilder_sum w y (j - w) / B')) with (100 * ((if Req_EM_T B 0 then 0 else N / B) - wilder_sum w y (j - w) / B')) by (destruct Req_EM_T; ring).
  rewrite Rabs_mult, (Rabs_pos_eq 100) by lra. apply Rmult_le_compat_l; [lra|]. eapply Rle_trans; [exact Q|]. apply Req_le. field. lra.
Qed.
Lemma di_start : forall fl w j, (1 <= w)%nat -> (w < j < n)%nat ->
  let size := wilder_sum w (dm_range (skip k h) (skip k l) (skip k c)) (j - w) in 0 < size ->
  let b := 100 * (2 * INR w * D * (1 - 1 / INR w) ^ (j - w) / size) in
  (exists out out' x x', compute (AdxPos (Z.of_nat w)) fl full = Ok out /\ compute (AdxPos (Z.of_nat w)) fl tail = Ok out' /\ nth (k + j) out NaN = Fin x /\ nth j out' NaN = Fin x' /\ Rabs (x - x') <= b) /\
  (exists out out' x x', compute (AdxNeg (Z.of_nat w)) fl full = Ok out /\ compute (AdxNeg (Z.of_nat w)) fl tail = Ok out' /\ nth (k + j) out NaN = Fin x /\ nth j out' NaN = Fin x' /\ Rabs (x - x') <= b).
Proof.
  intros fl w j Hw Hj size P b. unfold full, tail. destruct (di_formula fl w (k + n) h l c v ltac:(lia)) as [-> ->]. destruct (di_formula fl w n (skip k h) (skip k l) (skip k c) (skip k v) ltac:(lia)) as [-> ->].
  assert (M1 := fun i => moves (k + n) h l c i Hh Hl Hc Hs).
  assert (M2 := fun i => moves n (skip k h) (skip k l) (skip k c) i (inside_skip _ _ _ _ _ Hh) (inside_skip _ _ _ _ _ Hl) (inside_skip _ _ _ _ _ Hc) ltac:(intros t Ht; apply Hs; lia)).
  split; do 4 eexists; (split; [reflexivity|]); (split; [reflexivity|]); rewrite !nth_tab by lia; rewrite (proj2 (Nat.leb_gt (k + j) w)), (proj2 (Nat.leb_gt j w)) by lia;
    (split; [reflexivity|]); (split; [reflexivity|]).
  - apply di_late; auto.
    + intros i Hi. unfold dm_plus, skip. now rewrite Nat.add_sub_assoc by lia.
    + intros i Hi. unfold dm_range, skip. now rewrite Nat.add_sub_assoc by lia.
    + intros i Hi. destruct (M1 i Hi) as (A & B & C). auto.
    + intros i Hi. destruct (M2 i Hi) as (A & B & C). auto.
  - apply di_late; auto.
    + intros i Hi. unfold dm_minus, skip. now rewrite Nat.add_sub_assoc by lia.
    + intros i Hi. unfold dm_range, skip. now rewrite Nat.add_sub_assoc by lia.
    + intros i Hi. destruct (M1 i Hi) as (A & B & C). auto.
    + intros i Hi. destruct (M2 i Hi) as (A & B & C). auto.
Qed.
End Bars.

(** ** running totals never forget *)
Section Totals.
Variables (k n : nat) (h l c v : nat -> R).
Hypothesis Hn : (1 <= n)%nat.
Let full := frame (k + n) h l c v.
Let tail := frame n (skip k h) (skip k l) (skip k c) (skip k v).
Lemma rsum_gap : forall x y s j, (forall t, (s <= t)%nat -> x (k + t)%nat = y t) -> rsum x 0 (k + s + j) - rsum y 0 (s + j) = rsum x 0 (k + s) - rsum y 0 s.
Proof.
  intros x y s j H. induction j; [now rewrite !Nat.add_0_r|]. rewrite !Nat.add_succ_r. cbn [rsum]. rewrite !Nat.add_0_l. replace (k + s + j)%nat with (k + (s + j))%nat at 2 by lia. rewrite H by lia. lra.
Qed.
Lemma obv_start : forall fl, constant_gap k 0 n (compute Obv fl full) (compute Obv fl tail).
Proof.
  intros fl. unfold full, tail. rewrite !obv_formula. exists (tab (k + n) (from 0 (fun i => rsum (signed_volume c v) 0 (S i)))). eexists.
  exists (rsum (signed_volume c v) 0 (k + 1) - rsum (signed_volume (skip k c) (skip k v)) 0 1). split; [reflexivity|]. split; [reflexivity|].
  intros j Hj. rewrite !nth_tab by lia. unfold from, fromx. cbn [Nat.ltb Nat.leb]. eexists. split; [reflexivity|]. f_equal.
  rewrite <- (rsum_gap _ _ 1 j); [replace (k + 1 + j)%nat with (S (k + j)) by lia; replace (1 + j)%nat with (S j) by lia; ring|].
  intros t Ht. destruct t as [|t]; [lia|]. rewrite Nat.add_succ_r. cbn [signed_volume]. unfold skip. now rewrite Nat.add_succ_r.
Qed.
Lemma adi_start : forall fl, sane (k + n) h l c -> constant_gap k 0 n (compute Adi fl full) (compute Adi fl tail).
Proof.
  intros fl Hs. unfold full, tail. rewrite !adi_formula by (auto; intros i Hi; apply Hs; lia). set (x := fun j => location h l c j * v j). set (y := fun j => location (skip k h) (skip k l) (skip k c) j * skip k v j).
  do 2 eexists. exists (rsum x 0 (k + 0) - rsum y 0 0). split; [reflexivity|]. split; [reflexivity|].
  intros j Hj. rewrite !nth_tab by lia. unfold from, fromx. cbn [Nat.ltb Nat.leb]. eexists. split; [reflexivity|]. f_equal.
  rewrite <- (rsum_gap x y 0 (S j)); [replace (k + 0 + S j)%nat with (S (k + j)) by lia; rewrite Nat.add_0_l; ring|]. reflexivity.
Qed.
Lemma vpt_start : forall fl, (forall i, (i < k + n)%nat -> c i <> 0) -> constant_gap k 1 n (compute (Vpt None false) fl full) (compute (Vpt None false) fl tail).
Proof.
  intros fl Hc. unfold full, tail. rewrite !vpt_formula by (auto; intros i Hi; apply Hc; lia). do 2 eexists. exists (vpt_value c v k). split; [reflexivity|]. split; [reflexivity|].
  intros j Hj. rewrite !nth_tab by lia. unfold gaps. rewrite (proj2 (Nat.ltb_ge (k + j) 1)), (proj2 (Nat.ltb_ge j 1)) by lia. eexists. split; [reflexivity|]. f_equal. clear Hj. unfold vpt_value.
  induction j; [rewrite Nat.add_0_r; cbn; ring|]. rewrite Nat.add_succ_r. cbn [rsum]. rewrite IHj. unfold skip. replace (k + (1 + j - 1))%nat with (1 + (k + j) - 1)%nat by lia. replace (k + (1 + j))%nat with (1 + (k + j))%nat by lia. ring.
Qed.
Lemma nvi_start : forall fl, (forall i, (i < k + n)%nat -> c i <> 0) -> constant_factor k n (compute Nvi fl full) (compute Nvi fl tail).
Proof.
  intros fl Hc. unfold full, tail. rewrite !nvi_formula by (auto; try lia; intros i Hi; apply Hc; lia). do 2 eexists. exists (rprod (nvi_factor c v) 1 k). split; [reflexivity|]. split; [reflexivity|].
  intros j Hj. rewrite !nth_tab by lia. unfold from, fromx. cbn [Nat.ltb Nat.leb]. eexists. split; [reflexivity|]. f_equal. clear Hj.
  induction j; [rewrite Nat.add_0_r; cbn; ring|]. rewrite Nat.add_succ_r. cbn [rprod].
  assert (E : nvi_factor c v (1 + (k + j)) = nvi_factor (skip k c) (skip k v) (1 + j)).
  { unfold nvi_factor, skip. replace (k + (1 + j - 1))%nat with (1 + (k + j) - 1)%nat by lia. replace (k + (1 + j))%nat with (1 + (k + j))%nat by lia. reflexivity. }
  rewrite E. rewrite <- !Rmult_assoc in *. rewrite IHj. ring.
Qed.
End Totals.

(** enough rows make the start negligible *)
Lemma enough_rows : forall a D e j, 0 < a <= 1 -> 0 < D -> 0 < e -> ln (D / e) <= a * INR j -> (1 - a) ^ j * D <= e.
Proof.
  intros a D e j Ha HD He H. assert (L : (1 - a) ^ j <= exp (- (a * INR j))).
  { replace (exp (- (a * INR j))) with (exp (- a) ^ j).
    - apply pow_incr. split; [lra|]. destruct (Req_dec a 0) as [->|N]; [lra|]. left. pose proof (exp_ineq1 (- a)). lra.
    - clear - a. induction j; [cbn; rewrite Rmult_0_r, Ropp_0, exp_0; reflexivity|]. rewrite S_INR. cbn [pow]. rewrite IHj, <- exp_plus. f_equal. ring. }
  assert (X : exp (- (a * INR j)) <= e / D).
  { replace (e / D) with (exp (ln (e / D))) by (apply exp_ln, Rdiv_lt_0_compat; auto). assert (M : - (a * INR j) <= ln (e / D)).
    { replace (e / D) with (/ (D / e)) by (field; lra). rewrite ln_Rinv by (apply Rdiv_lt_0_compat; auto). lra. }
    destruct M as [M| ->]; [left; now apply exp_increasing|apply Rle_refl]. }
  apply Rle_trans with (e / D * D); [apply Rmult_le_compat_r; lra|]. apply Req_le. field. lra.
Qed.
Lemma totals_start : forall k n h l c v fl,
  let full ind := compute ind fl (frame (k + n) h l c v) in let tail ind := compute ind fl (frame n (skip k h) (skip k l) (skip k c) (skip k v)) in
  (1 <= n)%nat -> sane (k + n) h l c -> (forall i, (i < k + n)%nat -> c i <> 0) ->
  constant_gap k 0 n (full Obv) (tail Obv) /\ constant_gap k 0 n (full Adi) (tail Adi) /\
  constant_gap k 1 n (full (Vpt None false)) (tail (Vpt None false)) /\ constant_factor k n (full Nvi) (tail Nvi).
Proof. intros. split; [now apply obv_start|split; [now apply adi_start|split; [now apply vpt_start|now apply nvi_start]]]. Qed.
