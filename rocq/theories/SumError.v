(** * SumError: how far numpy's sums, and the weighted and Wilder averages built on them, stray in binary64. *)
From Flocq Require Import Core PrimFloat.
From Coq Require Import Reals Lra Floats Permutation.
From Verif Require Import Lists Arith FloatArith FloatReal Order FloatOrder Api Align Causal Rows Running FloatPct EmaError FloatEma FloatTrack SpecNum Tab Averages Bands Stuck RoundedBands SpecTracking Tracking RunningError.
Local Open Scope R_scope.
#[local] Arguments eta : simpl never.
#[local] Arguments u : simpl never.

(** ** any order of additions *)
(** the number a finite float stands for *)
Definition num_of (x : float) : R := match val x with Fin r => r | _ => 0 end.
Definition plain (x : float) : Prop := exists r, val x = Fin r.
Lemma plain_num : forall x, plain x -> val x = Fin (num_of x).
Proof. intros x (r & V). unfold num_of. now rewrite V. Qed.
Lemma num_val : forall x r, val x = Fin r -> num_of x = r.
Proof. intros x r V. unfold num_of. now rewrite V. Qed.
Definition rtotal (l : list float) : R := fold_right (fun x s => num_of x + s) 0 l.
Definition rsizes (l : list float) : R := fold_right (fun x s => Rabs (num_of x) + s) 0 l.
Lemma rtotal_app : forall l m, rtotal (l ++ m) = rtotal l + rtotal m.
Proof. unfold rtotal. induction l; intros m; cbn; [lra|]. rewrite IHl. lra. Qed.
Lemma rsizes_app : forall l m, rsizes (l ++ m) = rsizes l + rsizes m.
Proof. unfold rsizes. induction l; intros m; cbn; [lra|]. rewrite IHl. lra. Qed.
Lemma rtotal_perm : forall l m, Permutation l m -> rtotal l = rtotal m.
Proof. intros l m P. induction P; cbn; try lra; unfold rtotal in *; lra. Qed.
Lemma rsizes_perm : forall l m, Permutation l m -> rsizes l = rsizes m.
Proof. intros l m P. induction P; cbn; try lra; unfold rsizes in *; lra. Qed.
Lemma rsizes_pos : forall l, 0 <= rsizes l.
Proof. unfold rsizes. induction l; cbn; [lra|]. pose proof (Rabs_pos (num_of a)). lra. Qed.
Lemma rtotal_size : forall l, Rabs (rtotal l) <= rsizes l.
Proof. unfold rtotal, rsizes. induction l; cbn; [rewrite Rabs_R0; lra|]. eapply Rle_trans; [apply Rabs_triang|]. lra. Qed.

Section Sum.
Variable W : R.
Hypothesis W1 : bpow radix2 (-900) <= W.
Hypothesis W2 : 2 * W <= bpow radix2 1020.
Lemma sum_near : forall l x, totals l x -> Forall plain l -> rsizes l <= W -> INR (length l) * u <= / 100 ->
  exists q, val x = Fin q /\ Rabs (q - rtotal l) <= INR (Nat.pred (length l)) * (11 / 10 * (u * W)).
Proof.
  pose proof (K_pos W W1) as P. pose proof (uK_small W W1) as [U1 U2].
  intros l x H. induction H as [|x|l m n x y H1 IH1 H2 IH2 Pm]; intros Hp Hs Hn.
  - exists 0. split; [now apply (val_small 0)|]. cbn. rewrite Rminus_0_r, Rabs_R0. lra.
  - exists (num_of x). split; [exact (plain_num _ (Forall_inv Hp))|]. cbn. rewrite Rplus_0_r, Rminus_diag_eq by auto. rewrite Rabs_R0. lra.
  - rewrite <- (rtotal_perm _ _ Pm), rtotal_app. rewrite <- (rsizes_perm _ _ Pm), rsizes_app in Hs.
    assert (Q : Forall plain (l ++ m)) by (rewrite Forall_forall in *; intros z Z; apply Hp; now rewrite <- Pm). apply Forall_app in Q as [Q1 Q2].
    apply Permutation_length in Pm. rewrite app_length in Pm. rewrite <- Pm in *. rewrite plus_INR in Hn.
    pose proof (rsizes_pos l) as S1. pose proof (rsizes_pos m) as S2. pose proof (pos_INR (length l)) as N1. pose proof (pos_INR (length m)) as N2.
    assert (UP : 0 < u) by (unfold u; lra).
    destruct IH1 as (p & Vp & Ep); auto; try lra; [nra|]. destruct IH2 as (q & Vq & Eq); auto; try lra; [nra|].
    change (fadd x y) with (@fadd float FloatA x y). rewrite val_add, Vp, Vq. cbn [xadd].
    pose proof (rtotal_size l) as R1. pose proof (rtotal_size m) as R2.
    assert (Z1 : forall k, INR (Nat.pred k) <= INR k) by (intros k; apply le_INR; lia).
    assert (B : forall k, INR (Nat.pred k) * u <= INR k * u) by (intros k; apply Rmult_le_compat_r; auto; lra).
    pose proof (B (length l)) as B1. pose proof (B (length m)) as B2.
    destruct l as [|a l].
    { cbn [rtotal fold_right length Nat.pred INR] in *. rewrite Rmult_0_l, Rminus_0_r in Ep. apply abs_le_both in Ep. assert (p = 0) by lra. subst p.
      exists q. split; [|now rewrite Rplus_0_l]. rewrite Rplus_0_l, <- Vq. apply rx_id. }
    destruct m as [|b m].
    { cbn [rtotal fold_right length Nat.pred INR] in *. rewrite Rmult_0_l, Rminus_0_r in Eq. apply abs_le_both in Eq. assert (q = 0) by lra. subst q.
      exists p. split; [|rewrite Nat.add_0_r, Rplus_0_r; exact Ep]. rewrite Rplus_0_r, <- Vp. apply rx_id. }
    set (j := length (a :: l)) in *. set (k := length (b :: m)) in *.
    assert (J : INR (Nat.pred (j + k)) = INR (Nat.pred j) + INR (Nat.pred k) + 1).
    { rewrite <- plus_INR. rewrite <- S_INR. f_equal. unfold j, k. cbn [length]. lia. }
    rewrite J.
    assert (T : Rabs (p + q - (rtotal (a :: l) + rtotal (b :: m))) <= (INR (Nat.pred j) + INR (Nat.pred k)) * (11 / 10 * (u * W))).
    { replace (p + q - (rtotal (a :: l) + rtotal (b :: m))) with ((p - rtotal (a :: l)) + (q - rtotal (b :: m))) by ring.
      eapply Rle_trans; [apply Rabs_triang|]. lra. }
    assert (Small : (INR (Nat.pred j) + INR (Nat.pred k)) * (11 / 10 * (u * W)) <= 11 / 1000 * W).
    { replace ((INR (Nat.pred j) + INR (Nat.pred k)) * (11 / 10 * (u * W))) with ((INR (Nat.pred j) * u + INR (Nat.pred k) * u) * (11 / 10 * W)) by ring.
      replace (11 / 1000 * W) with (/ 100 * (11 / 10 * W)) by field. apply Rmult_le_compat_r; lra. }
    assert (Bs : Rabs (p + q) <= 102 / 100 * W).
    { replace (p + q) with ((p + q - (rtotal (a :: l) + rtotal (b :: m))) + (rtotal (a :: l) + rtotal (b :: m))) by ring.
      eapply Rle_trans; [apply Rabs_triang|]. pose proof (Rabs_triang (rtotal (a :: l)) (rtotal (b :: m))). lra. }
    rewrite rx_small by lra. eexists. split; [reflexivity|].
    pose proof (rnd_K W W1 _ _ Bs) as E.
    replace (rnd (p + q) - (rtotal (a :: l) + rtotal (b :: m))) with ((rnd (p + q) - (p + q)) + (p + q - (rtotal (a :: l) + rtotal (b :: m)))) by ring.
    eapply Rle_trans; [apply Rabs_triang|]. replace (u * (102 / 100 * W)) with (102 / 100 * (u * W)) in E by ring. lra.
Qed.
End Sum.
Lemma rtotal_nth : forall l, rtotal l = rsum (fun j => num_of (nth j l fnan)) 0 (length l).
Proof. induction l; [reflexivity|]. cbn [length]. rewrite rsum_first. cbn [rtotal fold_right nth]. unfold rtotal in *. rewrite IHl. f_equal.
  rewrite (rsum_shift _ 1). now apply rsum_ext. Qed.
Lemma rsizes_nth : forall l, rsizes l = rsum (fun j => Rabs (num_of (nth j l fnan))) 0 (length l).
Proof. induction l; [reflexivity|]. cbn [length]. rewrite rsum_first. cbn [rsizes fold_right nth]. unfold rsizes in *. rewrite IHl. f_equal.
  rewrite (rsum_shift _ 1). now apply rsum_ext. Qed.
Lemma plain_nth : forall l, (forall j, (j < length l)%nat -> plain (nth j l fnan)) -> Forall plain l.
Proof. intros l H. apply Forall_forall. intros x I. apply (In_nth _ _ fnan) in I as (j & Hj & <-). auto. Qed.
Lemma plain_ssum : forall l : list float, Forall plain l -> ssum l = fsum l.
Proof.
  intros l H. unfold ssum. f_equal. rewrite <- (map_id l) at 2. apply map_ext_in. intros x I. rewrite Forall_forall in H. destruct (H x I) as (r & V).
  now rewrite val_nan, V.
Qed.
Lemma rsum_le : forall f g a n, (forall j, (a <= j < a + n)%nat -> f j <= g j) -> rsum f a n <= rsum g a n.
Proof.
  intros f g a n H. induction n; [cbn; lra|]. cbn [rsum]. pose proof (H (a + n)%nat ltac:(lia)). specialize (IHn ltac:(intros; apply H; lia)). lra.
Qed.
Lemma rsum_dist : forall f g a n, Rabs (rsum f a n - rsum g a n) <= rsum (fun j => Rabs (f j - g j)) a n.
Proof.
  intros f g a n. induction n; [cbn; rewrite Rminus_0_r, Rabs_R0; lra|]. cbn [rsum].
  replace (rsum f a n + f (a + n)%nat - (rsum g a n + g (a + n)%nat)) with ((rsum f a n - rsum g a n) + (f (a + n)%nat - g (a + n)%nat)) by ring.
  eapply Rle_trans; [apply Rabs_triang|]. lra.
Qed.
(** a sum of [n] terms, term j within d j of t j *)
Lemma fsum_near : forall W l t d, bpow radix2 (-900) <= W -> 2 * W <= bpow radix2 1020 ->
  (forall j, (j < length l)%nat -> exists q, val (nth j l fnan) = Fin q /\ Rabs (q - t j) <= d j) ->
  rsum (fun j => Rabs (t j) + d j) 0 (length l) <= W -> INR (length l) * u <= / 100 ->
  exists q, val (fsum l) = Fin q /\ Rabs (q - rsum t 0 (length l)) <= INR (length l) * (11 / 10 * (u * W)) + rsum d 0 (length l).
Proof.
  intros W l t d W1 W2 H S N.
  assert (Hp : Forall plain l) by (apply plain_nth; intros j Hj; destruct (H j Hj) as (q & V & _); now exists q).
  assert (D : forall j, (j < length l)%nat -> Rabs (num_of (nth j l fnan) - t j) <= d j).
  { intros j Hj. destruct (H j Hj) as (q & V & E). now rewrite (num_val _ _ V). }
  destruct (sum_near W W1 W2 l (fsum l) (fsum_totals l) Hp) as (q & V & E); auto.
  { rewrite rsizes_nth. eapply Rle_trans; [|exact S]. apply rsum_le. intros j Hj. specialize (D j ltac:(lia)).
    pose proof (Rabs_triang (num_of (nth j l fnan) - t j) (t j)) as T. replace (num_of (nth j l fnan) - t j + t j) with (num_of (nth j l fnan)) in T by ring. lra. }
  exists q. split; auto. rewrite rtotal_nth in E.
  replace (q - rsum t 0 (length l)) with ((q - rsum (fun j => num_of (nth j l fnan)) 0 (length l)) + (rsum (fun j => num_of (nth j l fnan)) 0 (length l) - rsum t 0 (length l))) by ring.
  eapply Rle_trans; [apply Rabs_triang|]. apply Rplus_le_compat.
  - eapply Rle_trans; [exact E|]. apply Rmult_le_compat_r; [pose proof (uK_small W W1); lra|]. apply le_INR. lia.
  - eapply Rle_trans; [apply rsum_dist|]. apply rsum_le. intros j Hj. apply D. lia.
Qed.

(** ** linearly weighted means *)
Section Wma.
Variables (w : nat) (p : list float) (c : nat -> R) (M : R).
Hypothesis Hw : (1 <= w)%nat.
Hypothesis Ww : (Z.of_nat w <= 2 ^ 25)%Z.
Hypothesis HM : ordinary M.
Hypothesis Hc : forall i, (i < length p)%nat -> val (nth i p fnan) = Fin (c i) /\ Rabs (c i) <= M.
Let D : R := INR w * (INR w + 1).
Let a (j : nat) : R := 2 * INR (S j) / D.
Lemma D_big : 2 <= D <= IZR (2 ^ 51).
Proof.
  assert (1 <= INR w) by (apply (le_INR 1); lia). assert (INR w <= IZR (2 ^ 25)) by (rewrite INR_IZR_INZ; apply IZR_le; lia). unfold D. split; [nra|].
  apply Rle_trans with (IZR (2 ^ 25) * (IZR (2 ^ 25) + 1)); [nra|]. rewrite <- plus_IZR, <- mult_IZR. apply IZR_le. discriminate.
Qed.
Lemma a_pos : forall j, (j < w)%nat -> / IZR (2 ^ 50) <= a j <= 1.
Proof.
  intros j Hj. pose proof D_big as [B1 B2]. assert (I : 0 < / D) by (apply Rinv_0_lt_compat; lra). assert (E : D * / D = 1) by (apply Rinv_r; lra).
  unfold a, Rdiv. assert (S1 : 1 <= INR (S j)) by (rewrite S_INR; pose proof (pos_INR j); lra).
  assert (S2 : INR (S j) <= INR w) by (apply le_INR; lia). split.
  - apply Rle_trans with (2 * / D); [|nra]. apply Rmult_le_reg_r with D; [lra|]. rewrite Rmult_assoc, (Rmult_comm (/ D)), E.
    change (IZR (2 ^ 51)) with 2251799813685248 in *. change (IZR (2 ^ 50)) with 1125899906842624. lra.
  - apply Rmult_le_reg_r with D; [lra|]. rewrite Rmult_assoc, (Rmult_comm (/ D)), E. unfold D in *. nra.
Qed.
Lemma a_sum : rsum a 0 w = 1.
Proof.
  pose proof D_big as [B1 _]. assert (G : forall k, rsum (fun j => INR (S j)) 0 k = INR k * (INR k + 1) / 2).
  { induction k; [cbn; lra|]. cbn [rsum]. rewrite IHk. change (0 + k)%nat with k. rewrite !S_INR. field. }
  rewrite (rsum_ext _ (fun j => 2 / D * INR (S j))) by (intros; unfold a; field; lra). rewrite rsum_scal, G. fold D. replace (INR w * (INR w + 1) / 2) with (D / 2) by reflexivity. field. lra.
Qed.
Lemma weight_near : forall j, (j < w)%nat -> exists n, val (nth j (wma_weights (Z.of_nat w)) fnan) = Fin n /\ Rabs (n - a j) <= 101 / 100 * u * a j.
Proof.
  intros j Hj. unfold wma_weights. rewrite Nat2Z.id. rewrite Stuck.nth_map_lt with (d' := 0%nat) by (rewrite seq_length; lia). rewrite seq_nth by lia.
  pose proof D_big as [B1 B2]. destruct (a_pos j Hj) as [A1 A2].
  assert (E : IZR (Z.of_nat (1 + j) * 2) / IZR (Z.of_nat w * (Z.of_nat w + 1)) = a j).
  { rewrite !mult_IZR, plus_IZR, <- !INR_IZR_INZ. unfold a. fold D. change (1 + j)%nat with (S j). field. lra. }
  exists (rnd (a j)). split.
  - rewrite val_div; rewrite !val_small by nia.
    + cbn [xdiv]. destruct Req_EM_T as [Z|_]; [exfalso; rewrite mult_IZR, plus_IZR, <- !INR_IZR_INZ in Z; fold D in Z; lra|]. rewrite E. apply rx_small.
      rewrite Rabs_pos_eq by (change (IZR (2 ^ 50)) with 1125899906842624 in A1; lra). apply Rle_trans with 1; auto. change 1 with (bpow radix2 0). apply bpow_le. lia.
    + intros Z. injection Z as Z. rewrite mult_IZR, plus_IZR, <- !INR_IZR_INZ in Z. fold D in Z. lra.
  - pose proof (rnd_err (a j)) as R. assert (A0 : 0 < a j) by (change (IZR (2 ^ 50)) with 1125899906842624 in A1; lra). rewrite (Rabs_pos_eq (a j)) in R by lra.
    assert (T : eta <= u * a j / 1000). { apply etaM. apply Rle_trans with (2 := A1). change (/ IZR (2 ^ 50)) with (bpow radix2 (-50)). apply bpow_le. lia. }
    assert (0 < u * a j) by (apply Rmult_lt_0_compat; [unfold u|]; lra). lra.
Qed.
Let term (x : list float) (j : nat) := nth j (map2 fmul (wma_weights (Z.of_nat w)) x) fnan.
Lemma term_near : forall i j, (w <= S i)%nat -> (i < length p)%nat -> (j < w)%nat ->
  exists q, val (term (window_at w i p) j) = Fin q /\ Rabs (q - a j * c (S i - w + j)%nat) <= 21 / 10 * (u * M) * a j.
Proof.
  intros i j Hi Hl Hj. destruct (weight_near j Hj) as (n & Vn & En). destruct (Hc (S i - w + j) ltac:(lia)) as [V B]. destruct (a_pos j Hj) as [A1 A2].
  destruct (big_bounds M HM) as (P & M1 & M8 & M9 & _). set (r := c (S i - w + j)%nat) in *.
  unfold term. rewrite Stuck.nth_map2_lt with (db := fnan) (dc := fnan); [|unfold wma_weights; rewrite map_length, seq_length; lia|rewrite length_window_at; lia].
  rewrite window_at_nth by lia. rewrite val_mul, Vn, V. cbn [xmul].
  assert (A0 : 0 < a j) by (change (IZR (2 ^ 50)) with 1125899906842624 in A1; lra). assert (UP : 0 < u) by (unfold u; lra).
  assert (U1 : u * a j <= a j / 1000000) by (unfold u; lra).
  apply abs_le_both in En. assert (Nb : 0 <= n <= 101 / 100 * a j) by lra.
  assert (Rb : Rabs (n * r) <= 101 / 100 * a j * M). { rewrite Rabs_mult, (Rabs_pos_eq n) by lra. apply Rmult_le_compat; try lra. apply Rabs_pos. }
  rewrite rx_small by (apply Rle_trans with (1 := Rb); nra). eexists. split; [reflexivity|].
  pose proof (rnd_err (n * r)) as R.
  assert (T : eta <= u * (a j * M) / 1000).
  { apply Rle_trans with (u * bpow radix2 (-950) / 1000).
    - replace (u * bpow radix2 (-950) / 1000) with (u / 1000 * bpow radix2 (-950)) by field. unfold eta. change (-1075)%Z with (-125 + -950)%Z. rewrite bpow_plus.
      apply Rmult_le_compat_r; [apply bpow_ge_0|]. apply Rle_trans with (bpow radix2 (-63)); [apply bpow_le; lia|]. unfold u; cbn; lra.
    - assert (bpow radix2 (-950) <= a j * M). { change (-950)%Z with (-50 + -900)%Z. rewrite bpow_plus. apply Rmult_le_compat; auto; apply bpow_ge_0. }
      assert (u * bpow radix2 (-950) <= u * (a j * M)) by (apply Rmult_le_compat_l; lra). lra. }
  assert (E1 : Rabs ((n - a j) * r) <= 101 / 100 * (u * a j) * M).
  { rewrite Rabs_mult. apply Rmult_le_compat; try apply Rabs_pos; auto. apply Rabs_le. lra. }
  assert (E2 : u * Rabs (n * r) <= u * (101 / 100 * a j * M)) by (apply Rmult_le_compat_l; lra).
  replace (rnd (n * r) - a j * r) with ((rnd (n * r) - n * r) + (n - a j) * r) by ring. eapply Rle_trans; [apply Rabs_triang|].
  replace (21 / 10 * (u * M) * a j) with (21 / 10 * (u * (a j * M))) by ring.
  replace (u * (101 / 100 * a j * M)) with (101 / 100 * (u * (a j * M))) in E2 by ring.
  replace (101 / 100 * (u * a j) * M) with (101 / 100 * (u * (a j * M))) in E1 by ring. assert (0 < a j * M) by nra. assert (0 < u * (a j * M)) by nra. lra.
Qed.
Lemma wma_row_near : forall i, (w <= S i)%nat -> (i < length p)%nat ->
  exists q, val (ssum (map2 fmul (wma_weights (Z.of_nat w)) (window_at w i p))) = Fin q /\ Rabs (q - wma_value w c i) <= part ((INR w + 2) / 6) M.
Proof.
  intros i Hi Hl. destruct (big_bounds M HM) as (P & M1 & M8 & M9 & _). set (l := map2 fmul (wma_weights (Z.of_nat w)) (window_at w i p)).
  assert (L : length l = w). { unfold l. rewrite length_map2. unfold wma_weights. rewrite map_length, seq_length, Nat2Z.id, length_window_at by lia. lia. }
  assert (T : forall j, (j < length l)%nat -> exists q, val (nth j l fnan) = Fin q /\ Rabs (q - a j * c (S i - w + j)%nat) <= 21 / 10 * (u * M) * a j).
  { intros j Hj. apply term_near; auto. lia. }
  assert (U : 0 < u * M <= M / 1000000) by (unfold u; lra).
  assert (Sd : rsum (fun j => 21 / 10 * (u * M) * a j) 0 w = 21 / 10 * (u * M)) by (rewrite rsum_scal, a_sum; ring).
  assert (W0 : INR w <= IZR (2 ^ 25)) by (rewrite INR_IZR_INZ; apply IZR_le; lia). change (IZR (2 ^ 25)) with 33554432 in W0.
  assert (W1 : 1 <= INR w) by (apply (le_INR 1); lia).
  destruct (fsum_near (101 / 100 * M) l (fun j => a j * c (S i - w + j)%nat) (fun j => 21 / 10 * (u * M) * a j)) as (q & V & E); auto.
  - lra.
  - lra.
  - rewrite L. apply Rle_trans with (rsum (fun j => (M + 21 / 10 * (u * M)) * a j) 0 w).
    + apply rsum_le. intros j Hj. destruct (a_pos j ltac:(lia)) as [A1 A2]. change (IZR (2 ^ 50)) with 1125899906842624 in A1.
      destruct (Hc (S i - w + j) ltac:(lia)) as [_ B]. rewrite Rabs_mult, (Rabs_pos_eq (a j)) by lra. assert (a j * Rabs (c (S i - w + j)%nat) <= a j * M) by (apply Rmult_le_compat_l; lra). lra.
    + rewrite rsum_scal, a_sum. lra.
  - rewrite L. unfold u. lra.
  - exists q. rewrite plain_ssum by (apply plain_nth; intros j Hj; destruct (T j Hj) as (r & V' & _); now exists r). split; auto. rewrite L in E.
    assert (F : rsum (fun j => a j * c (S i - w + j)%nat) 0 w = wma_value w c i).
    { unfold wma_value. fold D. pose proof D_big as [B1 _]. rewrite (rsum_ext _ (fun j => 2 / D * (INR (S j) * c (S i - w + j)%nat))) by (intros; unfold a; field; lra).
      rewrite rsum_scal. field. lra. }
    rewrite F in E. eapply Rle_trans; [exact E|]. rewrite Sd. unfold part. change (IZR (2 ^ 50)) with 1125899906842624. 
    replace (INR w * (11 / 10 * (u * (101 / 100 * M)))) with (1111 / 1000 * INR w * (u * M)) by field.
    replace ((INR w + 2) / 6 * (M / 1125899906842624)) with (8 / 6 * (INR w + 2) * (u * M)) by (unfold u; field). nra.
Qed.
Lemma wma_column : exists r, rolling (Z.of_nat w) (Z.of_nat w) (agg_apply (fun x => ssum (map2 fmul (wma_weights (Z.of_nat w)) x))) p = Ok r /\ length r = length p /\
  forall i, (i < length p)%nat -> near (part ((INR w + 2) / 6) M) (nth i r fnan) (from (w - 1) (wma_value w c) i).
Proof.
  assert (Hm : (0 <= Z.of_nat w <= Z.of_nat w)%Z) by lia.
  eexists. split; [apply rolling_ok; exact Hm|]. pose proof (rolling_ok (Z.of_nat w) (Z.of_nat w) (agg_apply (fun x => ssum (map2 fmul (wma_weights (Z.of_nat w)) x))) p Hm) as R. split; [exact (len_rolling _ _ _ _ _ R)|].
  intros i Hi. rewrite (nth_rolling_row _ _ _ _ _ _ fnan R) by auto. rewrite (prep_self p c M Hc), Nat2Z.id. cbn [calc_row agg_apply]. unfold win_apply.
  assert (O : obs (window_at w i p) = window_at w i p).
  { apply keep_all. intros x I. apply (In_nth _ _ fnan) in I as (j & Hj & <-). rewrite length_window_at in Hj by lia. rewrite window_at_nth by lia.
    destruct (Hc (S i - w + j) ltac:(lia)) as [V _]. now rewrite val_nan, V. }
  rewrite O, length_window_at by lia. unfold from, fromx.
  destruct (Nat.leb_spec w (Nat.min w (S i))), (Nat.ltb_spec i (w - 1)); try lia; [|exact val_fnan]. apply wma_row_near; lia.
Qed.
End Wma.
