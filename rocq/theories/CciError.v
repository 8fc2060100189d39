(** * CciError: the commodity channel index in binary64 (C107). *)
From Flocq Require Import Core PrimFloat.
From Coq Require Import Reals Lra Floats.
From Verif Require Import Lists Arith FloatArith FloatReal Order FloatOrder Api Align Causal Rows Running FloatPct EmaError FloatEma FloatTrack SpecNum Tab Averages SpecTracking Tracking RunningError SumError WilderError RsiError Stuck RatioError Lines RollError.
Local Open Scope R_scope.
#[local] Arguments eta : simpl never.
#[local] Arguments u : simpl never.

(** ** numpy's mean of n numbers, each within d of t j *)
Lemma npmean_near : forall K l t d, bpow radix2 (-900) <= K -> K <= bpow radix2 991 -> (1 <= length l)%nat -> (Z.of_nat (length l) <= 2 ^ 25)%Z -> 0 <= d <= K / 100 ->
  (forall j, (j < length l)%nat -> Rabs (t j) <= K /\ exists q, val (nth j l fnan) = Fin q /\ Rabs (q - t j) <= d) ->
  exists q, val (npmean l) = Fin q /\ Rabs (q - rsum t 0 (length l) / INR (length l)) <= 22 / 10 * (INR (length l) * (u * K)) + d.
Proof.
  intros K l t d K1 K2 L1 L2 D H. set (n := length l) in *. pose proof (bpow_gt_0 radix2 (-900)) as P.
  assert (N1 : 1 <= INR n) by (apply (le_INR 1); lia). assert (N2 : INR n <= 33554432) by (rewrite INR_IZR_INZ; apply IZR_le; lia).
  assert (UK : 0 < u * K <= K / 1000000) by (unfold u; lra). set (W := 101 / 100 * (INR n * K)).
  assert (NK : K <= INR n * K <= 33554432 * K) by (split; [rewrite <- (Rmult_1_l K) at 1|]; apply Rmult_le_compat_r; lra).
  assert (Cst : forall x k, rsum (fun _ => x) 0 k = INR k * x) by (induction k; [cbn; lra|]; cbn [rsum]; rewrite IHk, S_INR; lra).
  destruct (fsum_near W l t (fun _ => d)) as (s & Vs & Es).
  - unfold W. lra.
  - apply Rle_trans with (bpow radix2 27 * bpow radix2 991); [|rewrite <- bpow_plus; apply bpow_le; lia]. change (bpow radix2 27) with 134217728. unfold W. lra.
  - intros j Hj. apply H. exact Hj.
  - fold n. apply Rle_trans with (rsum (fun _ => 101 / 100 * K) 0 n); [|rewrite Cst; unfold W; lra]. apply rsum_le. intros j Hj. destruct (H j ltac:(lia)) as [B _]. lra.
  - fold n. unfold u. lra.
  - fold n in Es. rewrite Cst in Es. set (S := rsum t 0 n) in *.
    assert (SK : Rabs S <= INR n * K) by (apply rsum_abs; intros j Hj; apply H; lia).
    assert (I0 : 0 < / INR n) by (apply Rinv_0_lt_compat; lra).
    assert (E1 : Rabs (s / INR n - S / INR n) <= 1111 / 1000 * (INR n * (u * K)) + d).
    { replace (s / INR n - S / INR n) with ((s - S) / INR n) by (field; lra). unfold Rdiv. rewrite Rabs_mult, (Rabs_pos_eq (/ INR n)) by lra. apply div_bound; [lra|].
      eapply Rle_trans; [exact Es|]. unfold W. replace (INR n * (11 / 10 * (u * (101 / 100 * (INR n * K))))) with (1111 / 1000 * (INR n * (u * K)) * INR n) by field. lra. }
    assert (E2 : Rabs (S / INR n) <= K) by (unfold Rdiv; rewrite Rabs_mult, (Rabs_pos_eq (/ INR n)) by lra; apply div_bound; lra).
    assert (NU : INR n * (u * K) <= K / 1000000). { replace (INR n * (u * K)) with (u * (INR n * K)) by ring. unfold u. lra. }
    assert (NU1 : u * K <= INR n * (u * K)) by (rewrite <- (Rmult_1_l (u * K)) at 1; apply Rmult_le_compat_r; lra).
    assert (E3 : Rabs (s / INR n) <= 102 / 100 * K) by (apply abs_le_both in E1, E2; apply Rabs_le; lra).
    pose proof (rnd_K K K1 _ _ E3) as R. replace (u * (102 / 100 * K)) with (102 / 100 * (u * K)) in R by field.
    exists (rnd (s / INR n)). split.
    + unfold npmean, fofnat. rewrite val_div; rewrite (val_small (Z.of_nat _)) by (fold n; lia); fold n; rewrite <- INR_IZR_INZ; [|intros X; injection X; lra].
      rewrite Vs. cbn [xdiv]. destruct Req_EM_T; [lra|]. apply rx_small. eapply Rle_trans; [exact E3|]. apply Rle_trans with (bpow radix2 1 * bpow radix2 991); [change (bpow radix2 1) with 2; pose proof (bpow_gt_0 radix2 991); lra|].
      rewrite <- bpow_plus. apply bpow_le. lia.
    + apply abs_le_both in R, E1. apply Rabs_le. lra.
Qed.

Section Core.
Variables (w : nat) (tp : list float) (t : nat -> R) (M : R).
Hypothesis Hw : (1 <= w)%nat.
Hypothesis Ww : (Z.of_nat w <= 2 ^ 25)%Z.
Hypothesis Hn : (1000 * Z.of_nat (length tp) <= 2 ^ 53)%Z.
Hypothesis HM : ordinary M.
Hypothesis Ht : forall i, (i < length tp)%nat -> Rabs (t i) <= M /\ exists q, val (nth i tp fnan) = Fin q /\ Rabs (q - t i) <= 78 / 10 * (u * M).
Let c (i : nat) : R := match val (nth i tp fnan) with Fin q => q | _ => 0 end.
Lemma c_cell : forall i, (i < length tp)%nat -> val (nth i tp fnan) = Fin (c i) /\ Rabs (c i) <= 101 / 100 * M.
Proof.
  intros i Hi. destruct (Ht i Hi) as [B (q & V & E)]. unfold c. rewrite V. split; auto. destruct (big_bounds M HM) as (P & _).
  apply abs_le_both in B, E. apply Rabs_le. unfold u in E. lra.
Qed.
Lemma c_near : forall i, (i < length tp)%nat -> Rabs (c i - t i) <= 78 / 10 * (u * M).
Proof. intros i Hi. destruct (Ht i Hi) as [_ (q & V & E)]. unfold c. now rewrite V. Qed.
Lemma mad_row : forall i, (i < length tp)%nat -> exists q, val (mad_ (window_at w i tp)) = Fin q /\ Rabs (q - wmad w t i) <= 25 * (INR w * (u * M)).
Proof.
  intros i Hi. destruct (big_bounds M HM) as (P & M1 & M2 & M3 & M4). set (x := window_at w i tp). set (n := wlen w i).
  assert (Lx : length x = n) by (unfold x, n, wlen; now apply length_window_at).
  assert (N0 : (1 <= n)%nat /\ (n <= w)%nat) by (unfold n, wlen; lia).
  assert (N1 : 1 <= INR n) by (apply (le_INR 1); lia). assert (N2 : INR n <= INR w) by (apply le_INR; lia).
  assert (W2 : INR w <= 33554432) by (rewrite INR_IZR_INZ; apply IZR_le; lia).
  assert (UM : 0 < u * M <= M / 1000000) by (unfold u; lra).
  assert (NU : INR n * (u * M) <= M / 1000000). { replace (INR n * (u * M)) with (u * (INR n * M)) by ring. assert (INR n * M <= 33554432 * M) by (apply Rmult_le_compat_r; lra). unfold u. lra. }
  assert (NU1 : u * M <= INR n * (u * M)) by (rewrite <- (Rmult_1_l (u * M)) at 1; apply Rmult_le_compat_r; lra).
  assert (NW : INR n * (u * M) <= INR w * (u * M)) by (apply Rmult_le_compat_r; lra).
  assert (Big : M <= bpow radix2 990) by (destruct HM as [_ B]; rewrite pow990 in B; exact B). assert (D991 : bpow radix2 991 = 2 * bpow radix2 990) by (change 991%Z with (1 + 990)%Z; rewrite bpow_plus; reflexivity).
  pose (t' := fun j => t (wlo w i + j)%nat).
  assert (Hx : forall j, (j < n)%nat -> nth j x fnan = nth (wlo w i + j) tp fnan) by (intros j Hj; unfold x; rewrite window_at_nth; auto).
  assert (Ix : forall j, (j < n)%nat -> (wlo w i + j < length tp)%nat) by (intros j Hj; unfold n, wlen, wlo in *; lia).
  assert (Sh : forall f, rsum (fun j => f (wlo w i + j)%nat) 0 n = wsum w f i) by (intros f; unfold wsum; symmetry; apply rsum_shift).
  assert (Mn : rsum t' 0 n / INR n = wmean w t i) by (unfold wmean, t'; now rewrite Sh).
  destruct (npmean_near M x t' (78 / 10 * (u * M))) as (m & Vm & Em); rewrite ?Lx; try lia; try lra.
  { intros j Hj. rewrite Hx by auto. apply Ht. auto. }
  rewrite Lx, Mn in Em. set (mu := wmean w t i) in *.
  assert (Bmu : Rabs mu <= M).
  { rewrite <- Mn. unfold Rdiv. rewrite Rabs_mult, (Rabs_pos_eq (/ INR n)) by (apply Rlt_le, Rinv_0_lt_compat; lra). apply div_bound; [lra|]. rewrite Rmult_comm. apply rsum_abs. intros j Hj. apply Ht. auto with zarith. }
  unfold mad_. fold x.
  destruct (npmean_near (2 * M) (map (fun v => fabs (fsub v (npmean x))) x) (fun j => Rabs (t' j - mu)) (20 * (INR n * (u * M)))) as (q & Vq & Eq); rewrite ?map_length, ?Lx; try lia; try lra.
  { intros j Hj. destruct (Ht _ (Ix j Hj)) as [B (y & V & E)]. fold (t' j) in B, E. apply abs_le_both in B, Bmu, E, Em.
    split; [rewrite Rabs_Rabsolu; apply Rabs_le; lra|]. rewrite (nth_map_lt _ _ _ _ fnan) by lia. rewrite Hx by auto.
    assert (S2 : Rabs (y - m) <= 21 / 10 * M) by (apply Rabs_le; lra). pose proof (rnd_K M M1 _ _ S2) as R. replace (u * (21 / 10 * M)) with (21 / 10 * (u * M)) in R by field. apply abs_le_both in R.
    exists (Rabs (rnd (y - m))). split; [rewrite val_abs, (val_diff _ _ y m V Vm) by lra; reflexivity|].
    eapply Rle_trans; [apply Rabs_triang_inv2|]. apply Rabs_le. lra. }
  exists q. split; [exact Vq|]. rewrite map_length, Lx in Eq.
  assert (Wm : rsum (fun j => Rabs (t' j - mu)) 0 n / INR n = wmad w t i) by (unfold wmad, wmean at 1, t'; fold mu; now rewrite (Sh (fun j => Rabs (t j - mu)))).
  rewrite Wm in Eq. replace (u * (2 * M)) with (2 * (u * M)) in Eq by ring. lra.
Qed.
Lemma mad_column : forall fl, exists r, rolling (Z.of_nat w) (minp_of fl (Z.of_nat w)) (agg_apply mad_) tp = Ok r /\ length r = length tp /\
  forall i, (i < length tp)%nat -> (warm fl w <= i)%nat -> exists q, val (nth i r fnan) = Fin q /\ Rabs (q - wmad w t i) <= 25 * (INR w * (u * M)).
Proof.
  intros fl. assert (Hm : (0 <= minp_of fl (Z.of_nat w) <= Z.of_nat w)%Z) by (destruct fl; cbn; lia).
  eexists. split; [apply rolling_ok; exact Hm|]. pose proof (rolling_ok (Z.of_nat w) (minp_of fl (Z.of_nat w)) (agg_apply mad_) tp Hm) as R. split; [exact (len_rolling _ _ _ _ _ R)|].
  intros i Hi Wi. rewrite (nth_rolling_row _ _ _ _ _ _ fnan R) by auto. rewrite (prep_self tp c (101 / 100 * M) c_cell), Nat2Z.id. cbn [calc_row agg_apply]. unfold win_apply.
  destruct (window_all w tp c (101 / 100 * M) Hw c_cell i Hi) as [Ob Le]. rewrite Ob, Le.
  rewrite (proj2 (Nat.leb_le _ _)) by (destruct fl; cbn [minp_of warm] in *; rewrite ?Nat2Z.id; unfold wlen in *; cbn; lia). now apply mad_row.
Qed.
Lemma mean_column : ordinary (101 / 100 * M) -> forall fl, exists r, rolling (Z.of_nat w) (minp_of fl (Z.of_nat w)) agg_mean tp = Ok r /\ length r = length tp /\
  forall i, (i < length tp)%nat -> (warm fl w <= i)%nat -> exists q, val (nth i r fnan) = Fin q /\ Rabs (q - wmean w t i) <= 25 * (INR (S i) * (u * M)).
Proof.
  intros HM' fl. destruct (mean_near w tp c (101 / 100 * M) Hw ltac:(lia) Hn HM' c_cell fl) as (r & E & L & N). exists r. split; [exact E|]. split; [exact L|].
  intros i Hi Wi. specialize (N i Hi). unfold from, fromx in N. rewrite (proj2 (Nat.ltb_ge _ _) Wi) in N. destruct N as (q & V & B). exists q. split; [exact V|].
  rewrite part_u in B. pose proof (wmean_close w c t i (78 / 10 * (u * M)) Hw ltac:(intros j Hj; apply c_near; lia)) as D. destruct (big_bounds M HM) as (P & _).
  assert (S1 : 1 <= INR (S i)) by (rewrite S_INR; pose proof (pos_INR i); lra). assert (UM : 0 < u * M) by (unfold u; lra).
  assert (u * M <= INR (S i) * (u * M)) by (rewrite <- (Rmult_1_l (u * M)) at 1; apply Rmult_le_compat_r; lra).
  replace (2 * INR (S i) * (8 * (u * (101 / 100 * M)))) with (1616 / 100 * (INR (S i) * (u * M))) in B by field. apply abs_le_both in B, D. apply Rabs_le. lra.
Qed.

Variables (kf : float) (k : R).
Hypothesis Vk : val kf = Fin k.
Hypothesis Hk : ordinary k.
Hypothesis HkM : ordinary (k * M).
Hypothesis HM' : ordinary (101 / 100 * M).
Lemma cci_cells : forall fl, exists m d, rolling (Z.of_nat w) (minp_of fl (Z.of_nat w)) agg_mean tp = Ok m /\ rolling (Z.of_nat w) (minp_of fl (Z.of_nat w)) (agg_apply mad_) tp = Ok d /\
  length (sdiv (ssub tp m) (scal kf d)) = length tp /\
  forall i, (i < length tp)%nat -> (warm fl w <= i)%nat -> let B := wmad w t i in part (7 * INR w) M <= B ->
  exists q, val (nth i (sdiv (ssub tp m) (scal kf d)) fnan) = Fin q /\
    Rabs (q - (t i - wmean w t i) / (k * B)) <= part (9 * INR (S i) + 4 * (INR w * INR w)) (M / (k * B)).
Proof.
  intros fl. destruct (mean_column HM' fl) as (m & Em & Lm & Nm). destruct (mad_column fl) as (d & Ed & Ld & Nd). exists m, d. split; [exact Em|]. split; [exact Ed|].
  assert (L1 : length (ssub tp m) = length tp) by (unfold ssub; rewrite len_map2; auto). assert (L2 : length (scal kf d) = length tp) by (unfold scal; rewrite map_length; auto).
  split; [unfold sdiv; rewrite len_map2; lia|]. intros i Hi Wi B HB. destruct (Nm i Hi Wi) as (a & Va & Ea). destruct (Nd i Hi Wi) as (b & Vb & Eb). fold B in Eb.
  destruct (big_bounds M HM) as (P & M1 & M2 & M3 & M4). destruct (big_bounds k Hk) as (Pk & k1 & k2 & _). destruct (big_bounds (k * M) HkM) as (PkM & kM1 & kM2 & kM3 & kM4).
  assert (UM : 0 < u * M <= M / 1000000) by (unfold u; lra).
  assert (S1 : 1 <= INR (S i)) by (rewrite S_INR; pose proof (pos_INR i); lra). assert (W1 : 1 <= INR w) by (apply (le_INR 1); lia).
  assert (Wb : INR w <= 33554432) by (rewrite INR_IZR_INZ; apply IZR_le; lia).
  assert (Sb : INR (S i) <= 9007199254741). { rewrite INR_IZR_INZ. apply IZR_le. lia. }
  assert (SM : INR (S i) * (u * M) <= M / 1000 + M / 10000). { assert (INR (S i) * (u * M) <= 9007199254741 * (u * M)) by (apply Rmult_le_compat_r; lra). unfold u in *. lra. }
  assert (SM1 : u * M <= INR (S i) * (u * M)) by (rewrite <- (Rmult_1_l (u * M)) at 1; apply Rmult_le_compat_r; lra).
  assert (WM : INR w * (u * M) <= M / 1000000). { assert (INR w * (u * M) <= 33554432 * (u * M)) by (apply Rmult_le_compat_r; lra). unfold u in *. lra. }
  assert (WM1 : u * M <= INR w * (u * M)) by (rewrite <- (Rmult_1_l (u * M)) at 1; apply Rmult_le_compat_r; lra).
  rewrite part_u in HB. replace (7 * INR w * (8 * (u * M))) with (56 * (INR w * (u * M))) in HB by ring. assert (B0 : 0 < B) by lra.
  destruct (Ht i Hi) as [Bt _]. destruct (c_cell i Hi) as [Vc Bc]. pose proof (c_near i Hi) as Ec.
  set (mu := wmean w t i) in *.
  assert (Bmu : Rabs mu <= M).
  { unfold mu, wmean, Rdiv. rewrite Rabs_mult, (Rabs_pos_eq (/ INR (wlen w i))) by (apply Rlt_le, Rinv_0_lt_compat, lt_0_INR; unfold wlen; lia). apply div_bound; [apply lt_0_INR; unfold wlen; lia|].
    rewrite Rmult_comm. apply rsum_abs. intros j Hj. apply Ht. unfold wlo, wlen in Hj. lia. }
  assert (B2M : B <= 2 * M).
  { unfold B, wmad. fold mu. unfold wmean, Rdiv. apply div_bound; [apply lt_0_INR; unfold wlen; lia|]. eapply Rle_trans; [apply Rle_abs|]. rewrite Rmult_comm. apply rsum_abs. intros j Hj.
    destruct (Ht j ltac:(unfold wlo, wlen in Hj; lia)) as [Bj _]. apply abs_le_both in Bj, Bmu. rewrite Rabs_Rabsolu. apply Rabs_le. lra. }
  apply abs_le_both in Bt, Bmu, Ea, Eb, Ec.
  (* the difference *)
  assert (Sd : Rabs (c i - a) <= 205 / 100 * M + M / 20) by (apply Rabs_le; lra). pose proof (rnd_K M M1 _ _ Sd) as Rd. replace (u * (205 / 100 * M + M / 20)) with (21 / 10 * (u * M)) in Rd by field. apply abs_le_both in Rd.
  assert (Vd : val (fsub (nth i tp fnan) (nth i m fnan)) = Fin (rnd (c i - a))) by (apply val_diff; auto; lra).
  (* the scaled deviation *)
  assert (Bb : Rabs b <= 21 / 10 * M) by (apply Rabs_le; lra).
  assert (Bk : Rabs (k * b) <= 21 / 10 * (k * M)) by (rewrite Rabs_mult, (Rabs_pos_eq k) by lra; replace (21 / 10 * (k * M)) with (k * (21 / 10 * M)) by field; apply Rmult_le_compat_l; lra).
  pose proof (rnd_K (k * M) kM1 _ _ Bk) as Rk. replace (u * (21 / 10 * (k * M))) with (21 / 10 * (u * (k * M))) in Rk by field.
  assert (Vp : val (fmul kf (nth i d fnan)) = Fin (rnd (k * b))) by (rewrite val_mul, Vk, Vb; cbn [xmul]; apply rx_small; lra).
  assert (Q0 : 0 < k * (u * M)) by (apply Rmult_lt_0_compat; lra). replace (u * (k * M)) with (k * (u * M)) in Rk by ring.
  assert (Ek : Rabs (rnd (k * b) - k * B) <= 28 * (k * (INR w * (u * M)))).
  { assert (E1 : Rabs (k * b - k * B) <= 25 * (k * (INR w * (u * M)))).
    { replace (k * b - k * B) with (k * (b - B)) by ring. rewrite Rabs_mult, (Rabs_pos_eq k) by lra. replace (25 * (k * (INR w * (u * M)))) with (k * (25 * (INR w * (u * M)))) by ring. apply Rmult_le_compat_l; [lra|]. apply Rabs_le. lra. }
    assert (k * (u * M) <= k * (INR w * (u * M))) by (apply Rmult_le_compat_l; lra). apply abs_le_both in E1, Rk. apply Rabs_le. lra. }
  set (X := INR w / (2 * k)). assert (kB : 0 < k * B) by (apply Rmult_lt_0_compat; lra). assert (X0 : 0 < X) by (unfold X; apply Rdiv_lt_0_compat; lra).
  assert (AX : Rabs (t i - mu) <= X * (k * B)).
  { pose proof (mad_dominates w t i Hw) as Md. fold mu in Md. fold B in Md. replace (X * (k * B)) with (INR w * B / 2) by (unfold X; field; lra).
    assert (INR (wlen w i) * B <= INR w * B) by (apply Rmult_le_compat_r; [lra|apply le_INR; unfold wlen; lia]). lra. }
  set (G := u * M / (k * B)).
  assert (G0 : 0 < G) by (unfold G; apply Rdiv_lt_0_compat; lra).
  assert (EG : (35 * (INR (S i) * (u * M)) + X * (28 * (k * (INR w * (u * M))))) / (k * B) = 35 * (INR (S i) * G) + 14 * (INR w * INR w * G)) by (unfold G, X; field; lra).
  assert (Ik : 0 < / k) by (apply Rinv_0_lt_compat; lra).
  assert (GW : INR w * G <= / k / 56). { unfold G. replace (INR w * (u * M / (k * B))) with (INR w * (u * M) / (k * B)) by (field; lra). apply div_bound; [lra|]. replace (/ k / 56 * (k * B)) with (B / 56) by (field; lra). lra. }
  assert (GS : INR (S i) * G <= 9007199254741 * (/ k / 56)).
  { apply Rle_trans with (9007199254741 * G); [apply Rmult_le_compat_r; lra|]. apply Rmult_le_compat_l; [lra|]. assert (1 * G <= INR w * G) by (apply Rmult_le_compat_r; lra). lra. }
  assert (GWW : INR w * INR w * G <= 33554432 * (/ k / 56)).
  { rewrite Rmult_assoc. apply Rmult_le_compat; try lra. apply Rmult_le_pos; lra. }
  assert (Xk : X <= 33554432 * / k) by (unfold X; replace (INR w / (2 * k)) with (INR w * (/ k) / 2) by (field; lra); assert (INR w * / k <= 33554432 * / k) by (apply Rmult_le_compat_r; lra); assert (0 <= 33554432 * / k) by lra; lra).
  assert (Ik2 : / k <= bpow radix2 900) by (apply Rle_trans with (/ bpow radix2 (-900)); [apply Rinv_le_contravar; [apply bpow_gt_0|exact k1]|rewrite <- bpow_opp; right; reflexivity]).
  assert (Ik3 : bpow radix2 60 * / k <= bpow radix2 1000).
  { apply Rle_trans with (bpow radix2 60 * bpow radix2 900); [apply Rmult_le_compat_l; [apply bpow_ge_0|exact Ik2]|rewrite <- bpow_plus; apply bpow_le; lia]. }
  change (bpow radix2 60) with 1152921504606846976 in Ik3.
  assert (EB : 28 * (k * (INR w * (u * M))) <= k * B / 2). { replace (k * B / 2) with (k * (B / 2)) by field. replace (28 * (k * (INR w * (u * M)))) with (k * (28 * (INR w * (u * M)))) by ring. apply Rmult_le_compat_l; lra. }
  pose proof (quot_abs _ _ _ _ (t i - mu) (k * B) X (35 * (INR (S i) * (u * M))) (28 * (k * (INR w * (u * M)))) Vd Vp ltac:(apply Rabs_le; lra) Ek kB EB ltac:(lra) AX) as Q.
  cbv zeta in Q. rewrite EG in Q. destruct (Q ltac:(lra)) as (q & Vq & Eq).
  exists q. split.
  - unfold sdiv. rewrite (nth_map2_lt fdiv _ _ _ fnan fnan fnan) by lia. unfold ssub. rewrite (nth_map2_lt fsub _ _ _ fnan fnan fnan) by lia. unfold scal. rewrite (nth_map_lt _ _ _ _ fnan) by lia. exact Vq.
  - rewrite part_u. replace ((9 * INR (S i) + 4 * (INR w * INR w)) * (8 * (u * (M / (k * B))))) with (72 * (INR (S i) * G) + 32 * (INR w * INR w * G)) by (unfold G; field; lra).
    fold X in Eq. eapply Rle_trans; [exact Eq|].
    assert (UX : u * X <= INR w * INR w * G).
    { assert (E0 : u * (/ k) / 2 <= G). { unfold G. apply Rmult_le_reg_r with (k * B); [lra|]. replace (u * / k / 2 * (k * B)) with (u * (B / 2)) by (field; lra). replace (u * M / (k * B) * (k * B)) with (u * M) by (field; lra). apply Rmult_le_compat_l; [unfold u; lra|lra]. }
      replace (u * X) with (INR w * (u * / k / 2)) by (unfold X; field; lra). rewrite Rmult_assoc. apply Rmult_le_compat_l; [lra|]. eapply Rle_trans; [exact E0|]. rewrite <- (Rmult_1_l G) at 1. apply Rmult_le_compat_r; lra. }
    assert (ET : eta <= u * X).
    { apply Rle_trans with (bpow radix2 (-54) * / bpow radix2 1000).
      - rewrite <- bpow_opp, <- bpow_plus. unfold eta. apply bpow_le. lia.
      - assert (/ bpow radix2 1000 <= / k) by (apply Rinv_le_contravar; lra). unfold X. replace (u * (INR w / (2 * k))) with (u / 2 * (INR w * / k)) by (field; lra).
        replace (bpow radix2 (-54)) with (u / 2) by (unfold u; cbn; lra). apply Rmult_le_compat_l; [unfold u; lra|]. assert (1 * / k <= INR w * / k) by (apply Rmult_le_compat_r; lra). lra. }
    assert (0 < INR (S i) * G) by (apply Rmult_lt_0_compat; lra). assert (0 < INR w * INR w * G) by (apply Rmult_lt_0_compat; [apply Rmult_lt_0_compat|]; lra). lra.
Qed.
End Core.

Section Row.
Variables (rows : list (bar float)) (h l c : nat -> R) (M : R).
Hypothesis Hc : closes rows c M.
Hypothesis Hr : ranges rows h l M.
Hypothesis Hn : (1000 * Z.of_nat (length rows) <= 2 ^ 53)%Z.
Hypothesis HM : ordinary M.
Hypothesis HM' : ordinary (101 / 100 * M).
(** the typical price *)
Lemma tp_cell0 : forall i, (i < length rows)%nat -> Rabs (typical h l c i) <= M /\ exists q, val (nth i (divs (sadd (sadd (map b_high rows) (map b_low rows)) (map b_close rows)) (fofZ 3)) fnan) = Fin q /\ Rabs (q - typical h l c i) <= 78 / 10 * (u * M).
Proof.
  intros i Hi. assert (Ce : (val (nth i (map b_high rows) fnan) = Fin (h i) /\ Rabs (h i) <= M) /\ (val (nth i (map b_low rows) fnan) = Fin (l i) /\ Rabs (l i) <= M) /\ val (nth i (map b_close rows) fnan) = Fin (c i) /\ Rabs (c i) <= M).
  { destruct (nth_error rows i) as [b|] eqn:E; [|apply nth_error_None in E; lia].
    rewrite (nth_error_nth _ _ fnan (map_nth_error b_high _ _ E)), (nth_error_nth _ _ fnan (map_nth_error b_low _ _ E)), (nth_error_nth _ _ fnan (map_nth_error b_close _ _ E)).
    destruct (Hr i b E) as [A B]. split; [exact A|]. split; [exact B|]. exact (Hc i b E). }
  destruct Ce as ([V1 B1] & [V2 B2] & [V3 B3]). destruct (big_bounds M HM) as (P & M1 & M2 & M3 & M4).
  assert (UM : 0 < u * M <= M / 1000000) by (unfold u; lra). apply abs_le_both in B1, B2, B3.
  unfold divs, sadd. rewrite (nth_map_lt _ _ _ _ fnan) by (rewrite !len_map2; rewrite ?len_map2; rewrite ?map_length; auto).
  rewrite (nth_map2_lt fadd _ _ _ fnan fnan fnan) by (rewrite ?len_map2; rewrite ?map_length; auto).
  rewrite (nth_map2_lt fadd _ _ _ fnan fnan fnan) by (rewrite ?map_length; auto).
  assert (A1 : Rabs (h i + l i) <= 2 * M) by (apply Rabs_le; lra). pose proof (rnd_K M M1 _ _ A1) as E1.
  assert (W1 : val (fadd (nth i (map b_high rows) fnan) (nth i (map b_low rows) fnan)) = Fin (rnd (h i + l i))).
  { rewrite val_add, V1, V2. cbn [xadd]. apply rx_small. lra. }
  set (s := rnd (h i + l i)) in *. replace (u * (2 * M)) with (2 * (u * M)) in E1 by ring. apply abs_le_both in E1.
  assert (A2 : Rabs (s + c i) <= 301 / 100 * M) by (apply Rabs_le; lra). pose proof (rnd_K M M1 _ _ A2) as E2.
  assert (W2 : val (fadd (fadd (nth i (map b_high rows) fnan) (nth i (map b_low rows) fnan)) (nth i (map b_close rows) fnan)) = Fin (rnd (s + c i))).
  { rewrite val_add, W1, V3. cbn [xadd]. apply rx_small. lra. }
  set (t := rnd (s + c i)) in *. replace (u * (301 / 100 * M)) with (301 / 100 * (u * M)) in E2 by field. apply abs_le_both in E2.
  assert (A3 : Rabs (t / 3) <= 101 / 100 * M) by (apply Rabs_le; lra). pose proof (rnd_K M M1 _ _ A3) as E3.
  replace (u * (101 / 100 * M)) with (101 / 100 * (u * M)) in E3 by field. apply abs_le_both in E3.
  split; [unfold typical; apply Rabs_le; lra|]. exists (rnd (t / 3)). split.
  - rewrite val_div; rewrite (val_small 3) by lia; [|intros H; injection H; lra]. rewrite W2. cbn [xdiv]. destruct Req_EM_T; [lra|]. apply rx_small. lra.
  - unfold typical. apply Rabs_le. lra.
Qed.
Theorem cci_row : forall fl w kf k out i x, (1 <= w)%nat -> (Z.of_nat w <= 2 ^ 25)%Z -> val kf = Fin k -> ordinary k -> ordinary (k * M) ->
  compute (Cci (Z.of_nat w) kf) fl rows = Ok out -> nth_error out i = Some x -> (warm fl w <= i)%nat ->
  let t := typical h l c in let B := wmad w t i in part (7 * INR w) M <= B ->
  within (part (9 * INR (S i) + 4 * (INR w * INR w)) (M / (k * B))) x (Fin ((t i - wmean w t i) / (k * B))).
Proof.
  intros fl w kf k out i x Hw Ww Vk Hk HkM E Nx Wi t B HB. cbn [compute] in E. unfold cci in E.
  set (tp := divs (sadd (sadd (map b_high rows) (map b_low rows)) (map b_close rows)) (fofZ 3)) in E.
  assert (Lt : length tp = length rows) by apply len_tp.
  destruct (cci_cells w tp t M Hw Ww ltac:(rewrite Lt; exact Hn) HM) with (kf := kf) (k := k) (fl := fl) as (m & d & Em & Ed & Ls & N); auto.
  - intros j Hj. rewrite Lt in Hj. exact (tp_cell0 j Hj).
  - rewrite Em, Ed in E. cbn [bind] in E. apply ok_inj in E. subst out.
    assert (Hi : (i < length (sdiv (ssub tp m) (scal kf d)))%nat). { assert (H : nth_error (check_fillna fl (FillInt 0) (sdiv (ssub tp m) (scal kf d))) i <> None) by congruence. apply nth_error_Some in H. now rewrite check_length in H. }
    eapply kept_weighted; [exact Nx| |exact Hi]. apply N; auto. lia.
Qed.
End Row.
