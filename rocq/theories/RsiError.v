(** * RsiError: the relative strength index in binary64 (C103). *)
From Flocq Require Import Core PrimFloat.
From Coq Require Import Reals Lra Floats.
From Verif Require Import Lists Arith FloatArith FloatReal Order FloatOrder Api Align Causal Rows Running FloatPct EmaError FloatEma FloatTrack SpecNum Tab Averages Oscillators Rounded Stuck RoundedBands SpecTracking Tracking RunningError SumError WilderError BandError.
Local Open Scope R_scope.
#[local] Arguments eta : simpl never.
#[local] Arguments u : simpl never.

(** ** 100 - 100 / (1 + a/b) on one pair of floats *)
Lemma rnd_big : forall r, bpow radix2 1000 <= r -> bpow radix2 1000 <= rnd r.
Proof. intros r H. rewrite <- (rnd_id (bpow radix2 1000)) by (apply repr_bpow; lia). apply rnd_le, H. Qed.
Definition huge (v : xr) : Prop := v = PInf \/ exists r, v = Fin r /\ bpow radix2 1000 <= r.
Lemma huge_rx : forall r, bpow radix2 1000 <= r -> huge (rx (Fin r)).
Proof.
  intros r H. pose proof (bpow_gt_0 radix2 1000). cbn [rx]. destruct (Rlt_bool _ _).
  - right. eexists. split; [reflexivity|]. now apply rnd_big.
  - left. destruct Rle_dec; [reflexivity|lra].
Qed.
Lemma eta_u : eta <= u / 1000.
Proof. apply Rle_trans with (bpow radix2 (-63)); [apply bpow_le; lia|]. unfold u; cbn; lra. Qed.
Lemma hundred_less : forall y r, val y = Fin r -> 0 <= r <= 101 -> exists q, val (fsub (fofZ 100) y) = Fin q /\ Rabs (q - (100 - r)) <= 102 * u.
Proof.
  intros y r V B. exists (rnd (100 - r)). split.
  - rewrite val_sub, V, (val_small 100) by lia. unfold xsub. cbn [xadd xopp]. apply rx_small. apply Rle_trans with (bpow radix2 8); [|apply bpow_le; lia].
    cbn [bpow]. apply Rabs_le. cbn. lra.
  - pose proof (rnd_err (100 - r)) as E. assert (Rabs (100 - r) <= 100) by (apply Rabs_le; lra). pose proof eta_u. unfold u in *. lra.
Qed.
Lemma rsi_cell : forall a b U D, val a = Fin U -> val b = Fin D -> 0 <= U -> 0 < D ->
  exists q, val (fsub (fofZ 100) (fdiv (fofZ 100) (fadd (fofZ 1) (fdiv a b)))) = Fin q /\ Rabs (q - 100 * (U / (U + D))) <= 512 * u.
Proof.
  intros a b U D Va Vb HU HD. set (x := U / D).
  assert (X0 : 0 <= x) by (apply Rmult_le_pos; [lra|apply Rlt_le, Rinv_0_lt_compat, HD]).
  assert (EX : 100 * (U / (U + D)) = 100 - 100 / (1 + x)) by (unfold x; field; repeat split; lra).
  rewrite EX. pose proof eta_u as Eu. pose proof eta_pos as Ep.
  assert (Vd : val (fdiv a b) = rx (Fin x)).
  { rewrite val_div, Va, Vb by (rewrite Vb; intros Q; injection Q; lra). cbn [xdiv]. destruct Req_EM_T; [lra|]. reflexivity. }
  destruct (Rle_lt_dec (bpow radix2 1000) x) as [Big|Small].
  - (* the ratio is astronomic: 100 *)
    assert (H1 : huge (val (fdiv a b))) by (rewrite Vd; now apply huge_rx).
    assert (H2 : huge (val (fadd (fofZ 1) (fdiv a b)))).
    { rewrite val_add, (val_small 1) by lia. destruct H1 as [-> |(r & -> & Hr)]; [left; reflexivity|]. cbn [xadd]. apply huge_rx. lra. }
    assert (P : 200 / u <= bpow radix2 1000).
    { apply Rle_trans with (bpow radix2 63); [|apply bpow_le; lia]. replace (200 / u) with (200 * 9007199254740992) by (unfold u; field). cbn. lra. }
    assert (Q : forall r, bpow radix2 1000 <= r -> 0 <= 100 / r <= u).
    { intros r Hr. assert (0 < u) by (unfold u; lra). assert (0 < 200 / u) by (apply Rdiv_lt_0_compat; lra). split; [apply Rlt_le, Rdiv_lt_0_compat; lra|].
      apply Rmult_le_reg_r with r; [lra|]. unfold Rdiv at 1. rewrite Rmult_assoc, Rinv_l by lra.
      assert (G1 : u * (200 / u) <= u * r) by (apply Rmult_le_compat_l; lra). replace (u * (200 / u)) with 200 in G1 by (field; lra). lra. }
    assert (H3 : exists v, val (fdiv (fofZ 100) (fadd (fofZ 1) (fdiv a b))) = Fin v /\ 0 <= v <= 3 * u).
    { destruct H2 as [H2|(r & H2 & Hr)].
      - exists 0. split; [|unfold u; lra]. rewrite val_div, H2, (val_small 100) by (try lia; rewrite H2; discriminate). cbn [xdiv]. apply rx_0.
      - pose proof (Q r Hr). pose proof (bpow_gt_0 radix2 1000). exists (rnd (100 / r)). split.
        + rewrite val_div, H2, (val_small 100) by (try lia; rewrite H2; intros Z; injection Z; lra). cbn [xdiv]. destruct Req_EM_T; [lra|].
          apply rx_small. rewrite Rabs_pos_eq by lra. apply Rle_trans with (bpow radix2 0); [unfold u in *; cbn; lra|apply bpow_le; lia].
        + split; [rewrite <- rnd_0; apply rnd_le; lra|]. pose proof (rnd_err (100 / r)) as E. rewrite (Rabs_pos_eq (100 / r)) in E by lra. apply abs_le_both in E.
          assert (u * (100 / r) <= u * u) by (apply Rmult_le_compat_l; unfold u in *; lra). assert (u * u <= u / 1000) by (unfold u; lra). lra. }
    destruct H3 as (v & Vv & Hv). destruct (hundred_less _ v Vv ltac:(unfold u in Hv; lra)) as (q & Vq & Eq). exists q. split; [exact Vq|].
    apply abs_le_both in Eq. pose proof (Q (1 + x) ltac:(lra)). apply Rabs_le. lra.
  - set (s := rnd x).
    assert (Vs : val (fdiv a b) = Fin s) by (rewrite Vd; apply rx_small; rewrite Rabs_pos_eq by lra; apply Rle_trans with (bpow radix2 1000); [lra|apply bpow_le; lia]).
    pose proof (rnd_err x) as Es. fold s in Es. rewrite (Rabs_pos_eq x) in Es by lra. apply abs_le_both in Es.
    assert (S0 : 0 <= s) by (unfold s; rewrite <- rnd_0; apply rnd_le; lra).
    set (t := rnd (1 + s)). pose proof (rnd_err (1 + s)) as Et. fold t in Et. rewrite (Rabs_pos_eq (1 + s)) in Et by lra. apply abs_le_both in Et.
    assert (Vt : val (fadd (fofZ 1) (fdiv a b)) = Fin t).
    { rewrite val_add, (val_small 1), Vs by lia. cbn [xadd]. apply rx_small. rewrite Rabs_pos_eq by lra.
      assert (bpow radix2 1000 * 8 <= bpow radix2 1020). { replace 8 with (bpow radix2 3) by (cbn; lra). rewrite <- bpow_plus. apply bpow_le; lia. }
      assert (1 <= bpow radix2 1000) by (apply (bpow_le radix2 0 1000); lia). unfold u in *. lra. }
    assert (T : Rabs (t - (1 + x)) <= 21 / 10 * u * (1 + x)) by (apply Rabs_le; unfold u in *; lra).
    apply abs_le_both in T. assert (T1 : 99 / 100 * (1 + x) <= t) by (unfold u in *; lra).
    assert (A : Rabs (100 / t - 100 / (1 + x)) <= 215 * u).
    { replace (100 / t - 100 / (1 + x)) with ((1 + x - t) * (100 / (t * (1 + x)))) by (field; lra). rewrite Rabs_mult.
      assert (K : 0 < 100 / (t * (1 + x))) by (apply Rdiv_lt_0_compat; [lra|apply Rmult_lt_0_compat; lra]). rewrite (Rabs_pos_eq (100 / _)) by lra.
      apply Rmult_le_reg_r with (t * (1 + x)); [apply Rmult_lt_0_compat; lra|]. replace (Rabs (1 + x - t) * (100 / (t * (1 + x))) * (t * (1 + x))) with (100 * Rabs (1 + x - t)) by (field; lra).
      assert (Rabs (1 + x - t) <= 21 / 10 * u * (1 + x)) by (apply Rabs_le; lra).
      assert (212 * u * (1 + x) <= 215 * u * t) by (unfold u in *; lra).
      assert (215 * u * t * 1 <= 215 * u * t * (1 + x)). { apply Rmult_le_compat_l; [unfold u in *; lra|lra]. }
      assert (0 < u) by (unfold u; lra). nra. }
    assert (B1 : 0 < 100 / t <= 1001 / 10).
    { split; [apply Rdiv_lt_0_compat; lra|]. assert (100 / (1 + x) <= 100). { apply Rmult_le_reg_r with (1 + x); [lra|]. unfold Rdiv. rewrite Rmult_assoc, Rinv_l by lra. lra. }
      apply abs_le_both in A. unfold u in A. lra. }
    set (v := rnd (100 / t)). pose proof (rnd_err (100 / t)) as Ev. fold v in Ev. rewrite (Rabs_pos_eq (100 / t)) in Ev by lra. apply abs_le_both in Ev. apply abs_le_both in A.
    assert (Vv : val (fdiv (fofZ 100) (fadd (fofZ 1) (fdiv a b))) = Fin v).
    { rewrite val_div, Vt, (val_small 100) by (try lia; rewrite Vt; intros Z; injection Z; lra). cbn [xdiv]. destruct Req_EM_T; [lra|].
      apply rx_small. rewrite Rabs_pos_eq by lra. apply Rle_trans with (bpow radix2 8); [cbn; lra|apply bpow_le; lia]. }
    assert (V0 : 0 <= v) by (unfold v; rewrite <- rnd_0; apply rnd_le; lra).
    destruct (hundred_less _ v Vv ltac:(unfold u in *; lra)) as (q & Vq & Eq). exists q. split; [exact Vq|]. apply abs_le_both in Eq.
    apply Rabs_le. unfold u in *. lra.
Qed.

(** ** the ratio is insensitive to errors relative to the whole *)
Lemma share_error : forall U D up dn e, 0 <= U -> 0 <= D -> 0 < U + D -> 0 <= up -> 0 <= dn -> 0 < up + dn -> Rabs (U - up) <= e -> Rabs (D - dn) <= e ->
  Rabs (U / (U + D) - up / (up + dn)) <= e / (U + D).
Proof.
  intros U D up dn e HU HD S Hu Hd s E1 E2. replace (U / (U + D) - up / (up + dn)) with (((U - up) * dn - up * (D - dn)) / ((U + D) * (up + dn))) by (field; lra).
  unfold Rdiv at 1. rewrite Rabs_mult. assert (0 < (U + D) * (up + dn)) by (apply Rmult_lt_0_compat; lra).
  rewrite (Rabs_pos_eq (/ _)) by (apply Rlt_le, Rinv_0_lt_compat; lra).
  apply Rmult_le_reg_r with ((U + D) * (up + dn)); [lra|]. rewrite Rmult_assoc, Rinv_l, Rmult_1_r by lra.
  replace (e / (U + D) * ((U + D) * (up + dn))) with (e * (up + dn)) by (field; lra).
  apply abs_le_both in E1, E2. apply Rabs_le. split; nra.
Qed.

(** ** the weight 1/(1 + com), com = (1 - a)/a, a = 1/w *)
Definition inv_alphaF (w : Z) : float :=
  fdiv (fofZ 1) (fadd (fofZ 1) (fdiv (fsub (fofZ 1) (fdiv (fofZ 1) (fofZ w))) (fdiv (fofZ 1) (fofZ w)))).
Lemma rx_tame : forall r, Rabs r <= bpow radix2 60 -> rx (Fin r) = Fin (rnd r).
Proof. intros r H. apply rx_small. eapply Rle_trans; [exact H|apply bpow_le; lia]. Qed.
Lemma div_bound : forall x y K, 0 < y -> x <= K * y -> x / y <= K.
Proof. intros x y K Y H. apply Rmult_le_reg_r with y; auto. unfold Rdiv. rewrite Rmult_assoc, Rinv_l by lra. lra. Qed.
Lemma inv_weight : forall w, (1 <= w)%Z -> (200 * w <= 2 ^ 53)%Z ->
  exists n, val (inv_alphaF w) = Fin n /\ 0 < n <= 1 /\ Rabs (n - 1 / IZR w) <= 6 * u * (1 / IZR w).
Proof.
  intros w W1 W2. set (W := IZR w). assert (P1 : 1 <= W) by (apply IZR_le; lia).
  assert (P2 : 200 * W <= 9007199254740992) by (unfold W; rewrite <- mult_IZR; apply IZR_le; lia).
  assert (Eu : eta * W <= u / 1000).
  { apply Rle_trans with (bpow radix2 (-1000) * W).
    - apply Rmult_le_compat_r; [lra|]. apply bpow_le; lia.
    - assert (bpow radix2 (-1000) <= bpow radix2 (-120)) by (apply bpow_le; lia). pose proof (bpow_gt_0 radix2 (-1000)).
      assert (bpow radix2 (-120) <= u / 1000 / 9007199254740992) by (unfold u; cbn; lra). nra. }
  pose proof eta_pos as E0. assert (E1 : eta <= u / 1000) by nra. assert (U0 : 0 < u) by (unfold u; lra). assert (US : u < / 1000000) by (unfold u; lra).
  assert (UW : u <= u * W <= W / 1000000) by (split; nra). assert (EW : eta <= u * W / 1000) by lra.
  assert (B60 : 1000000000000000000 <= bpow radix2 60) by (cbn; lra).
  assert (I1 : 0 < 1 / W <= 1) by (split; [apply Rdiv_lt_0_compat; lra|apply div_bound; lra]).
  assert (IW : 1 / W * W = 1) by (field; lra).
  (* a *)
  set (a := rnd (1 / W)). pose proof (rnd_err (1 / W)) as Ea. fold a in Ea. rewrite (Rabs_pos_eq (1 / W)) in Ea by lra. apply abs_le_both in Ea.
  assert (A01 : 0 <= a <= 1) by (apply rnd_01; lra).
  assert (AW : Rabs (a * W - 1) <= 1001 / 1000 * u) by (apply Rabs_le; split; nra). apply abs_le_both in AW.
  assert (A0 : 0 < a) by nra.
  assert (Va : val (fdiv (fofZ 1) (fofZ w)) = Fin a).
  { rewrite val_div, (val_small 1), (val_small w) by (try lia; rewrite val_small by lia; intros Q; injection Q; fold W; lra). fold W. cbn [xdiv].
    destruct Req_EM_T; [lra|]. apply rx_tame. rewrite Rabs_pos_eq; lra. }
  (* 1 - a *)
  set (p := rnd (1 - a)). pose proof (rnd_err (1 - a)) as Ep. fold p in Ep. rewrite (Rabs_pos_eq (1 - a)) in Ep by lra. apply abs_le_both in Ep.
  assert (UA : u * (1 - a) <= u * 1) by (apply Rmult_le_compat_l; lra).
  assert (Pa : 0 <= p <= 1) by (apply rnd_01; lra).
  assert (Vp : val (fsub (fofZ 1) (fdiv (fofZ 1) (fofZ w))) = Fin p).
  { rewrite val_sub, Va, (val_small 1) by lia. unfold xsub. cbn [xadd xopp]. apply rx_tame. apply Rabs_le. lra. }
  (* /a *)
  assert (IA : 1 / a <= 1001 / 1000 * W) by (apply div_bound; lra).
  assert (PA : 0 <= p / a <= 1001 / 1000 * W).
  { split; [apply Rmult_le_pos; [lra|apply Rlt_le, Rinv_0_lt_compat, A0]|]. apply div_bound; lra. }
  assert (PW : Rabs (1 + p / a - W) <= 2010 / 1000 * u * W).
  { replace (1 + p / a - W) with ((a + p - a * W) * (1 / a)) by (field; lra). rewrite Rabs_mult.
    assert (0 < 1 / a) by (apply Rdiv_lt_0_compat; lra). rewrite (Rabs_pos_eq (1 / a)) by lra.
    assert (Rabs (a + p - a * W) <= 2003 / 1000 * u) by (apply Rabs_le; lra).
    apply Rle_trans with (2003 / 1000 * u * (1001 / 1000 * W)); [apply Rmult_le_compat; try apply Rabs_pos; lra|lra]. }
  apply abs_le_both in PW.
  set (q := rnd (p / a)). pose proof (rnd_err (p / a)) as Eq. fold q in Eq. rewrite (Rabs_pos_eq (p / a)) in Eq by lra. apply abs_le_both in Eq.
  assert (Q0 : 0 <= q) by (unfold q; rewrite <- rnd_0; apply rnd_le; lra).
  assert (Vq : val (fdiv (fsub (fofZ 1) (fdiv (fofZ 1) (fofZ w))) (fdiv (fofZ 1) (fofZ w))) = Fin q).
  { rewrite val_div, Vp, Va by (rewrite Va; intros Q; injection Q; lra). cbn [xdiv]. destruct Req_EM_T; [lra|]. apply rx_tame. rewrite Rabs_pos_eq; lra. }
  assert (QW : Rabs (1 + q - W) <= 3020 / 1000 * u * W).
  { assert (u * (p / a) <= u * (1001 / 1000 * W)) by (apply Rmult_le_compat_l; lra). apply Rabs_le. lra. }
  apply abs_le_both in QW.
  (* 1 + q *)
  set (s := rnd (1 + q)). pose proof (rnd_err (1 + q)) as Es. fold s in Es. rewrite (Rabs_pos_eq (1 + q)) in Es by lra. apply abs_le_both in Es.
  assert (S1 : 1 <= s) by (apply Rle_trans with (rnd 1); [rewrite (rnd_Z 1) by lia; lra|apply rnd_le; lra]).
  assert (QW' : 1 + q <= 1001 / 1000 * W) by (clear - QW UW P1; lra).
  assert (SW : Rabs (s - W) <= 4030 / 1000 * u * W).
  { assert (u * (1 + q) <= u * (1001 / 1000 * W)) by (apply Rmult_le_compat_l; lra). apply Rabs_le. lra. }
  assert (Vs : val (fadd (fofZ 1) (fdiv (fsub (fofZ 1) (fdiv (fofZ 1) (fofZ w))) (fdiv (fofZ 1) (fofZ w)))) = Fin s).
  { rewrite val_add, Vq, (val_small 1) by lia. cbn [xadd]. apply rx_tame. rewrite Rabs_pos_eq; lra. }
  pose proof SW as SW0. apply abs_le_both in SW. assert (SW1 : 999 / 1000 * W <= s) by lra.
  (* 1 / s *)
  assert (J : 0 < 1 / s <= 1) by (split; [apply Rdiv_lt_0_compat; lra|apply div_bound; lra]).
  assert (JW : 1 / s <= 1002 / 1000 * (1 / W)).
  { apply div_bound; [lra|]. replace (1002 / 1000 * (1 / W) * s) with (1002 / 1000 * (s / W)) by (field; lra).
    assert (999 / 1000 <= s / W) by (apply Rmult_le_reg_r with W; [lra|]; unfold Rdiv at 2; rewrite Rmult_assoc, Rinv_l by lra; lra). lra. }
  assert (JE : Rabs (1 / s - 1 / W) <= 4050 / 1000 * u * (1 / W)).
  { replace (1 / s - 1 / W) with ((W - s) * (1 / s) * (1 / W)) by (field; lra). rewrite !Rabs_mult, (Rabs_pos_eq (1 / s)), (Rabs_pos_eq (1 / W)) by lra.
    apply Rmult_le_compat_r; [lra|]. rewrite Rabs_minus_sym. apply Rle_trans with (4030 / 1000 * u * W * (1002 / 1000 * (1 / W))).
    - apply Rmult_le_compat; auto; [apply Rabs_pos|lra].
    - replace (4030 / 1000 * u * W * (1002 / 1000 * (1 / W))) with (4030 / 1000 * u * (1002 / 1000)) by (field; lra). lra. }
  apply abs_le_both in JE.
  set (n := rnd (1 / s)). pose proof (rnd_err (1 / s)) as En. fold n in En. rewrite (Rabs_pos_eq (1 / s)) in En by lra. apply abs_le_both in En.
  assert (N01 : 0 <= n <= 1) by (apply rnd_01; lra).
  assert (NE : Rabs (n - 1 / W) <= 6 * u * (1 / W)).
  { assert (u * (1 / s) <= u * (1002 / 1000 * (1 / W))) by (apply Rmult_le_compat_l; lra).
    assert (eta <= u / 1000 * (1 / W)). { replace eta with (eta * W * (1 / W)) by (field; lra). apply Rmult_le_compat_r; lra. } apply Rabs_le. lra. }
  exists n. split; [|split; auto].
  - unfold inv_alphaF. rewrite val_div, Vs, (val_small 1) by (try lia; rewrite Vs; intros Q; injection Q; lra). cbn [xdiv]. destruct Req_EM_T; [lra|].
    apply rx_tame. rewrite Rabs_pos_eq; lra.
  - apply abs_le_both in NE. split; [|lra]. assert (u * (1 / W) <= / 1000000 * (1 / W)) by (apply Rmult_le_compat_r; lra). lra.
Qed.

(** ** two exact averages whose weights differ slightly *)
Lemma ewm_weight : forall al n K d m s k a b, 0 < al <= 1 -> 0 < n <= 1 -> Rabs (n - al) * (2 * K) <= n * d -> Forall (bd K) s -> Rabs b <= K -> Rabs (a - b) <= d ->
  Forall2 (close2 d) (ewm_go (Fin n) m k (Fin a) (Fin 1) s) (ewm_go (Fin al) m k (Fin b) (Fin 1) s).
Proof.
  intros al n K d m s k a b A N H Hs. revert k a b. induction s as [|y s IH]; intros k a b Hb Hab; [constructor|].
  destruct (Forall_inv Hs) as (c & -> & C). pose proof (Forall_inv_tail Hs) as Ht.
  cbn [ewm_go fisnan XR xisnan negb fofZ fsub fmul fadd fdiv feqb].
  change (xmul (Fin 1) (xsub (Fin 1) (Fin n))) with (Fin (1 * (1 + - n))). change (xmul (Fin 1) (xsub (Fin 1) (Fin al))) with (Fin (1 * (1 + - al))).
  rewrite !step_xr by lra.
  replace ((1 * (1 + - n) * a + n * c) / (1 * (1 + - n) + n)) with ((1 - n) * a + n * c) by (field; lra).
  replace ((1 * (1 + - al) * b + al * c) / (1 * (1 + - al) + al)) with ((1 - al) * b + al * c) by (field; lra).
  assert (B : Rabs ((1 - al) * b + al * c) <= K) by (apply abs_le_both in Hb, C; apply Rabs_le; split; nra).
  assert (D : Rabs ((1 - n) * a + n * c - ((1 - al) * b + al * c)) <= d).
  { replace ((1 - n) * a + n * c - ((1 - al) * b + al * c)) with ((1 - n) * (a - b) + (n - al) * (c - b)) by ring.
    eapply Rle_trans; [apply Rabs_triang|]. rewrite !Rabs_mult, (Rabs_pos_eq (1 - n)) by lra.
    assert (Rabs (c - b) <= 2 * K) by (apply abs_le_both in Hb, C; apply Rabs_le; lra).
    assert ((1 - n) * Rabs (a - b) <= (1 - n) * d) by (apply Rmult_le_compat_l; lra).
    assert (Rabs (n - al) * Rabs (c - b) <= Rabs (n - al) * (2 * K)) by (apply Rmult_le_compat_l; [apply Rabs_pos|lra]). lra. }
  constructor; [|now apply IH]. destruct (_ <=? _)%nat; [exact D|exact I].
Qed.

(** ** ewm(alpha=1/w) *)
Lemma inv_track : forall w K m s, (1 <= w)%Z -> (200 * w <= 2 ^ 53)%Z -> bpow radix2 (-900) <= K -> K <= bpow radix2 1000 -> Forall (okval K) s ->
  Forall2 (near ((161 / 10 * IZR w + 121 / 10) * (u * K))) (ewm_go (inv_alphaF w) m 0 fnan (fofZ 1) s) (ewm_go (Fin (1 / IZR w)) m 0 NaN (Fin 1) (map val s)).
Proof.
  intros w K m s W1 W2 K1 K2 Hs. destruct (inv_weight w W1 W2) as (n & Vn & N01 & Nal). set (W := IZR w) in *.
  assert (P1 : 1 <= W) by (apply IZR_le; lia).
  assert (P2 : 200 * W <= 9007199254740992) by (unfold W; rewrite <- mult_IZR; apply IZR_le; lia). clearbody W.
  assert (U0 : 0 < u) by (unfold u; lra). assert (US : u < / 1000000) by (unfold u; lra). assert (K0 : 0 < K) by (pose proof (bpow_gt_0 radix2 (-900)); lra).
  assert (I1 : 0 < 1 / W <= 1) by (split; [apply Rdiv_lt_0_compat; lra|apply div_bound; lra]).
  assert (UI : 0 < u * (1 / W) <= / 1000000 * (1 / W)) by (split; [apply Rmult_lt_0_compat; lra|apply Rmult_le_compat_r; lra]).
  pose proof Nal as Nal'. apply abs_le_both in Nal'. assert (N2 : 999 / 1000 * (1 / W) <= n) by lra.
  assert (NI : 1 / n <= 1002 / 1000 * W).
  { apply div_bound; [lra|]. assert (W * (999 / 1000 * (1 / W)) <= W * n) by (apply Rmult_le_compat_l; lra).
    replace (W * (999 / 1000 * (1 / W))) with (999 / 1000) in H by (field; lra). lra. }
  assert (N0 : 0 < 1 / n) by (apply Rdiv_lt_0_compat; lra). assert (UK : 0 < u * K) by (apply Rmult_lt_0_compat; lra).
  set (B := 16 * u * K / n). assert (B1 : 0 < B <= 161 / 10 * W * (u * K)).
  { unfold B. replace (16 * u * K / n) with (16 * (u * K) * (1 / n)) by (field; lra). split; [apply Rmult_lt_0_compat; lra|].
    apply Rle_trans with (16 * (u * K) * (1002 / 1000 * W)); [apply Rmult_le_compat_l; lra|].
    assert (0 < W * (u * K)) by (apply Rmult_lt_0_compat; lra). lra. }
  assert (Vo : val (fsub (fofZ 1) (inv_alphaF w)) = Fin (rnd (1 - n))).
  { rewrite val_sub, Vn, (val_small 1) by lia. unfold xsub. cbn [xadd xopp]. apply rx_tame. apply Rle_trans with (bpow radix2 0); [cbn; apply Rabs_le; lra|apply bpow_le; lia]. }
  assert (Sm : 16 * u / n <= / 10).
  { replace (16 * u / n) with (16 * u * (1 / n)) by (field; lra). apply Rle_trans with (16 * u * (1002 / 1000 * W)); [apply Rmult_le_compat_l; lra|]. unfold u. lra. }
  assert (Hd : Rabs (n - 1 / W) * (2 * K) <= n * (121 / 10 * (u * K))).
  { apply Rle_trans with (6 * u * (1 / W) * (2 * K)); [apply Rmult_le_compat_r; lra|].
    apply Rle_trans with (999 / 1000 * (1 / W) * (121 / 10 * (u * K))); [|apply Rmult_le_compat_r; lra].
    assert (0 < 1 / W * (u * K)) by (apply Rmult_lt_0_compat; lra). lra. }
  assert (Et : eta <= u * n / 1000 -> Rabs (n - n) <= u * n + eta).
  { intros _. replace (n - n) with 0 by ring. rewrite Rabs_R0. pose proof eta_pos. assert (0 < u * n) by (apply Rmult_lt_0_compat; lra). lra. }
  apply near_mono2 with (B + 121 / 10 * (u * K)); [lra|].
  destruct s as [|y s]; [constructor|]. destruct (Forall_inv Hs) as (c & V & C). pose proof (Forall_inv_tail Hs) as Ht.
  cbn [ewm_go map]. assert (Ny : fisnan y = false) by (rewrite val_nan, V; reflexivity). rewrite Ny, V.
  replace (fisnan (fnan : float)) with true by (vm_compute; reflexivity). cbn [fisnan XR xisnan negb].
  constructor.
  - destruct (_ <=? _)%nat; [|apply near_nan]. cbn. exists c. split; auto. replace (c - c) with 0 by ring. rewrite Rabs_R0. lra.
  - eapply near_compose.
    + eapply track with (al := n) (n := n) (o := rnd (1 - n)) (a := c) (x := c) (M := K); auto; try lra.
      * apply rnd_01; lra.
      * replace (n - n) with 0 by ring. rewrite Rabs_R0. pose proof eta_pos. assert (0 < u * n) by (apply Rmult_lt_0_compat; lra). lra.
      * replace (c - c) with 0 by ring. rewrite Rabs_R0. fold B. lra.
    + cbn [fofZ XR]. apply ewm_weight with (K := K); auto; try lra.
      * clear - Ht. induction Ht as [|z s (d & D & E) _ IH]; cbn [map]; constructor; auto. exists d. split; auto.
      * replace (c - c) with 0 by ring. rewrite Rabs_R0. lra.
Qed.
Lemma xr_inv_alpha : forall w, (1 <= w)%nat ->
  fdiv (fofZ 1) (fadd (fofZ 1) (fdiv (fsub (fofZ 1) (fdiv (fofZ 1) (fofZ (Z.of_nat w)))) (fdiv (fofZ 1) (fofZ (Z.of_nat w))))) = Fin (1 / IZR (Z.of_nat w)).
Proof.
  intros w H. assert (1 <= IZR (Z.of_nat w)) by (apply IZR_le; lia). assert (Q : 0 < 1 / IZR (Z.of_nat w)) by (apply Rdiv_lt_0_compat; lra).
  cbn. destruct (Req_EM_T (IZR (Z.of_nat w)) 0); [lra|]. cbn. destruct (Req_EM_T (1 / IZR (Z.of_nat w)) 0); [lra|]. cbn.
  assert (Z : 1 + (1 + - (1 / IZR (Z.of_nat w))) / (1 / IZR (Z.of_nat w)) = IZR (Z.of_nat w)) by (field; lra). destruct (Req_EM_T _ 0); [lra|]. now rewrite Z.
Qed.
Lemma tab_close : forall e n f g, (forall i, (i < n)%nat -> close2 e (f i) (g i)) -> Forall2 (close2 e) (tab n f) (tab n g).
Proof.
  intros e n f g H. unfold tab. assert (G : forall l, (forall i, In i l -> (i < n)%nat) -> Forall2 (close2 e) (map f l) (map g l)).
  { induction l as [|i l IH]; intros K; cbn [map]; constructor; [apply H, K; now left|apply IH; intros; apply K; now right]. }
  apply G. intros i I. apply in_seq in I. lia.
Qed.
Lemma list_tab : forall (s : list float) n (f : nat -> xr), length s = n -> (forall i, (i < n)%nat -> val (nth i s fnan) = f i) -> map val s = tab n f.
Proof.
  intros s n f L H. subst n. unfold tab. assert (G : forall k t, (forall i, (i < length t)%nat -> val (nth i t fnan) = f (k + i)%nat) -> map val t = map f (seq k (length t))).
  { intros k t. revert k. induction t as [|x t IH]; intros k Hk; [reflexivity|]. cbn [map length seq]. f_equal.
    - pose proof (Hk 0%nat ltac:(cbn; lia)) as Z. rewrite Nat.add_0_r in Z. exact Z.
    - apply IH. intros i Hi. replace (S k + i)%nat with (k + S i)%nat by lia. apply (Hk (S i)). cbn. lia. }
  now apply (G 0%nat).
Qed.
Lemma wilder_near : forall fl w (s : list float) f M, (1 <= w)%nat -> (200 * Z.of_nat w <= 2 ^ 53)%Z -> ordinary M ->
  (forall i, (i < length s)%nat -> val (nth i s fnan) = Fin (rnd (f i)) /\ Rabs (f i) <= 2 * M) ->
  exists x, ewm_inv_alpha (Z.of_nat w) (minp_of fl (Z.of_nat w)) s = Ok x /\
    Forall2 (near (part (5 * INR w + 3) M)) x (tab (length s) (from (warm fl w) (wilder w f 0))).
Proof.
  intros fl w s f M W1 W2 HM H. destruct (big_bounds M HM) as (P1 & P2 & P3 & P4 & P5).
  assert (UM : 0 < u * M <= M / 1000000) by (unfold u; lra).
  pose proof (wilder_tab fl w (length s) 0 f W1) as E. cbn [Nat.add] in E. unfold ewm_inv_alpha in *.
  destruct (Z.eqb_spec (Z.of_nat w) 0); [lia|]. destruct (Z.ltb_spec (Z.of_nat w) 0); [lia|]. apply (f_equal (fun r => match r with Ok a => a | Raise _ => [] end)) in E. cbv beta iota zeta in E. eexists. split; [reflexivity|]. rewrite <- E. clear E.
  assert (Er : forall i, (i < length s)%nat -> Rabs (rnd (f i) - f i) <= 2002 / 1000 * (u * M)).
  { intros i Hi. destruct (H i Hi) as [_ B]. pose proof (rnd_err (f i)) as R. assert (u * Rabs (f i) <= u * (2 * M)) by (apply Rmult_le_compat_l; [unfold u; lra|lra]). lra. }
  assert (Ok2 : Forall (okval (201 / 100 * M)) s).
  { apply Forall_forall. intros x I. apply (In_nth _ _ fnan) in I as (i & Hi & <-). destruct (H i Hi) as [V B]. exists (rnd (f i)). split; auto.
    specialize (Er i Hi). apply abs_le_both in Er, B. apply Rabs_le. lra. }
  unfold ewm_com. assert (Ps : prep s = s).
  { clear - Ok2. unfold prep. induction Ok2 as [|x s (q & V & _) _ IH]; auto. cbn [map]. rewrite IH. now rewrite val_inf, V. }
  rewrite Ps, prep_from. rewrite xr_inv_alpha by auto. change (fdiv (fofZ 1) (fadd (fofZ 1) _)) with (inv_alphaF (Z.of_nat w)).
  assert (W0 : 1 <= IZR (Z.of_nat w)) by (apply IZR_le; lia).
  eapply near_mono2; [|eapply near_compose; [apply inv_track with (K := 201 / 100 * M); auto; try lia; lra|]].
  2:{ rewrite (list_tab s (length s) (fun i => Fin (rnd (f i)))) by (auto; intros i Hi; apply H; auto). cbn [fofZ XR fnan].
      apply ewm_lip with (d := 2002 / 1000 * (u * M)).
      - split; [apply Rdiv_lt_0_compat; lra|apply div_bound; lra].
      - apply tab_close. intros i Hi. unfold from, fromx. cbn. now apply Er.
      - lra.
      - exact I. }
  rewrite INR_IZR_INZ. unfold part. change (IZR (2 ^ 50)) with 1125899906842624.
  replace (M / 1125899906842624) with (8 * (u * M)) by (unfold u; lra). assert (1 * (u * M) <= IZR (Z.of_nat w) * (u * M)) by (apply Rmult_le_compat_r; lra). lra.
Qed.

(** ** the published series *)
Section Rsi.
Variables (rows : list (bar float)) (c : nat -> R) (M : R) (w : nat) (fl : bool).
Hypothesis Hc : closes rows c M.
Hypothesis HM : ordinary M.
Hypothesis W1 : (1 <= w)%nat.
Hypothesis W2 : (200 * Z.of_nat w <= 2 ^ 53)%Z.
Let up := map (fun d : float => if fltb (fofZ 0) d then d else fofZ 0) (diff1 (map b_close rows)).
Let dn := map (fun d : float => fopp (if fltb d (fofZ 0) then d else fofZ 0)) (diff1 (map b_close rows)).
Lemma len_diffs : length (diff1 (map b_close rows)) = length rows.
Proof. unfold diff1, ssub. rewrite len_map2; rewrite ?len_shift1, !map_length; auto. Qed.
Lemma val0 : val (fofZ 0) = Fin 0. Proof. apply (val_small 0). lia. Qed.
Lemma diff_val : forall i, (S i < length rows)%nat -> val (nth (S i) (diff1 (map b_close rows)) fnan) = Fin (rnd (delta c (S i))) /\ Rabs (delta c (S i)) <= 2 * M.
Proof.
  intros i Hi. destruct (big_bounds M HM) as (P1 & P2 & P3 & P4 & _). unfold diff1, ssub.
  rewrite (nth_map2_lt fsub _ _ _ fnan fnan fnan) by (rewrite ?len_shift1, ?map_length; lia).
  rewrite nth_shift1 by (rewrite map_length; lia). replace (S i - 1)%nat with i by lia. unfold delta. replace (S i - 1)%nat with i by lia.
  destruct (closes_nth rows c M (S i) Hc ltac:(rewrite map_length; lia)) as [V1 B1]. destruct (closes_nth rows c M i Hc ltac:(rewrite map_length; lia)) as [V2 B2].
  apply abs_le_both in B1, B2. assert (B : Rabs (c (S i) - c i) <= 2 * M) by (apply Rabs_le; lra). split; auto. apply val_diff; auto. lra.
Qed.
Lemma diff_0 : (0 < length rows)%nat -> val (nth 0 (diff1 (map b_close rows)) fnan) = NaN.
Proof.
  intros H. unfold diff1, ssub. rewrite (nth_map2_lt fsub _ _ _ fnan fnan fnan) by (rewrite ?len_shift1, ?map_length; lia).
  replace (nth 0 (shift 1 (map b_close rows)) fnan) with (fnan : float) by (symmetry; unfold shift; apply nth_shift_fill_lt; rewrite ?map_length; lia).
  rewrite val_sub, val_fnan. destruct (val _); reflexivity.
Qed.
Lemma up_val : forall i, (i < length up)%nat -> val (nth i up fnan) = Fin (rnd (gain c i)) /\ Rabs (gain c i) <= 2 * M.
Proof.
  intros i Hi. destruct (big_bounds M HM) as (P1 & _). unfold up in *. rewrite map_length, len_diffs in Hi.
  rewrite (nth_map_lt _) with (d' := fnan) by (rewrite len_diffs; lia). unfold gain. rewrite val_ltb, val0.
  destruct i as [|i]; cbn [Nat.eqb].
  - rewrite diff_0 by auto. cbn [xltb]. rewrite val0, rnd_zero, Rabs_R0. split; [reflexivity|lra].
  - destruct (diff_val i Hi) as [V B]. rewrite V. apply abs_le_both in B. cbn [xltb].
    split; [|unfold Rmax; destruct Rle_dec; apply Rabs_le; lra].
    rewrite <- rnd_max, rnd_zero. unfold Rmax. destruct Rlt_dec, Rle_dec; try rewrite V; try rewrite val0; try reflexivity; f_equal; lra.
Qed.
Lemma dn_val : forall i, (i < length dn)%nat -> val (nth i dn fnan) = Fin (rnd (loss c i)) /\ Rabs (loss c i) <= 2 * M.
Proof.
  intros i Hi. destruct (big_bounds M HM) as (P1 & _). unfold dn in *. rewrite map_length, len_diffs in Hi.
  rewrite (nth_map_lt _) with (d' := fnan) by (rewrite len_diffs; lia). unfold loss. rewrite val_opp, val_ltb, val0.
  destruct i as [|i]; cbn [Nat.eqb].
  - rewrite diff_0 by auto. cbn [xltb]. rewrite val0, rnd_zero, Rabs_R0. split; [cbn; f_equal; lra|lra].
  - destruct (diff_val i Hi) as [V B]. rewrite V. apply abs_le_both in B. cbn [xltb].
    split; [|unfold Rmax; destruct Rle_dec; apply Rabs_le; lra].
    rewrite <- rnd_max, rnd_zero, rnd_opp. unfold Rmax. destruct Rlt_dec, Rle_dec; try rewrite V; try rewrite val0; cbn [xopp]; f_equal; lra.
Qed.
Let G := wilder w (gain c) 0.
Let D := wilder w (loss c) 0.
Let de := part (5 * INR w + 3) M.
Lemma rsi_exact : forall i, 0 < G i + D i -> rsi_value (G i) (D i) = 100 * (G i / (G i + D i)).
Proof.
  intros i S. pose proof (wilder_nonneg w (gain c) 0 i W1 (gain_nonneg c)) as A. pose proof (wilder_nonneg w (loss c) 0 i W1 (loss_nonneg c)) as B. fold (G i) in A. fold (D i) in B.
  unfold rsi_value. destruct Req_EM_T as [E|E].
  - rewrite E in *. field. lra.
  - field. repeat split; lra.
Qed.
Definition row_error (i : nat) : R := if Rlt_dec 0 (G i + D i) then 300 * de / (G i + D i) + 512 * u else 101.
Lemma de_pos : 0 < de.
Proof.
  destruct (big_bounds M HM) as (P1 & _). unfold de, part. change (IZR (2 ^ 50)) with 1125899906842624. pose proof (pos_INR w).
  apply Rmult_lt_0_compat; lra.
Qed.
Lemma share01 : forall a b, 0 <= a -> 0 <= b -> 0 < a + b -> 0 <= a / (a + b) <= 1.
Proof. intros a b A B S. split; [apply Rmult_le_pos; [lra|apply Rlt_le, Rinv_0_lt_compat; lra]|apply div_bound; lra]. Qed.
Lemma cell_near : forall i a b, near de a (Fin (G i)) -> near de b (Fin (D i)) -> Rounded.nn a -> Rounded.nn b ->
  near (row_error i) (if feqb b (fofZ 0) then fofZ 100 else fsub (fofZ 100) (fdiv (fofZ 100) (fadd (fofZ 1) (fdiv a b)))) (Fin (rsi_value (G i) (D i))).
Proof.
  intros i a b (U & VU & EU) (N & VN & EN) Pa Pb.
  assert (U0 : 0 <= U). { assert (X : fle (fofZ 0) a) by (apply Pa; change (fisnan a = false); rewrite val_nan, VU; reflexivity). unfold fle in X. rewrite val_leb, val0, VU in X. now apply xleb_xle in X. }
  assert (N0 : 0 <= N). { assert (X : fle (fofZ 0) b) by (apply Pb; change (fisnan b = false); rewrite val_nan, VN; reflexivity). unfold fle in X. rewrite val_leb, val0, VN in X. now apply xleb_xle in X. }
  pose proof (wilder_nonneg w (gain c) 0 i W1 (gain_nonneg c)) as A. pose proof (wilder_nonneg w (loss c) 0 i W1 (loss_nonneg c)) as B. fold (G i) in A. fold (D i) in B.
  assert (Up : 0 < u) by (unfold u; lra). assert (Us : 512 * u < 1) by (unfold u; lra). pose proof de_pos as D0.
  (* the value shown, and how far it is from 100 U/(U+N) *)
  assert (C : exists q, val (if feqb b (fofZ 0) then fofZ 100 else fsub (fofZ 100) (fdiv (fofZ 100) (fadd (fofZ 1) (fdiv a b)))) = Fin q /\
    - (512 * u) <= q <= 100 + 512 * u /\ (0 < U + N -> Rabs (q - 100 * (U / (U + N))) <= 512 * u)).
  { rewrite val_eqb, VN, val0. cbn [xeqb]. destruct (Req_EM_T N 0) as [->|E].
    - exists 100. split; [apply (val_small 100); lia|]. split; [lra|]. intros S. replace (100 - 100 * (U / (U + 0))) with 0 by (field; lra). rewrite Rabs_R0. lra.
    - destruct (rsi_cell a b U N VU VN U0 ltac:(lra)) as (q & Vq & Eq). exists q. split; [exact Vq|]. split; auto.
      apply abs_le_both in Eq. pose proof (share01 U N U0 N0 ltac:(lra)). lra. }
  destruct C as (q & Vq & Rq & Eq). cbn [near]. exists q. split; [exact Vq|]. unfold row_error. destruct Rlt_dec as [S|S].
  - rewrite (rsi_exact i S). destruct (Rle_lt_dec (3 * de) (G i + D i)) as [L|L].
    + apply abs_le_both in EU, EN. assert (S2 : 0 < U + N) by lra. specialize (Eq S2).
      pose proof (share_error U N (G i) (D i) de U0 N0 S2 A B S ltac:(apply Rabs_le; lra) ltac:(apply Rabs_le; lra)) as Q.
      assert (Q2 : de / (U + N) <= 3 * de / (G i + D i)).
      { apply div_bound; auto. replace (3 * de / (G i + D i) * (U + N)) with (de * (3 * (U + N) / (G i + D i))) by (field; lra).
        assert (1 <= 3 * (U + N) / (G i + D i)). { apply Rmult_le_reg_r with (G i + D i); auto. unfold Rdiv. rewrite Rmult_assoc, Rinv_l by lra. lra. }
        assert (de * 1 <= de * (3 * (U + N) / (G i + D i))) by (apply Rmult_le_compat_l; lra). lra. }
      replace (300 * de / (G i + D i)) with (100 * (3 * de / (G i + D i))) by (field; lra).
      apply abs_le_both in Q, Eq. apply Rabs_le. lra.
    + assert (Q : 100 <= 300 * de / (G i + D i)). { apply Rmult_le_reg_r with (G i + D i); auto. unfold Rdiv. rewrite Rmult_assoc, Rinv_l by lra. lra. }
      pose proof (share01 (G i) (D i) A B S). apply Rabs_le. lra.
  - assert (G i = 0 /\ D i = 0) as [_ E2] by lra. rewrite E2. unfold rsi_value. destruct Req_EM_T; [|lra]. apply Rabs_le. lra.
Qed.
Theorem rsi_tracks_rows : exists out, compute (Rsi (Z.of_nat w)) fl rows = Ok out /\ length out = length rows /\
  forall i, (i < length rows)%nat -> near (row_error i) (nth i out fnan) (from (warm fl w) (fun i => rsi_value (G i) (D i)) i).
Proof.
  assert (Lu : length up = length rows) by (unfold up; now rewrite map_length, len_diffs). assert (Ld : length dn = length rows) by (unfold dn; now rewrite map_length, len_diffs).
  destruct (wilder_near fl w up (gain c) M W1 W2 HM up_val) as (x & Ex & Nx). destruct (wilder_near fl w dn (loss c) M W1 W2 HM dn_val) as (y & Ey & Ny).
  rewrite Lu in Nx. rewrite Ld in Ny. fold G in Nx. fold D in Ny. fold de in Nx, Ny. apply near_nth in Nx as [Lx Nx]. apply near_nth in Ny as [Ly Ny].
  assert (Px : Forall Rounded.nn x).
  { eapply ewm_inv_nn; [|  |exact Ex]; [lia|]. apply Forall_map, Forall_forall. intros z _. destruct (fltb (fofZ 0) z) eqn:L; [|apply nn_Z; lia]. intros _. now apply lt_le. }
  assert (Py : Forall Rounded.nn y).
  { eapply ewm_inv_nn; [|  |exact Ey]; [lia|]. apply Forall_map, Forall_forall. intros z _ _. apply opp_pos. destruct (fltb z (fofZ 0)) eqn:L; [now apply lt_le|apply leZ; lia]. }
  set (out := map2 (fun d rs : float => if feqb d (fofZ 0) then fofZ 100 else fsub (fofZ 100) (fdiv (fofZ 100) (fadd (fofZ 1) rs))) y (sdiv x y)).
  assert (Lo : length out = length rows) by (unfold out, sdiv; rewrite !len_map2; rewrite ?len_map2; lia).
  assert (No : forall i, (i < length rows)%nat -> near (row_error i) (nth i out fnan) (from (warm fl w) (fun i => rsi_value (G i) (D i)) i)).
  { intros i Hi. unfold out, sdiv. rewrite (nth_map2_lt _ _ _ _ fnan fnan fnan) by (rewrite ?len_map2; lia). rewrite (nth_map2_lt fdiv _ _ _ fnan fnan fnan) by lia.
    specialize (Nx i Hi). specialize (Ny i Hi). unfold from, fromx in *. destruct (i <? warm fl w)%nat.
    - cbn [near] in *. rewrite val_eqb, Ny. cbn [xeqb].
      assert (Z : fisnan (fsub (fofZ 100) (fdiv (fofZ 100) (fadd (fofZ 1) (fdiv (nth i x fnan) (nth i y fnan))))) = true).
      { apply sub_nan_r, div_nan_r, add_nan_r, div_nan_r. now rewrite val_nan, Ny. }
      rewrite val_nan in Z. clear - Z. destruct (val _); [reflexivity|discriminate..].
    - apply cell_near; auto; [eapply Forall_forall; [exact Px|apply nth_In; lia]|eapply Forall_forall; [exact Py|apply nth_In; lia]]. }
  exists out. split; [|split; auto].
  cbn [compute]. unfold rsi, rsi_run. fold up. fold dn. rewrite Ex. cbn [bind]. rewrite Ey. cbn [bind rmap]. fold out.
  rewrite (kept fl 50 w out row_error (fun i => rsi_value (G i) (D i))) by (intros; apply No; lia). reflexivity.
Qed.
End Rsi.
Theorem rsi_tracks : forall fillna w rows c M, closes rows c M -> ordinary M -> (1 <= w)%nat -> (200 * Z.of_nat w <= 2 ^ 53)%Z ->
  exists out, compute (Rsi (Z.of_nat w)) fillna rows = Ok out /\ length out = length rows /\
    forall i x, nth_error out i = Some x -> let up := wilder w (gain c) 0 i in let down := wilder w (loss c) 0 i in
      ((warm fillna w <= i)%nat -> 0 < up + down) ->
      within (part (1500 * INR w + 900) (M / (up + down)) + / IZR (2 ^ 44)) x
        (from (warm fillna w) (fun j => rsi_value (wilder w (gain c) 0 j) (wilder w (loss c) 0 j)) i).
Proof.
  intros fl w rows c M Hc HM W1 W2. destruct (rsi_tracks_rows rows c M w fl Hc HM W1 W2) as (out & E & Ln & N). exists out. split; [exact E|]. split; [exact Ln|].
  intros i x Hx up down Hp. assert (Hi : (i < length rows)%nat) by (rewrite <- Ln; apply nth_error_Some; congruence). specialize (N i Hi). rewrite (nth_error_nth _ _ fnan Hx) in N.
  unfold from, fromx in *. destruct (Nat.ltb_spec i (warm fl w)) as [B|B]; cbn [near within] in *.
  - change (fisnan x = true). now rewrite val_nan, N.
  - specialize (Hp B). destruct N as (q & V & Q). exists q. split; [exact V|]. eapply Rle_trans; [exact Q|]. unfold row_error. fold up down. destruct Rlt_dec; [|lra].
    apply Req_le. unfold part, u. change (IZR (2 ^ 44)) with 17592186044416. change (IZR (2 ^ 50)) with 1125899906842624. cbn. field. lra.
Qed.
