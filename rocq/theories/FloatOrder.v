(** * FloatOrder: binary64 arithmetic satisfies the ordering laws of Order.v *)
From Flocq Require Import Core PrimFloat.
From Coq Require Import Reals Lra Floats Uint63 SpecFloat.
From Flocq Require Import BinarySingleNaN.
From Verif Require Import Arith FloatArith FloatReal Order.
Local Open Scope R_scope.
#[local] Existing Instance Hprec.
#[local] Existing Instance Hmax.
#[local] Existing Instance fexp_ok.

Lemma rnd_opp : forall r, rnd (- r) = - rnd r.
Proof. intros. apply round_NE_opp. Qed.
Lemma rx_mono : forall x y, xle x y -> xle (rx x) (rx y).
Proof.
  intros [ | | |a] [ | | |b] H; try easy; try (cbn [rx]; destruct Rlt_bool; [|destruct Rle_dec]; easy).
  cbn in H. cbn [rx]. pose proof (rnd_le a b H) as M.
  assert (Pa : 0 <= a -> 0 <= rnd a) by (intros; rewrite <- rnd_0; now apply rnd_le).
  assert (Pb : 0 <= b -> 0 <= rnd b) by (intros; rewrite <- rnd_0; now apply rnd_le).
  assert (Na : a <= 0 -> rnd a <= 0) by (intros; rewrite <- rnd_0; now apply rnd_le).
  assert (Nb : b <= 0 -> rnd b <= 0) by (intros; rewrite <- rnd_0; now apply rnd_le).
  destruct (Rlt_bool_spec (Rabs (rnd a)) big) as [Ha|Ha], (Rlt_bool_spec (Rabs (rnd b)) big) as [Hb|Hb]; cbn.
  - exact M.
  - destruct Rle_dec; [easy|]. rewrite Rabs_left1 in Hb by (apply Nb; lra).
    rewrite Rabs_left1 in Ha by (apply Na; lra). lra.
  - destruct Rle_dec; [|easy]. rewrite Rabs_pos_eq in Ha, Hb by (try apply Pa; try apply Pb; lra). lra.
  - destruct (Rle_dec 0 a), (Rle_dec 0 b); try easy. lra.
Qed.
Lemma rx_nan : forall x, rx x = NaN <-> x = NaN.
Proof. intros [ | | |r]; cbn [rx]; split; try easy. destruct Rlt_bool; [|destruct Rle_dec]; easy. Qed.
Lemma rx_opp : forall x, rx (xopp x) = xopp (rx x).
Proof.
  intros [ | | |r]; cbn [rx xopp]; try easy. rewrite rnd_opp, Rabs_Ropp.
  destruct (Rlt_bool (Rabs (rnd r)) big) eqn:E; [reflexivity|]. apply over_nz in E.
  destruct (Rle_dec 0 r), (Rle_dec 0 (- r)); cbn; auto; lra.
Qed.
Lemma valB_0 : forall x : binary_float prec emax, valB x = Fin 0 -> exists s, x = B754_zero s.
Proof.
  intros [s|[]| |s m e H]; cbn [valB]; intros E; try discriminate; eauto. exfalso.
  injection E as E. cbn [B2R] in E. apply eq_0_F2R in E. destruct s; discriminate.
Qed.
Lemma xdiv_opp : forall x y, y <> Fin 0 -> xdiv (xopp x) y = xopp (xdiv x y).
Proof.
  intros [ | | |a] [ | | |b] H; cbn; auto; try (f_equal; lra).
  - destruct Rlt_dec; reflexivity.
  - destruct Rlt_dec; reflexivity.
  - destruct Req_EM_T; [congruence|]. cbn. f_equal. field. auto.
Qed.
Lemma val_div_opp : forall x y, val (fdiv (fopp x) y) = xopp (val (fdiv x y)).
Proof.
  intros x y. assert (D : val y = Fin 0 \/ val y <> Fin 0).
  { destruct (val y); auto; try (right; discriminate). destruct (Req_dec r 0) as [->|]; auto. right. congruence. }
  destruct D as [D|D].
  - unfold val in *. cbn [fdiv fopp FloatA]. rewrite !div_equiv, opp_equiv. apply valB_0 in D. destruct D as (s & ->).
    destruct (Prim2B x) as [[]|[]| |[] m e H], s; reflexivity.
  - rewrite !val_div, val_opp, <- rx_opp by auto. f_equal. now apply xdiv_opp.
Qed.
Lemma val_div_abs : forall x y, xle (Fin 0) (val x) -> val y = Fin 0 -> val (fdiv x (fabs y)) <> NaN -> val (fdiv x (fabs y)) = PInf.
Proof.
  intros x y P D. unfold val in *. cbn [fdiv fabs FloatA]. rewrite !div_equiv, abs_equiv. apply valB_0 in D. destruct D as (s & ->).
  destruct (Prim2B x) as [[]|[]| |[] m e H] eqn:E, s; try easy; cbn [valB xle B2R] in P; exfalso; 
    apply Rle_not_lt in P; apply P; apply F2R_lt_0; reflexivity.
Qed.
Lemma val_sqrt_rx : forall x, val (fsqrt x) = rx (xsqrt (val x)).
Proof.
  intros x. pose proof (val_sqrt x) as H. destruct (val x) eqn:E; auto. cbn [xsqrt]. destruct Rlt_dec; auto.
  apply repr_val in H as R. destruct R as [_ R]. rewrite H. cbn [rx]. now rewrite Rlt_bool_true.
Qed.
Lemma of_Z_mod : forall z, Uint63.of_Z z = Uint63.of_Z (z mod 2 ^ 63).
Proof. intros. apply to_Z_inj. rewrite !of_Z_spec. change wB with (2 ^ 63)%Z. rewrite Z.mod_mod; lia. Qed.
Lemma val_numZ : forall z, val (fofZ z) <> NaN.
Proof.
  intros z. cbn [fofZ FloatA]. destruct z; cbn [float_of_Z].
  - change 0%float with (fofZ (F := float) 0). rewrite val_small by lia. discriminate.
  - rewrite of_Z_mod, val_of_uint by (apply Z.mod_pos_bound; lia). discriminate.
  - rewrite opp_op, val_opp, of_Z_mod, val_of_uint by (apply Z.mod_pos_bound; lia). discriminate.
Qed.
Lemma val_oppZ : forall z, val (fofZ (- z)) = xopp (val (fofZ z)).
Proof.
  intros [|p|p]; cbn [fofZ FloatA Z.opp float_of_Z].
  - change 0%float with (fofZ (F := float) 0). rewrite val_small by lia. cbn. f_equal. lra.
  - now rewrite opp_op, val_opp.
  - rewrite opp_op, val_opp. destruct val; cbn; auto. f_equal. lra.
Qed.

(** ** 1/x does not underflow, 1/(1/z) does not overflow *)
Lemma repr_bpow : forall e, (-1074 <= e)%Z -> (e < 1024)%Z -> repr (bpow radix2 e).
Proof. intros e H1 H2. apply generic_format_bpow. unfold SpecFloat.fexp, SpecFloat.emin, prec, emax. lia. Qed.
Lemma rx_inv : forall x r, val x = Fin r -> 0 < r -> xlt (Fin 0) (rx (Fin (1 / r))).
Proof.
  intros x r H P. apply repr_val in H. destruct H as [_ H]. rewrite Rabs_pos_eq in H by lra.
  assert (B : bpow radix2 (- emax) <= 1 / r).
  { rewrite bpow_opp. unfold Rdiv. rewrite Rmult_1_l. apply Rinv_le_contravar; auto. left. exact H. }
  assert (Q : 0 < rnd (1 / r)).
  { apply Rlt_le_trans with (bpow radix2 (- emax)); [apply bpow_gt_0|].
    rewrite <- (rnd_id (bpow radix2 (- emax))) by (apply repr_bpow; cbn; lia). now apply rnd_le. }
  cbn [rx]. destruct Rlt_bool; [split; cbn; lra|]. destruct Rle_dec; [split; cbn; auto; lra|].
  exfalso. apply n. left. apply Rdiv_lt_0_compat; lra.
Qed.
Lemma val_fin : forall x, fin x <-> exists r, val x = Fin r.
Proof.
  intros. unfold fin, ffinite. rewrite val_nan, val_inf. destruct (val x) as [ | | |r]; cbn; split; try discriminate; try (intros (r & H); discriminate).
  - intros _. now exists r.
  - reflexivity.
Qed.
Lemma one_le : forall z, (0 < z)%Z -> 1 <= rnd (IZR z).
Proof. intros. rewrite <- (rnd_Z 1) by lia. apply rnd_le, IZR_le. lia. Qed.
Lemma val_inv_Z : forall z, (0 < z < 2 ^ 63)%Z -> val (fdiv (fofZ 1) (fofZ z)) = rx (Fin (1 / rnd (IZR z))).
Proof.
  intros z Hz. pose proof (one_le z (proj1 Hz)). rewrite val_div; rewrite !val_ofZ by lia.
  - rewrite rnd_Z by lia. cbn [xdiv]. destruct Req_EM_T; [lra|]. reflexivity.
  - intros E. injection E. lra.
Qed.
Lemma inc_le : forall x y q r, val x = Fin q -> val y = Fin r -> 0 <= q -> q <= r -> fin (fadd (fofZ 1) y) -> fin (fadd (fofZ 1) x).
Proof.
  intros x y q r Hx Hy P L E. apply val_fin in E. destruct E as (e & E). apply val_fin.
  rewrite val_add, (val_small 1), Hx by lia. rewrite val_add, (val_small 1), Hy in E by lia. cbn [xadd] in *.
  assert (U : xle (rx (Fin (1 + q))) (rx (Fin (1 + r)))) by (apply rx_mono; cbn; lra). rewrite E in U.
  assert (Z0 : xle (rx (Fin 0)) (rx (Fin (1 + q)))) by (apply rx_mono; cbn; lra).
  rewrite rx_0 in Z0. destruct (rx (Fin (1 + q))); try easy. eauto.
Qed.
Lemma inc : forall z, (0 < z < 2 ^ 63)%Z -> fin (fadd (fofZ 1) (fofZ (F := float) z)).
Proof.
  intros z Hz. pose proof (one_le z (proj1 Hz)). eapply inc_le with (y := fofZ (2 ^ 63 - 1)); try (apply val_ofZ; lia); try lra.
  - apply rnd_le, IZR_le. lia.
  - vm_compute. reflexivity.
Qed.
Lemma inv_inv : forall z, (0 < z < 2 ^ 63)%Z -> fin (fadd (fofZ 1) (fdiv (fofZ 1) (fdiv (fofZ 1) (fofZ z)))).
Proof.
  intros z Hz. set (M := (2 ^ 63 - 1)%Z).
  assert (E : fin (fadd (fofZ 1) (fdiv (fofZ (F := float) 1) (fdiv (fofZ 1) (fofZ M))))) by (vm_compute; reflexivity).
  assert (Q : forall t, (0 < t < 2 ^ 63)%Z -> exists q, val (fdiv (fofZ 1) (fofZ t)) = Fin q /\ 0 < q).
  { intros t Ht. pose proof (one_le t (proj1 Ht)) as H1. pose proof (rx_inv (fofZ t) _ (val_ofZ t ltac:(lia)) ltac:(lra)) as I.
    rewrite val_inv_Z by auto. assert (U : xle (rx (Fin (1 / rnd (IZR t)))) (Fin 1)).
    { replace (Fin 1) with (rx (val (fofZ 1))) by (rewrite rx_id; apply val_small; lia). apply rx_mono. rewrite val_small by lia. cbn.
      apply Rmult_le_reg_r with (rnd (IZR t)); [lra|]. unfold Rdiv. rewrite Rmult_assoc, Rinv_l; lra. }
    destruct (rx (Fin (1 / rnd (IZR t)))) as [ | | |q] eqn:X; try easy; try (now destruct I). exists q. split; auto.
    destruct I as [I1 I2]. cbn in *. lra. }
  destruct (Q z Hz) as (q & Eq & Pq). destruct (Q M ltac:(cbn; lia)) as (p & Ep & Pp).
  assert (L : p <= q).
  { assert (X : xle (Fin p) (Fin q)); [|exact X]. rewrite <- Ep, <- Eq, !val_inv_Z by (cbn; lia). apply rx_mono. cbn [xle].
    pose proof (one_le z (proj1 Hz)). unfold Rdiv. rewrite !Rmult_1_l. apply Rinv_le_contravar; [lra|]. apply rnd_le, IZR_le. cbn; lia. }
  assert (E' : fin (fdiv (fofZ (F := float) 1) (fdiv (fofZ 1) (fofZ M)))) by (vm_compute; reflexivity).
  apply val_fin in E'. destruct E' as (e & E').
  assert (Fq : exists f, val (fdiv (fofZ 1) (fdiv (fofZ 1) (fofZ z))) = Fin f /\ 0 <= f <= e).
  { rewrite val_div, (val_small 1) in E' by (try lia; rewrite Ep; intros X; injection X; lra).
    rewrite val_div, (val_small 1) by (try lia; rewrite Eq; intros X; injection X; lra).
    rewrite Ep in E'. rewrite Eq. cbn [xdiv] in *. destruct (Req_EM_T p 0); [lra|]. destruct (Req_EM_T q 0); [lra|].
    assert (U : xle (rx (Fin (1 / q))) (rx (Fin (1 / p)))).
    { apply rx_mono. cbn. unfold Rdiv. rewrite !Rmult_1_l. now apply Rinv_le_contravar. }
    rewrite E' in U. assert (Z0 : xle (rx (Fin 0)) (rx (Fin (1 / q)))).
    { apply rx_mono. cbn. left. now apply Rdiv_lt_0_compat; lra. }
    rewrite rx_0 in Z0. destruct (rx (Fin (1 / q))) as [ | | |f]; try easy. exists f. repeat split; auto. }
  destruct Fq as (f & Ef & F0 & F1). exact (inc_le _ _ f e Ef E' F0 F1 E).
Qed.

(** ** the midpoint of l <= h is not above h *)
Lemma repr_mult : forall a, repr a -> exists k, a = IZR k * bpow radix2 (-1074).
Proof.
  intros a H. change (generic_format radix2 (FLT_exp (3 - emax - prec) prec) a) in H.
  apply FLT_format_generic in H; [|reflexivity]. destruct H as [f E _ B]. destruct f as [m e]. cbn in B.
  exists (m * 2 ^ (e - -1074))%Z. rewrite mult_IZR. change 2%Z with (radix_val radix2). rewrite IZR_Zpower by lia.
  rewrite Rmult_assoc, <- bpow_plus. replace (e - -1074 + -1074)%Z with e by lia. exact E.
Qed.
Lemma half_le : forall a b, repr a -> repr b -> a <= b -> rnd (rnd (b - a) / 2) <= b - a.
Proof.
  intros a b Ha Hb L. destruct (Req_dec a b) as [->|N].
  { replace (b - b) with 0 by lra. rewrite rnd_0. replace (0 / 2) with 0 by lra. rewrite rnd_0. lra. }
  set (x := b - a). assert (X : bpow radix2 (-1074) <= x).
  { destruct (repr_mult a Ha) as (i & Ei), (repr_mult b Hb) as (j & Ej). unfold x. rewrite Ei, Ej.
    rewrite <- Rmult_minus_distr_r, <- minus_IZR. pose proof (bpow_gt_0 radix2 (-1074)) as P.
    assert (1 <= j - i)%Z.
    { assert (i < j)%Z; [|lia]. apply lt_IZR. apply Rmult_lt_reg_r with (bpow radix2 (-1074)); auto. lra. }
    apply IZR_le in H. nra. }
  set (y := round radix2 (SpecFloat.fexp prec emax) Zfloor x).
  assert (Fy : repr y) by (apply generic_format_round; auto with typeclass_instances).
  assert (Y : bpow radix2 (-1074) <= y).
  { unfold y. rewrite <- (round_generic radix2 (SpecFloat.fexp prec emax) Zfloor (bpow radix2 (-1074))) by (apply repr_bpow; lia).
    apply round_le; auto with typeclass_instances. }
  assert (Yx : y <= x) by (apply round_DN_pt; auto with typeclass_instances).
  pose proof (bpow_gt_0 radix2 (-1074)) as P.
  assert (U : Ulp.ulp radix2 (SpecFloat.fexp prec emax) y <= y) by (apply ulp_le_id; auto; lra).
  assert (D : rnd x <= 2 * y).
  { assert (S : x <= Ulp.succ radix2 (SpecFloat.fexp prec emax) y).
    { apply succ_round_ge_id; auto with typeclass_instances. }
    assert (E : Ulp.succ radix2 (SpecFloat.fexp prec emax) y = y + Ulp.ulp radix2 (SpecFloat.fexp prec emax) y) by (apply succ_eq_pos; lra).
    assert (Fs : repr (Ulp.succ radix2 (SpecFloat.fexp prec emax) y)) by (apply generic_format_succ; auto with typeclass_instances).
    apply Rle_trans with (rnd (Ulp.succ radix2 (SpecFloat.fexp prec emax) y)); [now apply rnd_le|].
    rewrite rnd_id by auto. lra. }
  apply Rle_trans with y; auto. rewrite <- (rnd_id y) by auto. apply rnd_le. lra.
Qed.
Lemma mid_not_above : forall l h : float, fle l h -> fin (fsub h l) -> fle (fadd (fdiv (fsub h l) (fofZ 2)) l) h.
Proof.
  intros l h L D. apply val_fin in D. destruct D as (d & D). unfold fle in *. rewrite val_leb in *. apply xleb_xle in L. apply xleb_xle.
  assert (X : exists a b, val l = Fin a /\ val h = Fin b).
  { rewrite val_sub in D. destruct (val l), (val h); try easy; eauto. }
  destruct X as (a & b & Ea & Eb). pose proof (repr_val _ _ Ea) as [Ra _]. pose proof (repr_val _ _ Eb) as [Rb _].
  rewrite val_add, val_div by (rewrite val_small by lia; intros E; injection E; lra).
  rewrite (val_small 2) by lia. rewrite val_sub in *. rewrite Ea, Eb in *. cbn [xle] in L. cbn [xsub xadd xopp] in *.
  assert (Ed : d = rnd (b - a)).
  { cbn [rx] in D. destruct Rlt_bool; [|destruct Rle_dec; discriminate]. now injection D. }
  rewrite D. cbn [xdiv]. destruct Req_EM_T; [lra|].
  pose proof (half_le a b Ra Rb L) as H. rewrite <- Ed in H.
  assert (P : 0 <= rnd (d / 2)).
  { rewrite <- rnd_0. apply rnd_le. assert (0 <= d); [|lra]. rewrite Ed, <- rnd_0. apply rnd_le. lra. }
  assert (E2 : rx (Fin (d / 2)) = Fin (rnd (d / 2))).
  { assert (U : xle (rx (Fin (d / 2))) (rx (Fin d))).
    { apply rx_mono. cbn. assert (0 <= d); [|lra]. rewrite Ed, <- rnd_0. apply rnd_le. lra. }
    replace (rx (Fin d)) with (Fin d) in U by (rewrite <- D; apply eq_sym; rewrite D; pose proof (rx_id (fsub h l)) as I; rewrite val_sub, Ea, Eb in I; cbn [xsub xadd xopp] in I; rewrite D in I; exact I).
    clear D. cbn [rx] in *. destruct Rlt_bool; auto. destruct Rle_dec; [destruct U|]. exfalso. apply n0.
    assert (0 <= d); [|lra]. rewrite Ed, <- rnd_0. apply rnd_le. lra. }
  rewrite E2. cbn [xadd].
  replace (Fin b) with (rx (Fin b)) by (rewrite <- Eb; apply rx_id). apply rx_mono. cbn. lra.
Qed.

#[export] Instance Float_round : RoundLaws float.
Proof.
  apply (laws_via val rx (fun z => rnd (IZR z))).
  - exact val_add. - exact val_sub. - exact val_mul. - exact val_div. - exact val_div_00. - exact val_div_abs.
  - exact val_div_opp. - exact val_sqrt_rx. - exact val_opp. - exact val_abs. - exact val_nan. - exact val_inf.
  - exact val_leb. - exact val_ltb. - exact val_eqb. - exact val_ofZ. - exact val_oppZ. - exact val_numZ.
  - intros a b H. now apply rnd_le, IZR_le.
  - exact rnd_Z.
  - exact rx_id.
  - exact rx_nan.
  - exact rx_mono.
  - exact rx_inv.
  - exact inv_inv.
  - exact inc.
  - exact mid_not_above.
Qed.
