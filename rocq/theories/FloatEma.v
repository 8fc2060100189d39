(** * FloatEma: the binary64 exponential average stays close to the exact one. *)
From Flocq Require Import Core PrimFloat Relative.
From Coq Require Import Reals Lra Floats Uint63 SpecFloat.
From Flocq Require Import BinarySingleNaN.
From Verif Require Import Lists Arith FloatArith FloatReal Order FloatOrder Api FloatPct EmaError.
Local Open Scope R_scope.
#[local] Existing Instance Hprec.
#[local] Existing Instance Hmax.
#[local] Existing Instance fexp_ok.

Definition u : R := / 9007199254740992.
Definition eta : R := bpow radix2 (-1075).
Lemma eta_pos : 0 <= eta. Proof. apply bpow_ge_0. Qed.
Lemma rnd_err : forall x, Rabs (rnd x - x) <= u * Rabs x + eta.
Proof.
  intros x. destruct (error_N_FLT radix2 (3 - emax - prec) prec ltac:(reflexivity) (fun x => negb (Z.even x)) x) as (e & t & He & Ht & _ & E).
  change (rnd x = x * (1 + e) + t) in E. rewrite E.
  replace (/ 2 * bpow radix2 (- prec + 1)) with u in He by (unfold u; cbn; lra).
  replace (/ 2 * bpow radix2 (3 - emax - prec)) with eta in Ht.
  2:{ unfold eta. change (3 - emax - prec)%Z with (-1074)%Z. change (-1075)%Z with (-1074 + -1)%Z. rewrite bpow_plus.
      change (bpow radix2 (-1)) with (/ 2). lra. }
  replace (x * (1 + e) + t - x) with (x * e + t) by ring.
  eapply Rle_trans; [apply Rabs_triang|]. rewrite Rabs_mult. pose proof (Rabs_pos x). nra.
Qed.

(** within e of the exact value; missing exactly where the exact value is *)
Definition near (e : R) (x : float) (y : xr) : Prop :=
  match y with NaN => val x = NaN | Fin r => exists q, val x = Fin q /\ Rabs (q - r) <= e | _ => False end.

Lemma val_fnan : val fnan = NaN. Proof. rewrite val_SF. vm_compute. reflexivity. Qed.

Section Track.
Variables (alpha : float) (al n o M : R).
Hypothesis M1 : bpow radix2 (-900) <= M.
Hypothesis M2 : M <= bpow radix2 1000.
Hypothesis Va : val alpha = Fin n.
Hypothesis Vo : val (fsub (fofZ 1) alpha) = Fin o.
Hypothesis Ho : o = rnd (1 - n).
Hypothesis n01 : 0 <= n <= 1.
Hypothesis o01 : 0 <= o <= 1.
Hypothesis al01 : 0 < al <= 1.
Hypothesis nal : Rabs (n - al) <= u * al + eta.
Hypothesis small : 16 * u / al <= / 10.

Let B := 16 * u * M / al.
Lemma M_pos : 0 < M. Proof. pose proof (bpow_gt_0 radix2 (-900)). lra. Qed.
Lemma etaM : eta <= u * M / 1000.
Proof.
  apply Rle_trans with (u * bpow radix2 (-900) / 1000); [|pose proof (M_pos); unfold u; lra].
  unfold eta. change (-1075)%Z with (-900 + -175)%Z. rewrite bpow_plus. pose proof (bpow_gt_0 radix2 (-900)) as P.
  assert (Q : bpow radix2 (-175) <= bpow radix2 (-63)) by (apply bpow_le; lia).
  assert (Q' : bpow radix2 (-63) <= u / 1000) by (unfold u; cbn; lra). nra.
Qed.
Lemma eta1 : eta <= u / 1000.
Proof.
  apply Rle_trans with (bpow radix2 (-63)); [apply bpow_le; lia|]. unfold u; cbn; lra.
Qed.
Lemma BM : B <= M / 10.
Proof.
  unfold B. replace (16 * u * M / al) with (M * (16 * u / al)) by (field; lra). pose proof M_pos. nra.
Qed.
Lemma rx_M : forall r, Rabs r <= 4 * M -> rx (Fin r) = Fin (rnd r).
Proof.
  intros r H. apply rx_small. apply Rle_trans with (1 := H). apply Rle_trans with (4 * bpow radix2 1000); [lra|].
  replace 4 with (bpow radix2 2) by (cbn; lra). rewrite <- bpow_plus. apply bpow_le. lia.
Qed.
Lemma rnd_M : forall r X, Rabs r <= X -> 0 <= X -> X <= 3 * M -> Rabs (rnd r) <= X + M / 100.
Proof.
  intros r X H X0 H3. replace (rnd r) with (rnd r - r + r) by ring. eapply Rle_trans; [apply Rabs_triang|].
  pose proof (rnd_err r) as E. pose proof etaM. pose proof M_pos. unfold u in *. lra.
Qed.

(** one step, on values *)
Lemma val_step : forall avg cur a c, val avg = Fin a -> val cur = Fin c -> Rabs a <= 11 / 10 * M -> Rabs c <= M ->
  exists t, val (fdiv (fadd (fmul (fmul (fofZ 1) (fsub (fofZ 1) alpha)) avg) (fmul alpha cur)) (fadd (fmul (fofZ 1) (fsub (fofZ 1) alpha)) alpha)) = Fin t /\
            Rabs (t - ((1 - al) * a + al * c)) <= 16 * u * M.
Proof.
  intros avg cur a c Ea Ec Ha Hc. pose proof M_pos as Mp.
  set (ow := fmul (fofZ 1) (fsub (fofZ 1) alpha)).
  assert (Vw : val ow = Fin o).
  { unfold ow. rewrite val_mul, (val_small 1), Vo by lia. cbn [xmul]. rewrite Rmult_1_l.
    pose proof (rx_id (fsub (fofZ 1) alpha)) as I. rewrite Vo in I. exact I. }
  set (D := rnd (o + n)).
  assert (W : Rabs (o - (1 - al)) <= u + u * al + 3 * eta /\ Rabs (D - 1) <= 21 / 10 * u /\ o + n <= 1 + 11 / 10 * u).
  { eapply (weights rnd u eta) with (M := M); auto using rnd_err, eta_pos, etaM, eta1; try reflexivity; apply n01 || apply o01. }
  destruct W as (_ & HD & _).
  apply abs_le_both in HD. assert (D0 : 99 / 100 <= D) by (unfold u in HD; lra).
  assert (VD : val (fadd ow alpha) = Fin D).
  { rewrite val_add, Vw, Va. cbn [xadd]. apply rx_small. rewrite Rabs_pos_eq by lra. apply Rle_trans with (bpow radix2 1); [cbn; lra|]. apply bpow_le; lia. }
  assert (Boa : Rabs (o * a) <= 11 / 10 * M).
  { rewrite <- (Rmult_1_l (11 / 10 * M)). apply abs_prod; auto. rewrite Rabs_pos_eq; lra. }
  assert (Bnc : Rabs (n * c) <= M).
  { rewrite <- (Rmult_1_l M). apply abs_prod; auto. rewrite Rabs_pos_eq; lra. }
  assert (Vp : val (fmul ow avg) = Fin (rnd (o * a))) by (rewrite val_mul, Vw, Ea; cbn [xmul]; apply rx_M; lra).
  assert (Vq : val (fmul alpha cur) = Fin (rnd (n * c))) by (rewrite val_mul, Va, Ec; cbn [xmul]; apply rx_M; lra).
  pose proof (rnd_M _ _ Boa ltac:(lra) ltac:(lra)) as Rp. pose proof (rnd_M _ _ Bnc ltac:(lra) ltac:(lra)) as Rq.
  assert (Rs : Rabs (rnd (o * a) + rnd (n * c)) <= 23 / 10 * M) by (eapply Rle_trans; [apply Rabs_triang|lra]).
  assert (Vs : val (fadd (fmul ow avg) (fmul alpha cur)) = Fin (rnd (rnd (o * a) + rnd (n * c)))).
  { rewrite val_add, Vp, Vq. cbn [xadd]. apply rx_M. lra. }
  pose proof (rnd_M _ _ Rs ltac:(lra) ltac:(lra)) as Rs'.
  exists (rnd (rnd (rnd (o * a) + rnd (n * c)) / D)). split.
  - rewrite val_div, Vs, VD by (rewrite VD; intros E; injection E; lra). cbn [xdiv]. destruct Req_EM_T; [lra|].
    apply rx_M. unfold Rdiv. rewrite Rabs_mult. assert (I : 0 < / D) by (apply Rinv_0_lt_compat; lra).
    rewrite (Rabs_pos_eq (/ D)) by lra. apply Rmult_le_reg_r with D; [lra|]. rewrite Rmult_assoc, Rinv_l by lra. nra.
  - apply ema_step_error with (eta := eta); auto using rnd_err, eta_pos, etaM, eta1; try reflexivity; apply n01 || apply o01.
Qed.

(** the whole series; x the state of the exact average *)
Lemma track : forall m s k avg a x, Forall (fun y => exists c, val y = Fin c /\ Rabs c <= M) s ->
  val avg = Fin a -> Rabs x <= M -> Rabs (a - x) <= B ->
  Forall2 (near B) (ewm_go alpha m k avg (fofZ 1) s) (ewm_go (Fin al) m k (Fin x) (Fin 1) (map val s)).
Proof.
  intros m s. induction s as [|cur s IH]; intros k avg a x H Va' Bx Bd; [constructor|].
  destruct (Forall_inv H) as (c & Vc & Bc). pose proof (Forall_inv_tail H) as Hs. cbn [ewm_go map].
  assert (N1 : fisnan cur = false) by (rewrite val_nan, Vc; reflexivity).
  assert (N2 : fisnan avg = false) by (rewrite val_nan, Va'; reflexivity).
  rewrite N1, N2, Vc. cbn [fisnan XR xisnan negb feqb].
  assert (Ba : Rabs a <= 11 / 10 * M).
  { replace a with (a - x + x) by ring. eapply Rle_trans; [apply Rabs_triang|]. pose proof BM. lra. }
  assert (X : (if xeqb (Fin x) (Fin c) then Fin x
               else xdiv (xadd (xmul (xmul (Fin 1) (xsub (Fin 1) (Fin al))) (Fin x)) (xmul (Fin al) (Fin c)))
                         (xadd (xmul (Fin 1) (xsub (Fin 1) (Fin al))) (Fin al))) = Fin ((1 - al) * x + al * c)).
  { cbn [xeqb xdiv xadd xmul xsub xopp]. destruct (Req_EM_T x c) as [->|_]; [f_equal; ring|].
    replace (1 * (1 + - al) + al) with 1 by ring. destruct Req_EM_T; [lra|]. f_equal. field. }
  assert (Bx' : Rabs ((1 - al) * x + al * c) <= M).
  { eapply Rle_trans; [apply Rabs_triang|]. rewrite !Rabs_mult, (Rabs_pos_eq (1 - al)), (Rabs_pos_eq al) by lra.
    pose proof M_pos. nra. }
  assert (S : exists t, val (if feqb avg cur then avg else fdiv (fadd (fmul (fmul (fofZ 1) (fsub (fofZ 1) alpha)) avg) (fmul alpha cur)) (fadd (fmul (fofZ 1) (fsub (fofZ 1) alpha)) alpha)) = Fin t /\
                        Rabs (t - ((1 - al) * a + al * c)) <= 16 * u * M).
  { destruct (feqb avg cur) eqn:Q.
    - exists a. split; auto. rewrite val_eqb, Va', Vc in Q. cbn in Q. destruct Req_EM_T as [->|]; [|discriminate].
      replace (c - ((1 - al) * c + al * c)) with 0 by ring. rewrite Rabs_R0. unfold u. pose proof M_pos. lra.
    - now apply val_step. }
  destruct S as (t & Vt & Et).
  assert (Bt : Rabs (t - ((1 - al) * x + al * c)) <= B).
  { replace (t - ((1 - al) * x + al * c)) with ((t - ((1 - al) * a + al * c)) + (1 - al) * (a - x)) by ring.
    eapply Rle_trans; [apply Rabs_triang|]. rewrite Rabs_mult, (Rabs_pos_eq (1 - al)) by lra.
    assert (P : (1 - al) * Rabs (a - x) <= (1 - al) * B) by (apply Rmult_le_compat_l; lra).
    replace ((1 - al) * B) with (B - 16 * u * M) in P by (unfold B; field; lra). lra. }
  cbn [fofZ XR] in *. cbn [fadd fsub fmul fdiv XR] in *. rewrite X.
  constructor; [|now apply IH with (a := t)].
  destruct (_ <=? _)%nat; [cbn; eauto|]. exact val_fnan.
Qed.
End Track.

(** ** the weights of ewm(span=w) *)
Lemma repr_half : forall k, (Z.abs k <= 2 ^ 53)%Z -> repr (IZR k / 2).
Proof.
  intros k H. destruct (Z.eq_dec (Z.abs k) (2 ^ 53)) as [E|E].
  - assert (K : k = (2 ^ 53)%Z \/ k = (- 2 ^ 53)%Z) by lia.
    assert (P : IZR (2 ^ 53) / 2 = bpow radix2 52) by (cbn; lra).
    destruct K as [-> | ->].
    + rewrite P. apply repr_bpow; lia.
    + replace (IZR (- 2 ^ 53) / 2) with (- bpow radix2 52) by (rewrite opp_IZR; lra). apply generic_format_opp. apply repr_bpow; lia.
  - change (generic_format radix2 (FLT_exp (3 - emax - prec) prec) (IZR k / 2)). apply generic_format_FLT.
    exists (Float radix2 k (-1)); [unfold F2R; cbn; lra| |cbn; lia]. cbn [Fnum]. change (radix2 ^ prec)%Z with (2 ^ 53)%Z. lia.
Qed.
Lemma rnd_01 : forall r, 0 <= r <= 1 -> 0 <= rnd r <= 1.
Proof.
  intros r H. split; [rewrite <- rnd_0|rewrite <- (rnd_Z 1) by lia]; apply rnd_le; lra.
Qed.
Definition span_alphaF (w : Z) : float := fdiv (fofZ 1) (fadd (fofZ 1) (fdiv (fsub (fofZ w) (fofZ 1)) (fofZ 2))).
Lemma span_weight : forall w, (1 <= w)%Z -> (w + 1 <= 2 ^ 53)%Z -> val (span_alphaF w) = Fin (rnd (2 / (IZR w + 1))).
Proof.
  intros w H1 H2. assert (P1 : 1 <= IZR w) by (apply IZR_le; lia). unfold span_alphaF.
  assert (Big : IZR w + 1 <= bpow radix2 53) by (rewrite <- plus_IZR; change (bpow radix2 53) with (IZR (2 ^ 53)); now apply IZR_le).
  assert (Le : bpow radix2 53 <= bpow radix2 1020) by (apply bpow_le; lia).
  assert (V1 : val (fsub (fofZ w) (fofZ 1)) = Fin (IZR (w - 1))).
  { rewrite val_sub, (val_small w), (val_small 1) by lia. unfold xsub. cbn [xadd xopp]. replace (IZR w + - (1)) with (IZR (w - 1)) by (rewrite minus_IZR; lra).
    rewrite rx_small by (rewrite <- abs_IZR; apply Rle_trans with (bpow radix2 53); auto; change (bpow radix2 53) with (IZR (2 ^ 53)); apply IZR_le; lia).
    f_equal. apply rnd_Z. lia. }
  assert (V2 : val (fdiv (fsub (fofZ w) (fofZ 1)) (fofZ 2)) = Fin (IZR (w - 1) / 2)).
  { rewrite val_div, V1, (val_small 2) by (try lia; rewrite val_small by lia; intros E; injection E; lra).
    cbn [xdiv]. destruct Req_EM_T; [lra|]. rewrite rx_small.
    - f_equal. apply rnd_id, repr_half. lia.
    - rewrite minus_IZR. rewrite Rabs_pos_eq by lra. lra. }
  assert (V3 : val (fadd (fofZ 1) (fdiv (fsub (fofZ w) (fofZ 1)) (fofZ 2))) = Fin (IZR (w + 1) / 2)).
  { rewrite val_add, V2, (val_small 1) by lia. cbn [xadd]. replace (1 + IZR (w - 1) / 2) with (IZR (w + 1) / 2) by (rewrite minus_IZR, plus_IZR; lra).
    rewrite rx_small.
    - f_equal. apply rnd_id, repr_half. lia.
    - rewrite plus_IZR. rewrite Rabs_pos_eq by lra. lra. }
  rewrite plus_IZR in V3.
  rewrite val_div, V3, (val_small 1) by (try lia; rewrite V3; intros E; injection E; lra).
  cbn [xdiv]. destruct Req_EM_T; [lra|]. replace (1 / ((IZR w + 1) / 2)) with (2 / (IZR w + 1)) by (field; lra).
  apply rx_small. rewrite Rabs_pos_eq by (apply Rlt_le, Rdiv_lt_0_compat; lra).
  apply Rle_trans with 1; [|apply Rle_trans with (bpow radix2 0); [cbn; lra|apply bpow_le; lia]].
  apply Rmult_le_reg_r with (IZR w + 1); [lra|]. unfold Rdiv. rewrite Rmult_assoc, Rinv_l by lra. lra.
Qed.

Definition ebound (w : Z) (M : R) : R := (IZR w + 1) * M / 1125899906842624.
Section Span.
Variables (w : Z) (M : R).
Hypothesis w1 : (1 <= w)%Z.
Hypothesis w2 : (100 * w <= 2 ^ 53)%Z.
Hypothesis M1 : bpow radix2 (-900) <= M.
Hypothesis M2 : M <= bpow radix2 1000.
Let al := 2 / (IZR w + 1).
Lemma wR : 1 <= IZR w /\ 100 * IZR w <= 9007199254740992.
Proof.
  split; [apply IZR_le; lia|]. rewrite <- mult_IZR. apply IZR_le. lia.
Qed.
Lemma al01 : 0 < al <= 1.
Proof.
  destruct wR. unfold al. split; [apply Rdiv_lt_0_compat; lra|].
  apply Rmult_le_reg_r with (IZR w + 1); [lra|]. unfold Rdiv. rewrite Rmult_assoc, Rinv_l by lra. lra.
Qed.
Lemma xr_alpha : xdiv (Fin 1) (xadd (Fin 1) (xdiv (xsub (Fin (IZR w)) (Fin 1)) (Fin 2))) = Fin al.
Proof.
  destruct wR. unfold xsub. cbn [xdiv xadd xopp]. destruct Req_EM_T; [lra|]. cbn [xadd xdiv].
  destruct Req_EM_T; [lra|]. f_equal. unfold al. field. lra.
Qed.
Definition okval (y : float) : Prop := exists c, val y = Fin c /\ Rabs c <= M.
Lemma track_span : forall m s k avg c, Forall okval s -> val avg = Fin c -> Rabs c <= M ->
  Forall2 (near (ebound w M)) (ewm_go (span_alphaF w) m k avg (fofZ 1) s) (ewm_go (Fin al) m k (Fin c) (Fin 1) (map val s)).
Proof.
  intros m s k avg c H V Bc. destruct wR as [W1 W2]. pose proof al01 as A1.
  assert (EB : ebound w M = 16 * u * M / al) by (unfold ebound, al, u; field; lra). rewrite EB.
  pose proof (span_weight w w1 ltac:(lia)) as Vn. fold al in Vn. set (n := rnd al) in *.
  assert (N01 : 0 <= n <= 1) by (apply rnd_01; lra).
  assert (Vo : val (fsub (fofZ 1) (span_alphaF w)) = Fin (rnd (1 - n))).
  { rewrite val_sub, Vn, (val_small 1) by lia. unfold xsub. cbn [xadd xopp]. apply rx_small.
    apply Rle_trans with 1; [apply Rabs_le; lra|]. apply Rle_trans with (bpow radix2 0); [cbn; lra|apply bpow_le; lia]. }
  assert (Nal : Rabs (n - al) <= u * al + eta).
  { pose proof (rnd_err al) as E. rewrite (Rabs_pos_eq al) in E by lra. exact E. }
  assert (Sm : 16 * u / al <= / 10).
  { replace (16 * u / al) with (8 * u * (IZR w + 1)) by (unfold al; field; lra). unfold u. lra. }
  eapply track with (n := n) (o := rnd (1 - n)) (a := c); auto.
  - apply rnd_01. lra.
  - replace (c - c) with 0 by ring. rewrite Rabs_R0. rewrite <- EB. unfold ebound. pose proof (bpow_gt_0 radix2 (-900)). nra.
Qed.
Lemma near_nan : forall e, near e fnan NaN.
Proof. intros. exact val_fnan. Qed.
(** a series that is missing on its first j rows, then present *)
Lemma ewm_track : forall m j k s, Forall okval s ->
  Forall2 (near (ebound w M)) (ewm_go (span_alphaF w) m k fnan (fofZ 1) (repeat fnan j ++ s)) (ewm_go (Fin al) m k NaN (Fin 1) (map val (repeat fnan j ++ s))).
Proof.
  intros m j k s H. revert k. induction j as [|j IH]; intros k; cbn [repeat app].
  - destruct s as [|c s]; [constructor|]. destruct (Forall_inv H) as (r & V & B). pose proof (Forall_inv_tail H) as Hs.
    cbn [ewm_go map]. assert (N : fisnan c = false) by (rewrite val_nan, V; reflexivity). rewrite N, V. 
    replace (fisnan (fnan : float)) with true by (vm_compute; reflexivity). cbn [fisnan XR xisnan negb].
    constructor; [|now apply track_span].
    destruct (_ <=? _)%nat; [|apply near_nan]. cbn. exists r. split; auto. replace (r - r) with 0 by ring. rewrite Rabs_R0.
    unfold ebound. pose proof (bpow_gt_0 radix2 (-900)). destruct wR. nra.
  - cbn [ewm_go map]. replace (fisnan (fnan : float)) with true by (vm_compute; reflexivity). rewrite val_fnan. cbn [fisnan XR xisnan negb].
    constructor; [|apply IH]. destruct (_ <=? _)%nat; apply near_nan.
Qed.
End Span.
