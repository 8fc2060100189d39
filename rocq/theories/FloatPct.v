(** * FloatPct: how far a rounded percentage can pass 100.

    100 * a / b with 0 <= a <= b in binary64 is at most the float next to 100. *)
From Flocq Require Import Core PrimFloat Relative.
From Coq Require Import Reals Lra Floats Uint63 SpecFloat.
From Flocq Require Import BinarySingleNaN.
From Verif Require Import Lists Arith FloatArith FloatReal Order FloatOrder Api Align Rounded RoundedInd RoundedAdx RoundedBands.
Local Open Scope R_scope.
#[local] Existing Instance Hprec.
#[local] Existing Instance Hmax.
#[local] Existing Instance fexp_ok.

Definition valSF (x : spec_float) : xr :=
  match x with S754_nan => NaN | S754_infinity s => if s then NInf else PInf | _ => Fin (SF2R radix2 x) end.
Lemma val_SF : forall x, val x = valSF (Prim2SF x).
Proof.
  intros x. unfold val. rewrite <- B2SF_Prim2B. destruct (Prim2B x) as [ | | | ]; reflexivity.
Qed.

Definition next100 : float := 0x1.9000000000001p+6%float.
Definition huge : float := 0x1p1000%float.
Lemma val_next100 : val next100 = Fin (100 + / 70368744177664).
Proof.
  rewrite val_SF. replace (Prim2SF next100) with (S754_finite false 7036874417766401 (-46)) by (vm_compute; reflexivity).
  cbn [valSF SF2R cond_Zopp]. unfold F2R. cbn. f_equal. lra.
Qed.
Lemma val_huge : val huge = Fin (bpow radix2 1000).
Proof.
  rewrite val_SF. replace (Prim2SF huge) with (S754_finite false 4503599627370496 948) by (vm_compute; reflexivity).
  cbn [valSF SF2R cond_Zopp]. unfold F2R. cbn [Fnum Fexp]. f_equal. change (4503599627370496%Z) with (Zpower radix2 52).
  rewrite IZR_Zpower by lia. rewrite <- bpow_plus. reflexivity.
Qed.

Lemma rnd_mul_Z : forall b z, repr b -> 0 < b -> (0 < z)%Z -> rnd (IZR z * b) <= IZR z * b * (1 + / 9007199254740992).
Proof.
  intros b z Rb Pb Hz. apply IZR_lt in Hz. assert (P : 0 < IZR z * b) by nra.
  destruct (Rle_lt_dec (bpow radix2 (-1022)) (IZR z * b)) as [L|L].
  - pose proof (relative_error_N_FLT radix2 (3 - emax - prec) prec ltac:(reflexivity) (fun x => negb (Z.even x)) (IZR z * b)) as E.
    rewrite Rabs_pos_eq in E by lra. specialize (E L).
    change (Rabs (rnd (IZR z * b) - IZR z * b) <= / 2 * bpow radix2 (- prec + 1) * (IZR z * b)) in E.
    apply Rabs_le_inv in E. replace (/ 2 * bpow radix2 (- prec + 1)) with (/ 9007199254740992) in E by (cbn; lra). lra.
  - rewrite rnd_id; [nra|]. destruct (repr_mult b Rb) as (k & E). rewrite E, <- Rmult_assoc, <- mult_IZR in *.
    change (generic_format radix2 (FLT_exp (3 - emax - prec) prec) (IZR (z * k) * bpow radix2 (-1074))).
    apply generic_format_FLT. exists (Float radix2 (z * k) (-1074)); [reflexivity| |cbn; lia].
    cbn [Fnum]. apply lt_IZR. rewrite abs_IZR. pose proof (bpow_gt_0 radix2 (-1074)) as B.
    rewrite Rabs_pos_eq by (apply Rmult_le_reg_r with (bpow radix2 (-1074)); lra).
    apply Rmult_lt_reg_r with (bpow radix2 (-1074)); auto. apply Rlt_le_trans with (1 := L).
    change (radix2 ^ prec)%Z with (Zpower radix2 53). rewrite IZR_Zpower by lia. rewrite <- bpow_plus. apply bpow_le. lia.
Qed.

Lemma rx_eq : forall r s, rx (Fin r) = Fin s -> s = rnd r.
Proof. intros r s H. cbn [rx] in H. destruct Rlt_bool; [|destruct Rle_dec; discriminate]. now injection H. Qed.
Lemma rx_small : forall r, Rabs r <= bpow radix2 1020 -> rx (Fin r) = Fin (rnd r).
Proof.
  intros r H. cbn [rx]. rewrite Rlt_bool_true; auto. apply Rle_lt_trans with (bpow radix2 1020); [|apply bpow_lt; reflexivity].
  unfold rnd at 1. cbn [round_mode]. rewrite <- round_NE_abs by auto with typeclass_instances. fold (rnd (Rabs r)). change (rnd (Rabs r) <= bpow radix2 1020). rewrite <- (rnd_id (bpow radix2 1020)) by (apply repr_bpow; lia). now apply rnd_le.
Qed.

Open Scope f_scope.
Lemma pct_self : forall b : float, flt (#0) b -> fle b (huge +. huge) -> fin (#100 **. b) /\ fle ((#100 **. b) /. b) next100.
Proof.
  intros b P L. assert (Vh : val (huge +. huge) = Fin (bpow radix2 1001)).
  { rewrite val_add, val_huge. cbn [xadd]. replace (bpow radix2 1000 + bpow radix2 1000)%R with (bpow radix2 1001).
    - rewrite rx_small by (rewrite Rabs_pos_eq by apply bpow_ge_0; apply bpow_le; lia). f_equal. apply rnd_id, repr_bpow; lia.
    - change 1001%Z with (1000 + 1)%Z. rewrite bpow_plus. replace (bpow radix2 1) with 2%R by reflexivity. generalize (bpow radix2 1000). intros. ring. }
  assert (X : exists r, val b = Fin r /\ (0 < r)%R /\ (r <= bpow radix2 1001)%R).
  { unfold flt, fle in *. rewrite val_leb in L. rewrite val_ltb in P. rewrite Vh in L. rewrite (val_small 0) in P by lia.
    apply xleb_xle in L. apply xltb_xlt in P. destruct P as [P1 P2].
    destruct (val b) as [ | | |r]; try easy. exists r. cbn in L, P1, P2. repeat split; auto. lra. }
  destruct X as (r & V & Pr & Lr). destruct (repr_val _ _ V) as [Rr _].
  assert (M : val (#100 **. b) = Fin (rnd (100 * r))).
  { rewrite val_mul, (val_small 100), V by lia. cbn [xmul]. apply rx_small.
    rewrite Rabs_pos_eq by lra. apply Rle_trans with (128 * bpow radix2 1001)%R; [lra|].
    change 128%R with (bpow radix2 7). rewrite <- bpow_plus. apply bpow_le. lia. }
  split; [apply val_fin; eauto|].
  unfold fle. rewrite val_leb. apply xleb_xle. rewrite val_div by (rewrite V; intros E; injection E; lra).
  rewrite M, V. cbn [xdiv]. destruct Req_EM_T; [lra|].
  rewrite <- (rx_id next100). rewrite val_next100. apply rx_mono. cbn [xle].
  pose proof (rnd_mul_Z r 100 Rr Pr ltac:(lia)) as E.
  apply Rmult_le_reg_r with r; auto. unfold Rdiv. rewrite Rmult_assoc, Rinv_l by lra. lra.
Qed.
Lemma pct_next : forall a b : float, fle (#0) a -> fle a b -> flt (#0) b -> fle b (huge +. huge) ->
  fle (#0) ((#100 **. a) /. b) /\ fle ((#100 **. a) /. b) next100.
Proof.
  intros a b P L Pb H. destruct (pct_self b Pb H) as [Fm Hs].
  assert (Hh : fin (huge +. huge)) by (vm_compute; reflexivity).
  assert (Fb : fin b) by (apply (pos_fin b (huge +. huge)); auto; now apply lt_le).
  assert (Fa : fin a) by (apply (pos_fin a b); auto).
  assert (F100 : fin (#100 : float)) by (vm_compute; reflexivity).
  assert (N1 : Order.num (#100 **. a)) by now apply mul_fin.
  assert (M0 : fle (#0) (#100 **. a)) by (apply mul_pos; auto; vm_compute; reflexivity).
  assert (M1 : fle (#100 **. a) (#100 **. b)).
  { apply mul_mono2; auto; try (vm_compute; reflexivity). now apply fin_num. }
  assert (Fma : fin (#100 **. a)) by (apply (pos_fin _ (#100 **. b)); auto).
  split; [apply div_pos; auto; now apply div_fin|].
  eapply fle_trans; [|exact Hs]. apply div_mono; auto; now apply div_fin.
Qed.
Lemma pct_neg : forall a b : float, fin a -> flt (#0) b -> val ((#(-100) **. a) /. b) = xopp (val ((#100 **. a) /. b)).
Proof.
  intros a b Fa Pb. apply val_fin in Fa. destruct Fa as (r & V).
  assert (E : val (#(-100) **. a) = val (fopp (#100 **. a))).
  { rewrite val_opp, !val_mul, (val_small (-100)), (val_small 100), V, <- rx_opp by lia. cbn [xmul xopp]. do 2 f_equal. lra. }
  rewrite <- val_div_opp. rewrite !val_div, E; auto.
  all: unfold flt in Pb; rewrite val_ltb, (val_small 0) in Pb by lia; apply xltb_xlt in Pb; destruct Pb as [_ Pb]; intros H; apply Pb; rewrite H; cbn; lra.
Qed.
(** the position of x between lo and hi, as the stochastic and Williams %R write it *)
Definition sane (lo x hi : float) : Prop := fle (fopp huge) lo /\ fle lo x /\ fle x hi /\ fle hi huge.
Lemma span_ok : forall lo x hi, sane lo x hi -> fin lo /\ fin x /\ fin hi /\ fle (#0) (x -. lo) /\ fle (#0) (hi -. x) /\
  fle (x -. lo) (hi -. lo) /\ fle (hi -. x) (hi -. lo) /\ fle (hi -. lo) (huge +. huge).
Proof.
  intros lo x hi (H1 & H2 & H3 & H4). assert (Fm : fin (fopp huge)) by (vm_compute; reflexivity). assert (Fh : fin huge) by (vm_compute; reflexivity).
  assert (Fx : fin x) by (apply (fin_between _ _ _ (fle_trans _ _ _ H1 H2) (fle_trans _ _ _ H3 H4)); auto).
  assert (Fl : fin lo) by (apply (fin_between _ _ _ H1 H2); auto). assert (Fi : fin hi) by (apply (fin_between _ _ _ H3 H4); auto).
  pose proof (sub_fin x lo Fx Fl). pose proof (sub_fin hi x Fi Fx). pose proof (sub_fin hi lo Fi Fl).
  pose proof (fle_refl _ (fin_num _ Fx)). pose proof (fle_refl _ (fin_num _ Fl)). pose proof (fle_refl _ (fin_num _ Fi)).
  repeat split; auto; try (now apply sub_pos); try (now apply sub_mono).
  apply fle_trans with (huge -. fopp huge); [apply sub_mono; auto; apply sub_fin; auto|]. vm_compute. reflexivity.
Qed.
Lemma stoch_pos : forall lo x hi, sane lo x hi -> bet (#0) next100 ((#100 **. (x -. lo)) /. (hi -. lo)).
Proof.
  intros lo x hi S N. destruct (span_ok _ _ _ S) as (F1 & F2 & F3 & P1 & P2 & L1 & L2 & L3).
  destruct (fltb (#0) (hi -. lo)) eqn:D; [now apply pct_next|]. exfalso.
  assert (Z : fle (hi -. lo) (#0)) by (apply not_lt; auto; [vm_compute; reflexivity|now apply sub_fin]).
  assert (N1 : Order.num (#100 **. (x -. lo))) by (nan; auto).
  unfold Order.num in N. rewrite div_00 in N; [discriminate| |split; auto; now apply fle_trans with (x -. lo)].
  split; [|apply mul_pos; auto; vm_compute; reflexivity].
  apply fle_trans with (#100 **. (#0 : float)); [|vm_compute; reflexivity].
  apply mul_mono2; auto; try (vm_compute; reflexivity). now apply fle_trans with (hi -. lo).
Qed.
Lemma will_pos : forall lo x hi, sane lo x hi -> bet (fopp next100) (#0) ((#(-100) **. (hi -. x)) /. (hi -. lo)).
Proof.
  intros lo x hi S N. destruct (span_ok _ _ _ S) as (F1 & F2 & F3 & P1 & P2 & L1 & L2 & L3).
  assert (Fd : fin (hi -. x)).
  { apply (pos_fin _ (huge +. huge)); auto; [now apply fle_trans with (hi -. lo)|]. vm_compute. reflexivity. }
  destruct (fltb (#0) (hi -. lo)) eqn:D.
  - destruct (pct_next (hi -. x) (hi -. lo)) as [Q1 Q2]; auto. unfold fle in Q1, Q2 |- *. rewrite val_leb in Q1, Q2. rewrite !val_leb, val_opp, pct_neg by auto.
    rewrite (val_small 0) in * by lia. apply xleb_xle in Q1, Q2. rewrite !xleb_xle. rewrite val_next100 in *.
    destruct (val (_ /. _)); try easy; cbn in *; try easy; split; lra.
  - exfalso.
  assert (Z : fle (hi -. lo) (#0)) by (apply not_lt; auto; [vm_compute; reflexivity|now apply sub_fin]).
  assert (N1 : Order.num (#(-100) **. (hi -. x))) by (nan; auto).
  unfold Order.num in N. rewrite div_00 in N; [discriminate| |split; auto; now apply fle_trans with (hi -. x)].
  assert (V : val (hi -. x) = Fin 0).
  { assert (Z2 : fle (hi -. x) (#0)) by (now apply fle_trans with (hi -. lo)).
    unfold fle in P2, Z2. rewrite val_leb, (val_small 0) in * by lia. apply xleb_xle in P2, Z2. destruct (val (hi -. x)); try easy. cbn in *. f_equal. lra. }
  unfold same, fle. rewrite !val_leb, !val_mul, V, (val_small (-100)), (val_small 0) by lia. cbn [xmul].
  rewrite Rmult_0_r, rx_0. split; apply xleb_xle; cbn; lra.
Qed.
