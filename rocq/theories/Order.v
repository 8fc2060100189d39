(** * Order: arithmetics with monotone rounding.

    [RoundLaws F] collects facts that hold in exact arithmetic and survive
    rounding to nearest (with overflow, infinities, NaN and signed zeros).
    Both instances of the model satisfy them: [XR_round] below, [Float_round]
    in FloatOrder.v.  Range theorems proved from these laws hold in binary64. *)
From Verif Require Import Arith.

Section Order.
Context {F : Type} {A : Arith F}.
Local Open Scope f_scope.

Definition fle (x y : F) : Prop := fleb x y = true.
Definition flt (x y : F) : Prop := fltb x y = true.
(** equal as numbers: 0 and -0 are *)
Definition same (x y : F) : Prop := fle x y /\ fle y x.
(** not NaN *)
Definition num (x : F) : Prop := fisnan x = false.
Definition fin (x : F) : Prop := ffinite x = true.

Class RoundLaws : Prop := {
  fle_num : forall x y, fle x y -> num x /\ num y;
  fle_refl : forall x, num x -> fle x x;
  fle_trans : forall x y z, fle x y -> fle y z -> fle x z;
  fle_total : forall x y, num x -> num y -> fle x y \/ fle y x;
  flt_fle : forall x y, flt x y <-> fle x y /\ ~ fle y x;
  eqb_fle : forall x y, feqb x y = true <-> same x y;
  ofZ_fin : forall z, (Z.abs z < 2 ^ 63)%Z -> fin (fofZ z);
  ofZ_mono : forall a b, (- 2 ^ 63 < a)%Z -> (a <= b)%Z -> (b < 2 ^ 63)%Z -> fle (fofZ a) (fofZ b);
  ofZ_small : forall a b, (- 2 ^ 53 <= a)%Z -> (a < b)%Z -> (b <= 2 ^ 53)%Z -> flt (fofZ a) (fofZ b);
  add_mono : forall a b c d, fle a b -> fle c d -> num (a +. c) -> num (b +. d) -> fle (a +. c) (b +. d);
  sub_mono : forall a b c d, fle a b -> fle d c -> num (a -. c) -> num (b -. d) -> fle (a -. c) (b -. d);
  mul_mono : forall a b c, fle a b -> fle (#0) c -> num (a **. c) -> num (b **. c) -> fle (a **. c) (b **. c);
  mul_mono2 : forall a b c d, fle (#0) a -> fle a b -> fle (#0) c -> fle c d -> num (a **. c) -> num (b **. d) ->
    fle (a **. c) (b **. d);
  div_mono : forall a b c, fle a b -> flt (#0) c -> num (a /. c) -> num (b /. c) -> fle (a /. c) (b /. c);
  div_mono2 : forall a b c d, fle (#0) a -> fle a b -> flt (#0) d -> fle d c -> num (a /. c) -> num (b /. d) ->
    fle (a /. c) (b /. d);
  mul_comm_same : forall a b, num (a **. b) -> same (a **. b) (b **. a);
  add_0_same : forall x, num x -> same (x +. #0) x;
  add_0_l_same : forall x, num x -> same (#0 +. x) x;
  sub_0_same : forall x, num x -> same (x -. #0) x;
  sub_0_l_same : forall x, num x -> same (#0 -. x) (fopp x);
  sub_self : forall x, fin x -> same (x -. x) (#0);
  mul_1_same : forall x, num x -> same (x **. #1) x;
  mul_0_same : forall x, fin x -> same (#0 **. x) (#0);
  div_1_same : forall x, num x -> same (x /. #1) x;
  div_self : forall x, fin x -> flt (#0) x -> same (x /. x) (#1);
  div_0_same : forall x, flt (#0) x -> same (#0 /. x) (#0);
  div_00 : forall x y, same x (#0) -> same y (#0) -> fisnan (x /. y) = true;
  div_abs : forall a b, fle (#0) a -> num (a /. fabs b) -> fle (#0) (a /. fabs b);
  div_opp : forall x y, num (x /. y) -> same (fopp x /. y) (fopp (x /. y));
  opp_le : forall x y, fle x y -> fle (fopp y) (fopp x);
  opp_opp_same : forall x, num x -> same (fopp (fopp x)) x;
  opp_Z : forall z, same (fopp (fofZ z)) (fofZ (- z));
  abs_pos : forall x, num x -> fle (#0) (fabs x);
  abs_ge : forall x, num x -> fle x (fabs x);
  abs_le : forall x y, fle x y -> fle (fopp x) y -> fle (fabs x) y;
  sq_pos : forall x, num (x **. x) -> fle (#0) (x **. x);
  sqrt_pos : forall x, num (fsqrt x) -> fle (#0) (fsqrt x);
  sqrt_mono : forall x y, fle (#0) x -> fle x y -> fle (fsqrt x) (fsqrt y);
  add_fin : forall x y, fin x -> fin y -> num (x +. y);
  sub_fin : forall x y, fin x -> fin y -> num (x -. y);
  mul_fin : forall x y, fin x -> fin y -> num (x **. y);
  div_fin : forall x y, fin x -> flt (#0) y -> num (x /. y);
  add_pos_num : forall x y, fle (#0) x -> fle (#0) y -> num (x +. y);
  fin_num : forall x, fin x -> num x;
  fin_between : forall a x b, fle a x -> fle x b -> fin a -> fin b -> fin x;
  div_le_1 : forall a b, fle a b -> flt (#0) b -> num (a /. b) -> fle (a /. b) (#1);
  div_ge_m1 : forall a b, fle (fopp b) a -> flt (#0) b -> num (a /. b) -> fle (#-1) (a /. b);
  ofZ_add : forall a b, (Z.abs a <= 2 ^ 53)%Z -> (Z.abs b <= 2 ^ 53)%Z -> (Z.abs (a + b) <= 2 ^ 53)%Z ->
    same (fofZ a +. fofZ b) (fofZ (a + b));
  ofZ_mul : forall a b, (Z.abs a <= 2 ^ 53)%Z -> (Z.abs b <= 2 ^ 53)%Z -> (Z.abs (a * b) <= 2 ^ 53)%Z ->
    same (fofZ a **. fofZ b) (fofZ (a * b));
  ofZ_sub : forall a b, (Z.abs a <= 2 ^ 53)%Z -> (Z.abs b <= 2 ^ 53)%Z -> (Z.abs (a - b) <= 2 ^ 53)%Z ->
    same (fofZ a -. fofZ b) (fofZ (a - b));
  ofZ_div : forall a b, (Z.abs a <= 2 ^ 53)%Z -> (Z.abs b <= 2 ^ 53)%Z -> (Z.abs (a * b) <= 2 ^ 53)%Z -> b <> 0%Z ->
    same (fofZ (a * b) /. fofZ b) (fofZ a);
  inv_lt : forall x, fin x -> flt (#0) x -> flt (#0) (#1 /. x);
  inv_inv_fin : forall z, (0 < z < 2 ^ 63)%Z -> fin (#1 +. #1 /. (#1 /. fofZ z));
  inc_fin : forall z, (0 < z < 2 ^ 63)%Z -> fin (#1 +. fofZ z);
  sub_pos : forall a b, fle b a -> num (a -. b) -> fle (#0) (a -. b);
  mul_pos : forall a b, fle (#0) a -> fle (#0) b -> num (a **. b) -> fle (#0) (a **. b);
  div_pos : forall a b, fle (#0) a -> flt (#0) b -> num (a /. b) -> fle (#0) (a /. b);
  (* the midpoint as written in volatility.py:401 *)
  mid_le : forall l h, fle l h -> fin (h -. l) -> fle ((h -. l) /. #2 +. l) h
}.
End Order.
Arguments RoundLaws F {A}.


(** ** The extended reals *)
Local Open Scope R_scope.
Definition xle (x y : xr) : Prop :=
  match x, y with
  | NaN, _ | _, NaN => False
  | NInf, _ | _, PInf => True
  | Fin a, Fin b => a <= b
  | _, _ => False
  end.
Lemma xleb_xle : forall x y, xleb x y = true <-> xle x y.
Proof.
  intros [ | | |a] [ | | |b]; cbn; split; try easy.
  - unfold xleb. cbn. destruct Rlt_dec; [intros; lra|]. destruct Req_EM_T; [intros; lra|easy].
  - unfold xleb. cbn. intros H. destruct Rlt_dec; auto. destruct Req_EM_T; auto. lra.
Qed.
Definition xlt (x y : xr) : Prop := xle x y /\ ~ xle y x.
Lemma xltb_xlt : forall x y, xltb x y = true <-> xlt x y.
Proof.
  unfold xlt. intros [ | | |a] [ | | |b]; cbn; split; try easy; try tauto.
  - destruct Rlt_dec; [intros; lra|easy].
  - intros H. destruct Rlt_dec; auto. lra.
Qed.
Lemma xeqb_xle : forall x y, xeqb x y = true <-> xle x y /\ xle y x.
Proof.
  intros [ | | |a] [ | | |b]; cbn; split; try easy; try tauto.
  - destruct Req_EM_T; [intros; lra|easy].
  - intros H. destruct Req_EM_T; auto. lra.
Qed.

Ltac xdec := repeat match goal with
  | |- context [Rlt_dec ?a ?b] => destruct (Rlt_dec a b)
  | |- context [Req_EM_T ?a ?b] => destruct (Req_EM_T a b)
  | H : context [Rlt_dec ?a ?b] |- _ => destruct (Rlt_dec a b)
  | H : context [Req_EM_T ?a ?b] |- _ => destruct (Req_EM_T a b)
  end.
Lemma xadd_mono : forall a b c d, xle a b -> xle c d -> xadd a c <> NaN -> xadd b d <> NaN -> xle (xadd a c) (xadd b d).
Proof. intros [ | | |a] [ | | |b] [ | | |c] [ | | |d]; cbn; intros; try easy; lra. Qed.
Lemma xsub_mono : forall a b c d, xle a b -> xle d c -> xsub a c <> NaN -> xsub b d <> NaN -> xle (xsub a c) (xsub b d).
Proof. intros [ | | |a] [ | | |b] [ | | |c] [ | | |d]; cbn; intros; try easy; lra. Qed.
Lemma xinf_pos : xinf 1 = PInf. Proof. reflexivity. Qed.
Lemma xmul_mono : forall a b c, xle a b -> xle (Fin 0) c -> xmul a c <> NaN -> xmul b c <> NaN -> xle (xmul a c) (xmul b c).
Proof.
  intros [ | | |a] [ | | |b] [ | | |c]; cbn; unfold rsign, xinf; intros; try easy; xdec; cbn in *; try easy; try lra; try nra.
Qed.
Lemma xmul_mono2 : forall a b c d, xle (Fin 0) a -> xle a b -> xle (Fin 0) c -> xle c d -> xmul a c <> NaN -> xmul b d <> NaN ->
  xle (xmul a c) (xmul b d).
Proof.
  intros [ | | |a] [ | | |b] [ | | |c] [ | | |d]; cbn; unfold rsign, xinf; intros; try easy; xdec; cbn in *; try easy; try lra; try nra.
Qed.
Lemma xdiv_mono : forall a b c, xle a b -> xlt (Fin 0) c -> xdiv a c <> NaN -> xdiv b c <> NaN -> xle (xdiv a c) (xdiv b c).
Proof.
  unfold xlt. intros [ | | |a] [ | | |b] [ | | |c]; cbn; unfold rsign, xinf; intros; try easy; xdec; cbn in *; try easy; try lra.
  all: apply Rmult_le_compat_r; auto; left; apply Rinv_0_lt_compat; lra.
Qed.
Lemma xdiv_mono2 : forall a b c d, xle (Fin 0) a -> xle a b -> xlt (Fin 0) d -> xle d c -> xdiv a c <> NaN -> xdiv b d <> NaN ->
  xle (xdiv a c) (xdiv b d).
Proof.
  unfold xlt. intros [ | | |a] [ | | |b] [ | | |c] [ | | |d]; cbn; unfold rsign, xinf; intros; try easy; xdec; cbn in *; try easy; try lra.
  all: try (apply Rmult_le_compat; auto; [left; apply Rinv_0_lt_compat; lra|apply Rinv_le_contravar; lra]).
  all: apply Rmult_le_pos; [lra|left; apply Rinv_0_lt_compat; lra].
Qed.

(** ** Laws from a rounding: numbers [val x], every operation exact and then
    rounded by the monotone [rx] *)
Section Via.
Context {F : Type} {A : Arith F} (val : F -> xr) (rx : xr -> xr) (rZ : Z -> R).
Hypotheses
  (v_add : forall x y, val (fadd x y) = rx (xadd (val x) (val y)))
  (v_sub : forall x y, val (fsub x y) = rx (xsub (val x) (val y)))
  (v_mul : forall x y, val (fmul x y) = rx (xmul (val x) (val y)))
  (v_div : forall x y, val y <> Fin 0 -> val (fdiv x y) = rx (xdiv (val x) (val y)))
  (v_div00 : forall x y, val x = Fin 0 -> val y = Fin 0 -> val (fdiv x y) = NaN)
  (v_divabs : forall x y, xle (Fin 0) (val x) -> val y = Fin 0 -> val (fdiv x (fabs y)) <> NaN -> val (fdiv x (fabs y)) = PInf)
  (v_divopp : forall x y, val (fdiv (fopp x) y) = xopp (val (fdiv x y)))
  (v_sqrt : forall x, val (fsqrt x) = rx (xsqrt (val x)))
  (v_opp : forall x, val (fopp x) = xopp (val x))
  (v_abs : forall x, val (fabs x) = xabs (val x))
  (v_nan : forall x, fisnan x = xisnan (val x))
  (v_inf : forall x, fisinf x = xisinf (val x))
  (v_leb : forall x y, fleb x y = xleb (val x) (val y))
  (v_ltb : forall x y, fltb x y = xltb (val x) (val y))
  (v_eqb : forall x y, feqb x y = xeqb (val x) (val y))
  (v_Z : forall z, (Z.abs z < 2 ^ 63)%Z -> val (fofZ z) = Fin (rZ z))
  (v_oppZ : forall z, val (fofZ (- z)) = xopp (val (fofZ z)))
  (v_numZ : forall z, val (fofZ z) <> NaN)
  (rZ_mono : forall a b, (a <= b)%Z -> rZ a <= rZ b)
  (rZ_small : forall z, (Z.abs z <= 2 ^ 53)%Z -> rZ z = IZR z)
  (rx_val : forall x, rx (val x) = val x)
  (rx_nan : forall x, rx x = NaN <-> x = NaN)
  (rx_mono : forall x y, xle x y -> xle (rx x) (rx y))
  (rx_inv : forall x r, val x = Fin r -> 0 < r -> xlt (Fin 0) (rx (Fin (1 / r))))
  (v_inv_inv : forall z, (0 < z < 2 ^ 63)%Z -> fin (fadd (fofZ 1) (fdiv (fofZ 1) (fdiv (fofZ 1) (fofZ z)))))
  (v_inc : forall z, (0 < z < 2 ^ 63)%Z -> fin (fadd (fofZ 1) (fofZ z)))
  (v_mid : forall l h, fle l h -> fin (fsub h l) -> fle (fadd (fdiv (fsub h l) (fofZ 2)) l) h).

Lemma le_x : forall x y, fle x y <-> xle (val x) (val y).
Proof. intros. unfold fle. rewrite v_leb. apply xleb_xle. Qed.
Lemma lt_x : forall x y, flt x y <-> xlt (val x) (val y).
Proof. intros. unfold flt. rewrite v_ltb. apply xltb_xlt. Qed.
Lemma num_x : forall x, num x <-> val x <> NaN.
Proof. intros. unfold num. rewrite v_nan. destruct (val x); cbn; split; congruence. Qed.
Lemma fin_x : forall x, fin x <-> exists r, val x = Fin r.
Proof.
  intros. unfold fin, ffinite. rewrite v_nan, v_inf. destruct (val x) as [ | | |r]; cbn; split; try discriminate; try (intros (r & H); discriminate).
  - intros _. now exists r.
  - reflexivity.
Qed.
Lemma same_x : forall x y, num x -> val x = val y -> same x y.
Proof.
  intros x y N E. apply num_x in N. unfold same. rewrite !le_x, <- E. destruct (val x); cbn; split; auto; try lra.
Qed.
Lemma z_x : forall z, (Z.abs z <= 2 ^ 53)%Z -> val (fofZ z) = Fin (IZR z).
Proof. intros. rewrite v_Z by lia. now rewrite rZ_small. Qed.
Lemma z0_x : val (fofZ 0) = Fin 0. Proof. apply z_x. lia. Qed.
Lemma z1_x : val (fofZ 1) = Fin 1. Proof. apply z_x. lia. Qed.
Lemma rx_Z : forall z, (Z.abs z <= 2 ^ 53)%Z -> rx (Fin (IZR z)) = Fin (IZR z).
Proof. intros z H. rewrite <- (z_x z H). apply rx_val. Qed.
Lemma same_xx : forall x y, val x <> NaN -> val x = val y -> same x y.
Proof. intros x y N E. apply same_x; auto. now apply num_x. Qed.
Lemma same_0 : forall x, same x (fofZ 0) -> val x = Fin 0.
Proof.
  intros x (H1 & H2). rewrite le_x in H1, H2. rewrite z0_x in *. destruct (val x); cbn in *; try easy. f_equal. lra.
Qed.
Lemma rx_num : forall x, rx x <> NaN <-> x <> NaN.
Proof. intros. rewrite rx_nan. tauto. Qed.

Lemma laws_via : RoundLaws F.
Proof.
  constructor.
  - intros x y. rewrite le_x, !num_x. destruct (val x), (val y); cbn; easy.
  - intros x. rewrite le_x, num_x. destruct (val x); cbn; try easy. lra.
  - intros x y z. rewrite !le_x. destruct (val x), (val y), (val z); cbn; try easy. lra.
  - intros x y. rewrite !le_x, !num_x. destruct (val x), (val y); cbn; try easy; auto. lra.
  - intros. rewrite lt_x, !le_x. reflexivity.
  - intros. unfold same. rewrite v_eqb, !le_x. apply xeqb_xle.
  - intros z H. apply fin_x. rewrite v_Z by auto. eauto.
  - intros a b H1 H2 H3. apply le_x. rewrite !v_Z by lia. cbn. auto.
  - intros a b H1 H2 H3. apply lt_x. rewrite !z_x by lia. apply IZR_lt in H2. split; cbn; lra.
  - intros a b c d. rewrite !le_x, !num_x, !v_add, !rx_num. intros. apply rx_mono, xadd_mono; auto.
  - intros a b c d. rewrite !le_x, !num_x, !v_sub, !rx_num. intros. apply rx_mono, xsub_mono; auto.
  - intros a b c. rewrite !le_x, !num_x, !v_mul, !rx_num, z0_x. intros. apply rx_mono, xmul_mono; auto.
  - intros a b c d. rewrite !le_x, !num_x, !v_mul, !rx_num, z0_x. intros. apply rx_mono, xmul_mono2; auto.
  - intros a b c. rewrite !le_x, !num_x, lt_x, z0_x. intros H1 H2.
    assert (val c <> Fin 0) by (intros E; rewrite E in H2; destruct H2; cbn in *; lra).
    rewrite !v_div, !rx_num by auto. intros. apply rx_mono, xdiv_mono; auto.
  - intros a b c d. rewrite !le_x, !num_x, lt_x, z0_x. intros H1 H2 H3 H4.
    assert (val d <> Fin 0) by (intros E; rewrite E in H3; destruct H3; cbn in *; lra).
    assert (val c <> Fin 0) by (intros E; rewrite E in H4; destruct (val d), H3; cbn in *; try easy; lra).
    rewrite !v_div, !rx_num by auto. intros. apply rx_mono, xdiv_mono2; auto.
  - intros a b H. rewrite num_x in H. apply same_xx; auto. rewrite !v_mul. f_equal.
    destruct (val a), (val b); cbn; auto; try (f_equal; lra); try (f_equal; now rewrite Z.mul_comm).
  - intros x H. rewrite num_x in H. assert (E : val (fadd x (fofZ 0)) = val x).
    { rewrite v_add, z0_x. rewrite <- (rx_val x) at 2. f_equal. destruct (val x); cbn; auto. f_equal. lra. }
    apply same_xx; congruence.
  - intros x H. rewrite num_x in H. assert (E : val (fadd (fofZ 0) x) = val x).
    { rewrite v_add, z0_x. rewrite <- (rx_val x) at 2. f_equal. destruct (val x); cbn; auto. f_equal. lra. }
    apply same_xx; congruence.
  - intros x H. rewrite num_x in H. assert (E : val (fsub x (fofZ 0)) = val x).
    { rewrite v_sub, z0_x. rewrite <- (rx_val x) at 2. f_equal. destruct (val x); cbn; auto. f_equal. lra. }
    apply same_xx; congruence.
  - intros x H. rewrite num_x in H. assert (E : val (fsub (fofZ 0) x) = val (fopp x)).
    { rewrite v_sub, z0_x. rewrite <- (rx_val (fopp x)), v_opp. f_equal. destruct (val x); cbn; auto. f_equal. lra. }
    apply same_xx; auto. rewrite E, v_opp. destruct (val x); cbn; congruence.
  - intros x H. apply fin_x in H. destruct H as (r & H). assert (E : val (fsub x x) = Fin 0).
    { rewrite v_sub, H. cbn. replace (r + - r) with 0 by lra. apply (rx_Z 0). lia. }
    apply same_xx; rewrite E; [discriminate|now rewrite z0_x].
  - intros x H. rewrite num_x in H. assert (E : val (fmul x (fofZ 1)) = val x).
    { rewrite v_mul, z1_x. rewrite <- (rx_val x) at 2. f_equal. destruct (val x); cbn; auto; try (f_equal; lra); unfold rsign, xinf; xdec; try lra; reflexivity. }
    apply same_xx; congruence.
  - intros x H. apply fin_x in H. destruct H as (r & H). assert (E : val (fmul (fofZ 0) x) = Fin 0).
    { rewrite v_mul, H, z0_x. cbn. rewrite Rmult_0_l. apply (rx_Z 0). lia. }
    apply same_xx; rewrite E; [discriminate|now rewrite z0_x].
  - intros x H. rewrite num_x in H. assert (E : val (fdiv x (fofZ 1)) = val x).
    { rewrite v_div by (rewrite z1_x; intros E; injection E; lra). rewrite z1_x. rewrite <- (rx_val x) at 2. f_equal. destruct (val x); cbn; auto; xdec; try lra; auto. f_equal. lra. }
    apply same_xx; congruence.
  - intros x H L. apply fin_x in H. destruct H as (r & H). apply lt_x in L. rewrite z0_x, H in L. destruct L as [_ L]. cbn in L.
    assert (E : val (fdiv x x) = Fin 1).
    { rewrite v_div by (rewrite H; intros E; injection E; lra). rewrite H. cbn. destruct Req_EM_T; [lra|]. replace (r / r) with 1 by (field; lra). apply (rx_Z 1). lia. }
    apply same_xx; rewrite E; [discriminate|now rewrite z1_x].
  - intros x L. apply lt_x in L. rewrite z0_x in L.
    assert (N : val x <> Fin 0) by (intros E; rewrite E in L; destruct L; cbn in *; lra).
    assert (E : val (fdiv (fofZ 0) x) = Fin 0).
    { rewrite v_div by auto. rewrite z0_x. destruct (val x) as [ | | |r]; try (now destruct L); try (apply (rx_Z 0); lia).
      cbn. destruct Req_EM_T as [->|]; [congruence|]. replace (0 / r) with 0 by (field; auto). apply (rx_Z 0). lia. }
    apply same_xx; rewrite E; [discriminate|now rewrite z0_x].
  - intros x y H1 H2. apply same_0 in H1, H2. rewrite v_nan, v_div00; auto.
  - intros a b H1 H2. rewrite le_x, z0_x in *. rewrite num_x in H2.
    assert (D : val b = Fin 0 \/ val b <> Fin 0).
    { destruct (val b); auto; try (right; discriminate). destruct (Req_dec r 0) as [->|]; auto. right. congruence. }
    destruct D as [D|D]; [rewrite v_divabs; cbn; auto|].
    assert (N : val (fabs b) <> Fin 0). { rewrite v_abs. destruct (val b); cbn; try discriminate. intros E. injection E as E. apply D. f_equal. destruct (Req_dec r 0); auto. apply Rabs_no_R0 in H. lra. }
    rewrite v_div in * by auto. rewrite rx_num in H2. rewrite <- (rx_Z 0) by lia. apply rx_mono. rewrite v_abs in *.
    destruct (val a) as [ | | |ra], (val b) as [ | | |rb]; cbn in *; try easy; xdec; try easy; try lra.
    all: try (pose proof (Rabs_pos rb); cbn; try easy; try lra).
    all: try (now rewrite e in N).
    all: apply Rmult_le_pos; auto; left; apply Rinv_0_lt_compat; lra.
  - intros x y H. rewrite num_x in H. apply same_xx; [rewrite v_divopp|now rewrite v_divopp, v_opp]. destruct (val (fdiv x y)); cbn; congruence.
  - intros x y. rewrite !le_x, !v_opp. destruct (val x), (val y); cbn; try easy. lra.
  - intros x H. rewrite num_x in H. apply same_xx; rewrite !v_opp; destruct (val x); cbn; try congruence. f_equal. lra.
  - intros z. apply same_xx; rewrite v_opp, ?v_oppZ; auto. specialize (v_numZ z). destruct (val (fofZ z)); cbn; congruence.
  - intros x H. rewrite num_x in H. rewrite le_x, z0_x, v_abs. destruct (val x); cbn; try easy. apply Rabs_pos.
  - intros x H. rewrite num_x in H. rewrite le_x, v_abs. destruct (val x); cbn; try easy. apply Rle_abs.
  - intros x y. rewrite !le_x, v_abs, v_opp. destruct (val x), (val y); cbn; try easy. intros. apply Rabs_le. lra.
  - intros x H. rewrite num_x in H. rewrite le_x, z0_x. rewrite v_mul, rx_num in *. rewrite <- (rx_Z 0) by lia. apply rx_mono.
    destruct (val x); cbn in *; try easy. nra.
  - intros x H. rewrite num_x in H. rewrite le_x, z0_x. rewrite v_sqrt, rx_num in *. rewrite <- (rx_Z 0) by lia. apply rx_mono.
    destruct (val x); cbn in *; try easy. xdec; [easy|]. apply R_sqrt.sqrt_pos.
  - intros x y. rewrite !le_x, z0_x, !v_sqrt. intros H1 H2. apply rx_mono.
    destruct (val x), (val y); cbn in *; try easy; xdec; try easy; try lra. now apply sqrt_le_1_alt.
  - intros x y H1 H2. apply fin_x in H1, H2. destruct H1 as (r & H1), H2 as (q & H2). rewrite num_x, v_add, H1, H2, rx_num. discriminate.
  - intros x y H1 H2. apply fin_x in H1, H2. destruct H1 as (r & H1), H2 as (q & H2). rewrite num_x, v_sub, H1, H2, rx_num. discriminate.
  - intros x y H1 H2. apply fin_x in H1, H2. destruct H1 as (r & H1), H2 as (q & H2). rewrite num_x, v_mul, H1, H2, rx_num. discriminate.
  - intros x y H1 L. apply fin_x in H1. destruct H1 as (r & H1). apply lt_x in L. rewrite z0_x in L.
    assert (N : val y <> Fin 0) by (intros E; rewrite E in L; destruct L; cbn in *; lra).
    rewrite num_x, v_div, H1, rx_num by auto. destruct (val y); cbn; try discriminate; try (now destruct L). xdec; congruence.
  - intros x y. rewrite !le_x, z0_x, num_x, v_add, rx_num. destruct (val x), (val y); cbn; try easy.
  - intros x H. apply fin_x in H. destruct H as (r & H). rewrite num_x, H. discriminate.
  - intros a x b. rewrite !le_x, !fin_x. intros H1 H2 (r & H3) (q & H4). rewrite H3, H4 in *. destruct (val x); cbn in *; try easy. eauto.
  - intros a b H L. apply lt_x in L. rewrite z0_x in L. rewrite !le_x in *. rewrite num_x, z1_x.
    assert (N : val b <> Fin 0) by (intros E; rewrite E in L; destruct L; cbn in *; lra).
    rewrite v_div, rx_num by auto. intros Q. rewrite <- (rx_Z 1) by lia. apply rx_mono.
    destruct L as [L1 L2]. destruct (val a) as [ | | |ra], (val b) as [ | | |rb]; cbn in *; try easy; xdec; cbn; try easy; try lra.
    apply Rmult_le_reg_r with rb; [lra|]. unfold Rdiv. rewrite Rmult_assoc, Rinv_l; lra.
  - intros a b H L. apply lt_x in L. rewrite z0_x in L. rewrite !le_x in *. rewrite num_x, z_x by lia. rewrite v_opp in H.
    assert (N : val b <> Fin 0) by (intros E; rewrite E in L; destruct L; cbn in *; lra).
    rewrite v_div, rx_num by auto. intros Q. rewrite <- (rx_Z (-1)) by lia. apply rx_mono.
    destruct L as [L1 L2]. destruct (val a) as [ | | |ra], (val b) as [ | | |rb]; cbn in *; try easy; xdec; cbn; try easy; try lra.
    apply Rmult_le_reg_r with rb; [lra|]. unfold Rdiv. rewrite Rmult_assoc, Rinv_l; lra.
  - intros a b H1 H2 H3. assert (E : val (fadd (fofZ a) (fofZ b)) = val (fofZ (a + b))).
    { rewrite v_add, !z_x by auto. cbn. rewrite <- plus_IZR. now apply rx_Z. }
    apply same_xx; auto. rewrite E. auto.
  - intros a b H1 H2 H3. assert (E : val (fmul (fofZ a) (fofZ b)) = val (fofZ (a * b))).
    { rewrite v_mul, !z_x by auto. cbn. rewrite <- mult_IZR. now apply rx_Z. }
    apply same_xx; auto. rewrite E. auto.
  - intros a b H1 H2 H3. assert (E : val (fsub (fofZ a) (fofZ b)) = val (fofZ (a - b))).
    { rewrite v_sub, !z_x by auto. cbn. replace (IZR a + - IZR b) with (IZR (a - b)) by (rewrite minus_IZR; lra). now apply rx_Z. }
    apply same_xx; auto. rewrite E. auto.
  - intros a b H1 H2 H3 N. assert (IZR b <> 0) by (now apply not_0_IZR).
    assert (E : val (fdiv (fofZ (a * b)) (fofZ b)) = val (fofZ a)).
    { rewrite v_div; rewrite !z_x by auto; [|congruence]. cbn. destruct Req_EM_T; [lra|].
      replace (IZR (a * b) / IZR b) with (IZR a) by (rewrite mult_IZR; field; auto). now apply rx_Z. }
    apply same_xx; auto. rewrite E. auto.
  - intros x H L. apply fin_x in H. destruct H as (r & H). apply lt_x in L. apply lt_x. rewrite z0_x, H in *.
    assert (0 < r) by (destruct L as [L1 L2]; cbn in *; lra).
    rewrite v_div, z1_x, H by (rewrite H; intros E; injection E; lra). cbn. destruct Req_EM_T; [lra|]. eauto.
  - exact v_inv_inv.
  - exact v_inc.
  - intros a b. rewrite !le_x, z0_x, num_x, v_sub, rx_num. intros H1 H. rewrite <- (rx_Z 0) by lia. apply rx_mono.
    destruct (val a), (val b); cbn in *; try easy; lra.
  - intros a b. rewrite !le_x, z0_x, num_x, v_mul, rx_num. intros H1 H2 H. rewrite <- (rx_Z 0) by lia. apply rx_mono.
    destruct (val a), (val b); cbn in *; try easy; unfold rsign, xinf in *; xdec; cbn in *; try easy; try lra; try nra.
  - intros a b. rewrite !le_x, lt_x, z0_x, num_x. intros H1 L.
    assert (N : val b <> Fin 0) by (intros E; rewrite E in L; destruct L; cbn in *; lra).
    rewrite v_div, rx_num by auto. intros Q. rewrite <- (rx_Z 0) by lia. apply rx_mono.
    destruct L as [L1 L2]. destruct (val a) as [ | | |ra], (val b) as [ | | |rb]; cbn in *; try easy; xdec; cbn; try easy; try lra.
    apply Rmult_le_pos; [lra|]. left. apply Rinv_0_lt_compat. lra.
  - exact v_mid.
Qed.
End Via.

(** exact arithmetic *)
#[export] Instance XR_round : RoundLaws xr.
Proof.
  apply (laws_via (fun x => x) (fun x => x) IZR); try reflexivity; cbn; try tauto; intros; try easy.
  - subst. cbn. unfold rsign. xdec; try lra; reflexivity.
  - subst. destruct x; cbn in *; try easy. all: rewrite ?Rabs_R0 in *; unfold rsign in *; xdec; try easy; try lra.
  - destruct x, y; cbn; auto; unfold rsign, xinf; xdec; cbn; auto; try lra; try (f_equal; lra).
  - now rewrite opp_IZR.
  - now apply IZR_le.
  - assert (0 < 1 / r) by (apply Rdiv_lt_0_compat; lra). split; cbn; lra.
  - unfold fin, ffinite. cbn. assert (0 < IZR z) by (apply IZR_lt; lia). destruct (Req_EM_T (IZR z) 0); [lra|].
    cbn. assert (0 < 1 / IZR z) by (apply Rdiv_lt_0_compat; lra). destruct Req_EM_T; [lra|]. reflexivity.
  - unfold fle, fin, ffinite in *. cbn in *. apply xleb_xle in H. apply xleb_xle. destruct l, h; cbn in *; try easy. xdec; cbn; try easy; lra.
Qed.
