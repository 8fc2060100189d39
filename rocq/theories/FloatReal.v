(** * FloatReal: binary64 is the extended reals with rounding.

    [val x] is the real number (or NaN, +inf, -inf) a float stands for; every
    operation of the binary64 instance is the exact operation followed by
    rounding to nearest, with overflow to infinity.  From Flocq. *)
From Flocq Require Import Core PrimFloat.
From Coq Require Import Reals Lra Floats Uint63 SpecFloat.
From Flocq Require Import BinarySingleNaN.
From Verif Require Import Arith FloatArith.
Local Open Scope R_scope.

Definition valB (x : binary_float prec emax) : xr :=
  match x with
  | B754_nan => NaN | B754_infinity s => if s then NInf else PInf | _ => Fin (B2R x)
  end.
(** the number a float stands for *)
Definition val (x : float) : xr := valB (Prim2B x).

(** rounding to nearest, ties to even *)
Definition rnd (r : R) : R := round radix2 (SpecFloat.fexp prec emax) (round_mode mode_NE) r.
Definition big : R := bpow radix2 emax.
Definition rx (x : xr) : xr :=
  match x with
  | Fin r => if Rlt_bool (Rabs (rnd r)) big then Fin (rnd r) else if Rle_dec 0 r then PInf else NInf
  | _ => x
  end.

#[local] Existing Instance Hprec.
#[local] Existing Instance Hmax.
Lemma fexp_ok : Valid_exp (SpecFloat.fexp prec emax). Proof. apply fexp_correct. exact Hprec. Qed.
#[local] Existing Instance fexp_ok.

Lemma valB_fin : forall x, is_finite x = true -> valB x = Fin (B2R x).
Proof. intros [ | | | ]; cbn; congruence. Qed.
Lemma valB_over : forall z s, B2SF z = binary_overflow prec emax mode_NE s -> valB z = if s then NInf else PInf.
Proof. intros z s. destruct z; cbn; intros H; try discriminate. now injection H as ->. Qed.
Lemma sign_neg : forall x : binary_float prec emax, is_finite x = true -> Bsign x = true -> B2R x <= 0.
Proof.
  intros [ | | |s m e H] F S; cbn in *; try discriminate; try lra. subst. apply F2R_le_0. cbn. lia.
Qed.
Lemma sign_pos : forall x : binary_float prec emax, is_finite x = true -> Bsign x = false -> 0 <= B2R x.
Proof.
  intros [ | | |s m e H] F S; cbn in *; try discriminate; try lra. subst. apply F2R_ge_0. cbn. lia.
Qed.
Lemma rnd_0 : rnd 0 = 0. Proof. apply round_0. apply valid_rnd_round_mode. Qed.
Lemma big_pos : 0 < big. Proof. apply bpow_gt_0. Qed.
Lemma over_nz : forall r, Rlt_bool (Rabs (rnd r)) big = false -> r <> 0.
Proof. intros r H ->. rewrite rnd_0, Rabs_R0, Rlt_bool_true in H by apply big_pos. discriminate. Qed.
Lemma rx_over : forall r (s : bool), Rlt_bool (Rabs (rnd r)) big = false -> (if s then r <= 0 else 0 <= r) ->
  rx (Fin r) = if s then NInf else PInf.
Proof.
  intros r s H S. cbn [rx]. rewrite H. pose proof (over_nz r H). destruct s, Rle_dec; auto; lra.
Qed.

Lemma plus_val : forall x y, valB (@Bplus prec emax _ _ mode_NE x y) = rx (xadd (valB x) (valB y)).
Proof.
  intros x y. destruct (is_finite x) eqn:Fx.
  - destruct (is_finite y) eqn:Fy.
    + rewrite (valB_fin x), (valB_fin y) by auto. cbn [xadd].
      pose proof (Bplus_correct prec emax _ _ mode_NE x y Fx Fy) as H. fold (rnd (B2R x + B2R y)) in H. fold big in H.
      destruct (Rlt_bool _ _) eqn:E.
      * destruct H as (H & F & _). rewrite valB_fin by auto. rewrite H. cbn [rx]. now rewrite E.
      * destruct H as (H & S). rewrite (valB_over _ _ H). symmetry. apply rx_over; auto.
        destruct (Bsign x) eqn:Sx; symmetry in S.
        -- pose proof (sign_neg x Fx Sx). pose proof (sign_neg y Fy S). lra.
        -- pose proof (sign_pos x Fx Sx). pose proof (sign_pos y Fy S). lra.
    + destruct x as [ | | | ], y as [ |[]| | ]; try discriminate; reflexivity.
  - destruct x as [ |[]| | ], y as [ |[]| | ]; try discriminate; reflexivity.
Qed.
Lemma minus_val : forall x y, valB (@Bminus prec emax _ _ mode_NE x y) = rx (xsub (valB x) (valB y)).
Proof.
  intros x y. unfold xsub. destruct (is_finite x) eqn:Fx.
  - destruct (is_finite y) eqn:Fy.
    + rewrite (valB_fin x), (valB_fin y) by auto. cbn [xadd xopp].
      pose proof (Bminus_correct prec emax _ _ mode_NE x y Fx Fy) as H. fold (rnd (B2R x - B2R y)) in H. fold big in H.
      unfold Rminus in H. destruct (Rlt_bool _ _) eqn:E.
      * destruct H as (H & F & _). rewrite valB_fin by auto. rewrite H. cbn [rx]. now rewrite E.
      * destruct H as (H & S). rewrite (valB_over _ _ H). symmetry. apply rx_over; auto.
        destruct (Bsign x) eqn:Sx; symmetry in S; [apply Bool.negb_true_iff in S|apply Bool.negb_false_iff in S].
        -- pose proof (sign_neg x Fx Sx). pose proof (sign_pos y Fy S). lra.
        -- pose proof (sign_pos x Fx Sx). pose proof (sign_neg y Fy S). lra.
    + destruct x as [ | | | ], y as [ |[]| | ]; try discriminate; reflexivity.
  - destruct x as [ |[]| | ], y as [ |[]| | ]; try discriminate; reflexivity.
Qed.
Lemma xmul_fin_inf : forall (s : bool) m e (s' : bool), 
  xinf (rsign (F2R (Float radix2 (cond_Zopp s (Zpos m)) e)) * (if s' then -1 else 1)) = if xorb s s' then NInf else PInf.
Proof.
  intros. unfold rsign. destruct s, s'; cbn [cond_Zopp xorb Z.opp].
  1,2: assert (F2R (Float radix2 (Z.neg m) e) < 0) by (apply F2R_lt_0; reflexivity).
  3,4: assert (0 < F2R (Float radix2 (Z.pos m) e)) by (apply F2R_gt_0; reflexivity).
  all: destruct Rlt_dec; [try lra|]; try destruct Rlt_dec; try lra; reflexivity.
Qed.
Lemma rsign_0 : rsign 0 = 0%Z.
Proof. unfold rsign. destruct Rlt_dec; [lra|]. reflexivity. Qed.
Lemma mult_val : forall x y, valB (@Bmult prec emax _ _ mode_NE x y) = rx (xmul (valB x) (valB y)).
Proof.
  intros x y. destruct (is_finite x) eqn:Fx, (is_finite y) eqn:Fy.
  2,3,4: destruct x as [ |sx| |sx mx ex Bx], y as [ |sy| |sy my ey By]; try discriminate;
    cbn [valB Bmult B2R]; try (destruct sx, sy; reflexivity); try (destruct sx; reflexivity); try (destruct sy; reflexivity); try reflexivity.
  - rewrite (valB_fin x), (valB_fin y) by auto. cbn [xmul].
    pose proof (Bmult_correct prec emax _ _ mode_NE x y) as H. fold (rnd (B2R x * B2R y)) in H. fold big in H.
    destruct (Rlt_bool _ _) eqn:E.
    + destruct H as (H & F & _). rewrite Fx, Fy in F. rewrite valB_fin by auto. rewrite H. cbn [rx]. now rewrite E.
    + rewrite (valB_over _ _ H). symmetry. apply rx_over; auto.
      destruct (Bsign x) eqn:Sx, (Bsign y) eqn:Sy; cbn [xorb];
        repeat match goal with
        | H : Bsign ?z = true, G : is_finite ?z = true |- _ => pose proof (sign_neg z G H); clear H
        | H : Bsign ?z = false, G : is_finite ?z = true |- _ => pose proof (sign_pos z G H); clear H
        end; nra.
  - destruct sy; cbn; now rewrite rsign_0.
  - pose proof (xmul_fin_inf sx mx ex sy) as H. destruct sy; cbn [xmul xsign] in *; rewrite H; destruct sx; reflexivity.
  - destruct sx; cbn; now rewrite rsign_0.
  - pose proof (xmul_fin_inf sy my ey sx) as H. rewrite Z.mul_comm, Bool.xorb_comm in H. destruct sx; cbn [xmul xsign] in *; rewrite H; destruct sy; reflexivity.
Qed.
Lemma fin_pos : forall (x : binary_float prec emax), is_finite x = true -> valB x <> Fin 0 -> Bsign x = false -> 0 < B2R x.
Proof. intros x F N S. pose proof (sign_pos x F S). destruct (Req_dec (B2R x) 0); [|lra]. rewrite valB_fin in N by auto. congruence. Qed.
Lemma fin_neg : forall (x : binary_float prec emax), is_finite x = true -> valB x <> Fin 0 -> Bsign x = true -> B2R x < 0.
Proof. intros x F N S. pose proof (sign_neg x F S). destruct (Req_dec (B2R x) 0); [|lra]. rewrite valB_fin in N by auto. congruence. Qed.
Lemma rx_0 : rx (Fin 0) = Fin 0.
Proof. cbn [rx]. rewrite rnd_0, Rabs_R0, Rlt_bool_true by apply big_pos. reflexivity. Qed.
Lemma div_val : forall x y, valB y <> Fin 0 -> valB (@Bdiv prec emax _ _ mode_NE x y) = rx (xdiv (valB x) (valB y)).
Proof.
  intros x y Hy. destruct (is_finite x) eqn:Fx, (is_finite y) eqn:Fy.
  - rewrite (valB_fin x), (valB_fin y) by auto. cbn [xdiv].
    assert (Ny : B2R y <> 0) by (rewrite valB_fin in Hy by auto; congruence).
    destruct Req_EM_T as [|_]; [contradiction|].
    pose proof (Bdiv_correct prec emax _ _ mode_NE x y Ny) as H. fold (rnd (B2R x / B2R y)) in H. fold big in H.
    destruct (Rlt_bool _ _) eqn:E.
    + destruct H as (H & F & _). rewrite Fx in F. rewrite valB_fin by auto. rewrite H. cbn [rx]. now rewrite E.
    + rewrite (valB_over _ _ H). symmetry. apply rx_over; auto. unfold Rdiv.
      destruct (Bsign y) eqn:Sy; [pose proof (Rinv_lt_0_compat _ (fin_neg y Fy Hy Sy))|pose proof (Rinv_0_lt_compat _ (fin_pos y Fy Hy Sy))];
      (destruct (Bsign x) eqn:Sx; [pose proof (sign_neg x Fx Sx)|pose proof (sign_pos x Fx Sx)]); cbn [xorb]; nra.
  - destruct x as [ |sx| |sx mx ex Bx], y as [ |sy| |sy my ey By]; try discriminate; cbn [Bdiv]; try reflexivity; destruct sy; cbn [valB xdiv B2R]; now rewrite rx_0.
  - destruct x as [ |sx| |sx mx ex Bx], y as [ |sy| |sy my ey By]; try discriminate; cbn [Bdiv]; try reflexivity.
    + now contradict Hy.
    + pose proof (fin_neg (B754_finite sy my ey By) eq_refl Hy). pose proof (fin_pos (B754_finite sy my ey By) eq_refl Hy).
      cbn [valB]. destruct sx; cbn [xdiv]; destruct Rlt_dec as [L|L]; destruct sy; try reflexivity; exfalso;
      try (specialize (H eq_refl)); try (specialize (H0 eq_refl)); lra.
  - destruct x as [ |[]| | ], y as [ |[]| | ]; try discriminate; reflexivity.
Qed.
Lemma div_0_val : forall x y, valB y = Fin 0 ->
  valB (@Bdiv prec emax _ _ mode_NE x y) = match valB x with NaN => NaN | Fin r => if Req_EM_T r 0 then NaN else valB (@Bdiv prec emax _ _ mode_NE x y)
                                           | _ => valB (@Bdiv prec emax _ _ mode_NE x y) end.
Proof.
  intros x y Hy. destruct y as [sy|sy| |sy my ey By]; cbn [valB] in Hy; try (destruct sy; discriminate); try discriminate.
  2:{ exfalso. injection Hy as Hy. cbn [B2R] in Hy. destruct sy; cbn [cond_Zopp Z.opp] in Hy;
      [assert (F2R (Float radix2 (Z.neg my) ey) < 0) by (apply F2R_lt_0; reflexivity)|assert (0 < F2R (Float radix2 (Z.pos my) ey)) by (apply F2R_gt_0; reflexivity)]; lra. }
  destruct x as [sx|sx| |sx mx ex Bx]; cbn [Bdiv valB]; auto.
  - destruct Req_EM_T; auto.
  - destruct sx; reflexivity.
  - destruct Req_EM_T as [Z|]; auto. exfalso. cbn [B2R] in Z. destruct sx; cbn [cond_Zopp Z.opp] in Z;
      [assert (F2R (Float radix2 (Z.neg mx) ex) < 0) by (apply F2R_lt_0; reflexivity)|assert (0 < F2R (Float radix2 (Z.pos mx) ex)) by (apply F2R_gt_0; reflexivity)]; lra.
Qed.
Lemma sqrt_val : forall x, valB (@Bsqrt prec emax _ _ mode_NE x) = match valB x with Fin r => if Rlt_dec r 0 then NaN else Fin (rnd (sqrt r)) | NInf => NaN | v => v end.
Proof.
  intros x. pose proof (Bsqrt_correct prec emax _ _ mode_NE x) as (H & F & _). fold (rnd (sqrt (B2R x))) in H.
  destruct x as [sx|sx| |sx mx ex Bx].
  - rewrite valB_fin by auto. rewrite H. cbn [valB B2R]. destruct Rlt_dec; [lra|]. reflexivity.
  - destruct sx; reflexivity.
  - reflexivity.
  - destruct sx.
    + cbn [valB B2R cond_Zopp Z.opp]. assert (F2R (Float radix2 (Z.neg mx) ex) < 0) by (apply F2R_lt_0; reflexivity).
      destruct Rlt_dec; [reflexivity|lra].
    + rewrite valB_fin by auto. rewrite H. cbn [valB]. destruct Rlt_dec as [L|]; [|reflexivity].
      pose proof (sign_pos (B754_finite false mx ex Bx) eq_refl eq_refl). lra.
Qed.

(** ** The operations of the binary64 instance *)
Lemma val_add : forall x y, val (fadd x y) = rx (xadd (val x) (val y)).
Proof. intros. unfold val. cbn [fadd FloatA]. rewrite add_equiv. apply plus_val. Qed.
Lemma val_sub : forall x y, val (fsub x y) = rx (xsub (val x) (val y)).
Proof. intros. unfold val. cbn [fsub FloatA]. rewrite sub_equiv. apply minus_val. Qed.
Lemma val_mul : forall x y, val (fmul x y) = rx (xmul (val x) (val y)).
Proof. intros. unfold val. cbn [fmul FloatA]. rewrite mul_equiv. apply mult_val. Qed.
Lemma val_div : forall x y, val y <> Fin 0 -> val (fdiv x y) = rx (xdiv (val x) (val y)).
Proof. intros. unfold val. cbn [fdiv FloatA]. rewrite div_equiv. now apply div_val. Qed.
(** a zero divisor: NaN for 0/0; an infinity (its sign that of the zero) or NaN otherwise *)
Lemma val_div_00 : forall x y, val x = Fin 0 -> val y = Fin 0 -> val (fdiv x y) = NaN.
Proof.
  intros x y Hx Hy. unfold val in *. cbn [fdiv FloatA]. rewrite div_equiv, div_0_val by auto. rewrite Hx.
  destruct Req_EM_T; congruence.
Qed.
Lemma val_sqrt : forall x, val (fsqrt x) = match val x with Fin r => if Rlt_dec r 0 then NaN else Fin (rnd (sqrt r)) | NInf => NaN | v => v end.
Proof. intros. unfold val. cbn [fsqrt FloatA]. rewrite sqrt_equiv. apply sqrt_val. Qed.
Lemma val_opp : forall x, val (fopp x) = xopp (val x).
Proof.
  intros. unfold val. cbn [fopp FloatA]. rewrite opp_equiv. destruct (Prim2B x) as [[]|[]| |[] m e H]; cbn [Bopp valB xopp B2R negb cond_Zopp Z.opp]; auto; f_equal; try lra.
  - rewrite <- F2R_Zopp. reflexivity.
  - rewrite <- F2R_Zopp. reflexivity.
Qed.
Lemma val_abs : forall x, val (fabs x) = xabs (val x).
Proof.
  intros. unfold val. cbn [fabs FloatA]. rewrite abs_equiv. destruct (Prim2B x) as [[]|[]| |[] m e H]; cbn [Babs valB xabs B2R cond_Zopp Z.opp]; auto; f_equal.
  - now rewrite Rabs_R0.
  - now rewrite Rabs_R0.
  - rewrite <- F2R_Zabs. reflexivity.
  - rewrite <- F2R_Zabs. reflexivity.
Qed.
Lemma val_nan : forall x, fisnan x = match val x with NaN => true | _ => false end.
Proof. intros. unfold val. cbn [fisnan FloatA]. rewrite is_nan_equiv. destruct (Prim2B x) as [ |[]| | ]; reflexivity. Qed.
Lemma val_inf : forall x, fisinf x = match val x with PInf | NInf => true | _ => false end.
Proof. intros. unfold val. cbn [fisinf FloatA]. unfold float_is_inf. rewrite is_infinity_equiv. destruct (Prim2B x) as [ |[]| | ]; reflexivity. Qed.
Lemma leb_val : forall x y : binary_float prec emax, Bleb x y = xleb (valB x) (valB y).
Proof.
  intros x y. destruct (is_finite x) eqn:Fx, (is_finite y) eqn:Fy.
  - rewrite Bleb_correct by auto. rewrite (valB_fin x), (valB_fin y) by auto. unfold xleb. cbn.
    destruct (Rle_bool_spec (B2R x) (B2R y)); destruct Rlt_dec, Req_EM_T; cbn; auto; lra.
  - destruct x as [[]|[]| |[] mx ex Bx], y as [[]|[]| |[] my ey By]; try discriminate; reflexivity.
  - destruct x as [[]|[]| |[] mx ex Bx], y as [[]|[]| |[] my ey By]; try discriminate; reflexivity.
  - destruct x as [[]|[]| |[] mx ex Bx], y as [[]|[]| |[] my ey By]; try discriminate; reflexivity.
Qed.
Lemma ltb_val : forall x y : binary_float prec emax, Bltb x y = xltb (valB x) (valB y).
Proof.
  intros x y. destruct (is_finite x) eqn:Fx, (is_finite y) eqn:Fy.
  - rewrite Bltb_correct by auto. rewrite (valB_fin x), (valB_fin y) by auto. cbn.
    destruct (Rlt_bool_spec (B2R x) (B2R y)); destruct Rlt_dec; cbn; auto; lra.
  - destruct x as [[]|[]| |[] mx ex Bx], y as [[]|[]| |[] my ey By]; try discriminate; reflexivity.
  - destruct x as [[]|[]| |[] mx ex Bx], y as [[]|[]| |[] my ey By]; try discriminate; reflexivity.
  - destruct x as [[]|[]| |[] mx ex Bx], y as [[]|[]| |[] my ey By]; try discriminate; reflexivity.
Qed.
Lemma eqb_val : forall x y : binary_float prec emax, Beqb x y = xeqb (valB x) (valB y).
Proof.
  intros x y. destruct (is_finite x) eqn:Fx, (is_finite y) eqn:Fy.
  - rewrite Beqb_correct by auto. rewrite (valB_fin x), (valB_fin y) by auto. cbn.
    destruct (Req_bool_spec (B2R x) (B2R y)); destruct Req_EM_T; cbn; auto; lra.
  - destruct x as [[]|[]| |[] mx ex Bx], y as [[]|[]| |[] my ey By]; try discriminate; reflexivity.
  - destruct x as [[]|[]| |[] mx ex Bx], y as [[]|[]| |[] my ey By]; try discriminate; reflexivity.
  - destruct x as [[]|[]| |[] mx ex Bx], y as [[]|[]| |[] my ey By]; try discriminate; reflexivity.
Qed.
Lemma val_leb : forall x y, fleb x y = xleb (val x) (val y).
Proof. intros. cbn [fleb FloatA]. rewrite leb_equiv. apply leb_val. Qed.
Lemma val_ltb : forall x y, fltb x y = xltb (val x) (val y).
Proof. intros. cbn [fltb FloatA]. rewrite ltb_equiv. apply ltb_val. Qed.
Lemma val_eqb : forall x y, feqb x y = xeqb (val x) (val y).
Proof. intros. cbn [feqb FloatA]. rewrite eqb_equiv. apply eqb_val. Qed.

(** ** Rounding *)
Lemma rnd_le : forall a b, a <= b -> rnd a <= rnd b.
Proof. intros. apply round_le; auto with typeclass_instances. Qed.
(** numbers that are floats *)
Definition repr (r : R) : Prop := generic_format radix2 (SpecFloat.fexp prec emax) r.
Lemma rnd_id : forall r, repr r -> rnd r = r.
Proof. intros. apply round_generic; auto with typeclass_instances. Qed.
Lemma repr_val : forall x r, val x = Fin r -> repr r /\ Rabs r < big.
Proof.
  intros x r H. unfold val in H. assert (E : r = B2R (Prim2B x)).
  { destruct (Prim2B x); cbn [valB] in H; try (destruct s; discriminate); try discriminate; now injection H. }
  subst r. split; [apply generic_format_B2R|apply abs_B2R_lt_emax].
Qed.
Lemma rx_id : forall x, rx (val x) = val x.
Proof.
  intros x. destruct (val x) eqn:E; auto. destruct (repr_val x r E) as (H & B). cbn [rx]. rewrite rnd_id by auto. now rewrite Rlt_bool_true.
Qed.
(** integers below 2^53 *)
Lemma repr_Z : forall z, (Z.abs z <= 2 ^ 53)%Z -> repr (IZR z).
Proof.
  intros z Hz. change (generic_format radix2 (FLT_exp (3 - emax - prec) prec) (IZR z)).
  destruct (Z.eq_dec (Z.abs z) (2 ^ 53)) as [E|E].
  - assert (D : IZR z = bpow radix2 53 \/ IZR z = - bpow radix2 53).
    { change (bpow radix2 53) with (IZR (2 ^ 53)). destruct (Z.abs_eq_or_opp z) as [Q|Q]; rewrite Q in E; [left|right]; rewrite <- ?opp_IZR; f_equal; lia. }
    destruct D as [->| ->]; [|apply generic_format_opp]; apply generic_format_FLT_bpow; try exact Hprec; discriminate.
  - apply generic_format_FLT. exists (Float radix2 z 0).
    + unfold F2R. cbn. now rewrite Rmult_1_r.
    + cbn. change (Z.pow_pos 2 53) with (2 ^ 53)%Z. lia.
    + discriminate.
Qed.
Lemma rnd_Z : forall z, (Z.abs z <= 2 ^ 53)%Z -> rnd (IZR z) = IZR z.
Proof. intros. apply rnd_id. now apply repr_Z. Qed.
Lemma big_Z : forall z, (Z.abs z < 2 ^ 63)%Z -> Rabs (rnd (IZR z)) < big.
Proof.
  intros z Hz. unfold rnd. rewrite <- round_NE_abs by auto with typeclass_instances.
  apply Rle_lt_trans with (bpow radix2 63); [|apply bpow_lt; reflexivity].
  apply round_le_generic; auto with typeclass_instances.
  - change (generic_format radix2 (FLT_exp (3 - emax - prec) prec) (bpow radix2 63)). apply generic_format_FLT_bpow; [exact Hprec|discriminate].
  - rewrite <- abs_IZR. change (bpow radix2 63) with (IZR (2 ^ 63)). apply IZR_le. lia.
Qed.
Lemma val_of_uint : forall z, (0 <= z < 2 ^ 63)%Z -> val (PrimFloat.of_uint63 (Uint63.of_Z z)) = Fin (rnd (IZR z)).
Proof.
  intros z Hz. unfold val. rewrite of_int63_equiv. rewrite Uint63.of_Z_spec, Z.mod_small by exact Hz.
  pose proof (binary_normalize_correct prec emax Hprec Hmax mode_NE z 0 false) as H.
  cbv zeta in H. assert (E : F2R (Float radix2 z 0) = IZR z) by (unfold F2R; cbn; lra). rewrite E in H. fold (rnd (IZR z)) in H. fold big in H.
  rewrite Rlt_bool_true in H by (apply big_Z; lia). destruct H as (H & F & _). rewrite valB_fin by auto. now rewrite H.
Qed.
Lemma opp_op : forall y : float, PrimFloat.opp y = fopp y. Proof. reflexivity. Qed.
Lemma val_ofZ : forall z, (Z.abs z < 2 ^ 63)%Z -> val (fofZ z) = Fin (rnd (IZR z)).
Proof.
  intros [|p|p] Hz; cbn [fofZ FloatA float_of_Z].
  - rewrite rnd_0. reflexivity.
  - apply val_of_uint. lia.
  - rewrite opp_op, val_opp, val_of_uint by lia. cbn [xopp].
    f_equal. unfold rnd. rewrite <- round_NE_opp. reflexivity.
Qed.
Lemma val_small : forall z, (Z.abs z <= 2 ^ 53)%Z -> val (fofZ z) = Fin (IZR z).
Proof. intros. rewrite val_ofZ by lia. now rewrite rnd_Z. Qed.
