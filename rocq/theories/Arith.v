(** * Arith: the arithmetic the model is parameterised by.

    ta computes on float64 pandas columns.  The model is written once, over an
    arbitrary implementation [Arith F] of the float operations the code uses,
    and is used at two instances:
    - [XR]: exact real arithmetic extended with NaN, +inf and -inf (one
      unsigned zero, no rounding), for the value/range theorems;
    - binary64 ([FloatArith.v], Coq's primitive floats), for execution and for
      refutations that must survive rounding.
    Structural theorems (alignment, no look-ahead, gap filling) are proved for
    every instance. *)
From Coq Require Export ZArith List Bool Arith Lia.
From Coq Require Export Reals Lra.
Export ListNotations.
Open Scope nat_scope.
Open Scope bool_scope.

(** The operations of numpy/pandas float64 scalars used by /repo/ta.
    Comparisons are IEEE: false when an operand is NaN. *)
Class Arith (F : Type) : Type := {
  fnan  : F;
  fofZ  : Z -> F;
  fadd  : F -> F -> F;
  fsub  : F -> F -> F;
  fmul  : F -> F -> F;
  fdiv  : F -> F -> F;
  fopp  : F -> F;
  fabs  : F -> F;
  fsqrt : F -> F;
  fltb  : F -> F -> bool;
  fleb  : F -> F -> bool;
  feqb  : F -> F -> bool;
  fisnan : F -> bool;
  fisinf : F -> bool
}.

Declare Scope f_scope.
Delimit Scope f_scope with F.
Infix "+." := fadd (at level 50, left associativity) : f_scope.
Infix "-." := fsub (at level 50, left associativity) : f_scope.
Infix "**." := fmul (at level 40, left associativity) : f_scope.
Infix "/." := fdiv (at level 40, left associativity) : f_scope.
Infix "<.?" := fltb (at level 70) : f_scope.
Infix "<=.?" := fleb (at level 70) : f_scope.
Infix "=.?" := feqb (at level 70) : f_scope.
Notation "# z" := (fofZ z%Z) (at level 2, format "# z") : f_scope.

(** Minimal facts about NaN used by the structural theorems about gaps.
    Both instances satisfy them (see [XR_laws] below and [Float_laws] in
    FloatArith.v). *)
Class ArithLaws (F : Type) {A : Arith F} : Prop := {
  isnan_nan : fisnan fnan = true;
  nan_unique : forall x, fisnan x = true -> x = fnan;
  isinf_nan : fisinf fnan = false;
  isnan_small : forall z, (-1000 <= z <= 1000)%Z -> fisnan (fofZ z) = false;
  isinf_small : forall z, (-1000 <= z <= 1000)%Z -> fisinf (fofZ z) = false;
  add_nan_l : forall x y, fisnan x = true -> fisnan (fadd x y) = true;
  add_nan_r : forall x y, fisnan y = true -> fisnan (fadd x y) = true;
  sub_nan_l : forall x y, fisnan x = true -> fisnan (fsub x y) = true;
  sub_nan_r : forall x y, fisnan y = true -> fisnan (fsub x y) = true;
  mul_nan_l : forall x y, fisnan x = true -> fisnan (fmul x y) = true;
  mul_nan_r : forall x y, fisnan y = true -> fisnan (fmul x y) = true;
  div_nan_l : forall x y, fisnan x = true -> fisnan (fdiv x y) = true;
  div_nan_r : forall x y, fisnan y = true -> fisnan (fdiv x y) = true;
  abs_nan : forall x, fisnan (fabs x) = fisnan x;
  opp_nan : forall x, fisnan (fopp x) = fisnan x;
  ltb_nan_l : forall x y, fisnan x = true -> fltb x y = false;
  ltb_nan_r : forall x y, fisnan y = true -> fltb x y = false;
  eqb_nan_l : forall x y, fisnan x = true -> feqb x y = false
}.

(** ** Extended reals *)
Inductive xr : Type := NaN | PInf | NInf | Fin (r : R).

Definition xopp (x : xr) : xr :=
  match x with NaN => NaN | PInf => NInf | NInf => PInf | Fin a => Fin (- a) end.

Definition xadd (x y : xr) : xr :=
  match x, y with
  | NaN, _ | _, NaN => NaN
  | Fin a, Fin b => Fin (a + b)
  | PInf, NInf | NInf, PInf => NaN
  | PInf, _ | _, PInf => PInf
  | NInf, _ | _, NInf => NInf
  end.

Definition xsub (x y : xr) : xr := xadd x (xopp y).

(** sign: -1, 0, 1 *)
Definition rsign (a : R) : Z :=
  if Rlt_dec 0 a then 1%Z else if Rlt_dec a 0 then (-1)%Z else 0%Z.

Definition xsign (x : xr) : Z :=
  match x with NaN => 0%Z | PInf => 1%Z | NInf => (-1)%Z | Fin a => rsign a end.

(** infinity of the given sign; NaN for sign 0 (0 * inf, 0 / 0) *)
Definition xinf (s : Z) : xr :=
  if (s =? 0)%Z then NaN else if (0 <? s)%Z then PInf else NInf.

Definition xmul (x y : xr) : xr :=
  match x, y with
  | NaN, _ | _, NaN => NaN
  | Fin a, Fin b => Fin (a * b)
  | _, _ => xinf (xsign x * xsign y)
  end.

(** Division as in IEEE 754 with an unsigned zero: a/0 has the sign of a. *)
Definition xdiv (x y : xr) : xr :=
  match x, y with
  | NaN, _ | _, NaN => NaN
  | Fin a, Fin b =>
      if Req_EM_T b 0 then xinf (rsign a) else Fin (a / b)
  | Fin _, _ => Fin 0
  | _, Fin b => if Rlt_dec b 0 then xinf (- xsign x) else x
  | _, _ => NaN
  end.

Definition xabs (x : xr) : xr :=
  match x with NaN => NaN | PInf => PInf | NInf => PInf | Fin a => Fin (Rabs a) end.

Definition xsqrt (x : xr) : xr :=
  match x with
  | NaN => NaN | PInf => PInf | NInf => NaN
  | Fin a => if Rlt_dec a 0 then NaN else Fin (sqrt a)
  end.

(** natural logarithm as np.log: log 0 = -inf, log of a negative is NaN *)
Definition xln (x : xr) : xr :=
  match x with
  | NaN => NaN | PInf => PInf | NInf => NaN
  | Fin a => if Rlt_dec 0 a then Fin (ln a) else if Rlt_dec a 0 then NaN else NInf
  end.

Definition xltb (x y : xr) : bool :=
  match x, y with
  | NaN, _ | _, NaN => false
  | Fin a, Fin b => if Rlt_dec a b then true else false
  | NInf, NInf => false
  | NInf, _ => true
  | _, NInf => false
  | PInf, _ => false
  | _, PInf => true
  end.

Definition xeqb (x y : xr) : bool :=
  match x, y with
  | Fin a, Fin b => if Req_EM_T a b then true else false
  | PInf, PInf => true
  | NInf, NInf => true
  | _, _ => false
  end.

Definition xleb (x y : xr) : bool := xltb x y || xeqb x y.

Definition xisnan (x : xr) : bool := match x with NaN => true | _ => false end.
Definition xisinf (x : xr) : bool := match x with PInf | NInf => true | _ => false end.

#[export] Instance XR : Arith xr := {|
  fnan := NaN; fofZ := fun z => Fin (IZR z);
  fadd := xadd; fsub := xsub; fmul := xmul; fdiv := xdiv;
  fopp := xopp; fabs := xabs; fsqrt := xsqrt;
  fltb := xltb; fleb := xleb; feqb := xeqb;
  fisnan := xisnan; fisinf := xisinf |}.

#[export] Instance XR_laws : ArithLaws xr.
Proof.
  constructor; cbn; intros;
    repeat match goal with x : xr |- _ => destruct x; cbn in *; try easy end;
    try easy; repeat destruct Rlt_dec; easy.
Qed.

(** A finite number (neither NaN nor infinite). *)
Definition ffinite {F} {A : Arith F} (x : F) : bool := negb (fisnan x) && negb (fisinf x).
