(** * FloatArith: the binary64 instance (Coq primitive floats). *)
From Coq Require Import Floats Uint63 FloatAxioms FloatLemmas SpecFloat.
From Verif Require Import Arith.

(** Exact for |z| < 2^53; only small literals are used by the code. *)
Definition float_of_Z (z : Z) : float :=
  match z with
  | Z0 => 0%float
  | Zpos _ => PrimFloat.of_uint63 (Uint63.of_Z z)
  | Zneg p => (- PrimFloat.of_uint63 (Uint63.of_Z (Zpos p)))%float
  end.

Definition float_is_inf (x : float) : bool := PrimFloat.is_infinity x.

#[export] Instance FloatA : Arith float := {|
  fnan := PrimFloat.nan; fofZ := float_of_Z;
  fadd := PrimFloat.add; fsub := PrimFloat.sub; fmul := PrimFloat.mul; fdiv := PrimFloat.div;
  fopp := PrimFloat.opp; fabs := PrimFloat.abs; fsqrt := PrimFloat.sqrt;
  fltb := PrimFloat.ltb; fleb := PrimFloat.leb; feqb := PrimFloat.eqb;
  fisnan := PrimFloat.is_nan; fisinf := float_is_inf |}.

(** ** The binary64 instance satisfies the NaN laws *)
Lemma Prim2SF_inj : forall x y, Prim2SF x = Prim2SF y -> x = y.
Proof. intros. rewrite <- (SF2Prim_Prim2SF x), <- (SF2Prim_Prim2SF y). now rewrite H. Qed.

Lemma is_nan_spec : forall x, PrimFloat.is_nan x = true <-> Prim2SF x = S754_nan.
Proof.
  intros. unfold PrimFloat.is_nan. rewrite FloatAxioms.eqb_spec. unfold SFeqb, SFcompare.
  destruct (Prim2SF x) as [b|b| |b m e]; split; intro H; try discriminate; auto;
    destruct b; cbn in H; try discriminate;
    rewrite ?Z.compare_refl, ?Pos.compare_cont_refl in H; discriminate.
Qed.

Lemma is_nan_eq : forall x, PrimFloat.is_nan x = true -> x = PrimFloat.nan.
Proof. intros. apply Prim2SF_inj. apply is_nan_spec in H. rewrite H. reflexivity. Qed.

#[export] Instance Float_laws : ArithLaws float.
Proof.
  constructor; cbn [fnan fofZ fadd fsub fmul fdiv fopp fabs fltb feqb fisnan fisinf FloatA]; intros.
  - reflexivity.
  - now apply is_nan_eq.
  - reflexivity.
  - assert (Hz : forallb (fun k => negb (PrimFloat.is_nan (float_of_Z (Z.of_nat k - 1000)))) (seq 0 2001) = true)
      by (vm_compute; reflexivity).
    rewrite forallb_forall in Hz. specialize (Hz (Z.to_nat (z + 1000))).
    rewrite in_seq in Hz. replace (Z.of_nat (Z.to_nat (z + 1000)) - 1000)%Z with z in Hz by lia.
    apply negb_true_iff. apply Hz. lia.
  - assert (Hz : forallb (fun k => negb (float_is_inf (float_of_Z (Z.of_nat k - 1000)))) (seq 0 2001) = true)
      by (vm_compute; reflexivity).
    rewrite forallb_forall in Hz. specialize (Hz (Z.to_nat (z + 1000))).
    rewrite in_seq in Hz. replace (Z.of_nat (Z.to_nat (z + 1000)) - 1000)%Z with z in Hz by lia.
    apply negb_true_iff. apply Hz. lia.
  - apply is_nan_spec. apply is_nan_spec in H. rewrite FloatAxioms.add_spec, H. reflexivity.
  - apply is_nan_spec. apply is_nan_spec in H. rewrite FloatAxioms.add_spec, H. now destruct (Prim2SF x).
  - apply is_nan_spec. apply is_nan_spec in H. rewrite FloatAxioms.sub_spec, H. reflexivity.
  - apply is_nan_spec. apply is_nan_spec in H. rewrite FloatAxioms.sub_spec, H. now destruct (Prim2SF x).
  - apply is_nan_spec. apply is_nan_spec in H. rewrite FloatAxioms.mul_spec, H. reflexivity.
  - apply is_nan_spec. apply is_nan_spec in H. rewrite FloatAxioms.mul_spec, H. now destruct (Prim2SF x).
  - apply is_nan_spec. apply is_nan_spec in H. rewrite FloatAxioms.div_spec, H. reflexivity.
  - apply is_nan_spec. apply is_nan_spec in H. rewrite FloatAxioms.div_spec, H. now destruct (Prim2SF x).
  - apply eq_iff_eq_true. rewrite !is_nan_spec, FloatAxioms.abs_spec. destruct (Prim2SF x); cbn; split; congruence.
  - apply eq_iff_eq_true. rewrite !is_nan_spec, FloatAxioms.opp_spec. destruct (Prim2SF x); cbn; split; congruence.
  - apply is_nan_spec in H. rewrite FloatAxioms.ltb_spec, H. reflexivity.
  - apply is_nan_spec in H. rewrite FloatAxioms.ltb_spec, H. now destruct (Prim2SF x).
  - apply is_nan_spec in H. rewrite FloatAxioms.eqb_spec, H. reflexivity.
Qed.
