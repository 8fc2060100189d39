(** * Samples: concrete binary64 frames for examples and refutations. *)
From Coq Require Import Floats.
From Verif Require Import Api FloatArith SpecCausal.

(** rows from (high, low, close, volume), labelled 0, 1, 2, ... *)
Fixpoint bars_from (i : Z) (l : list (float * float * float * float)) : list (bar float) :=
  match l with
  | [] => []
  | (h, lo, c, v) :: r => mkbar i h lo c v :: bars_from (i + 1) r
  end.

Definition sample : list (bar float) := bars_from 0
  [(12, 9, 10, 100); (13, 10, 12, 80); (14, 11, 11, 120); (15, 12, 14, 90);
   (16, 13, 13, 70); (15, 11, 12, 60); (14, 10, 11, 150); (13, 9, 10, 140);
   (12, 8, 11, 30); (15, 10, 14, 110); (17, 13, 16, 95); (18, 14, 15, 105)]%float.
Definition later : list (bar float) := bars_from 12 [(21, 16, 20, 130); (22, 17, 18, 60)]%float.

(** 0.02 and 0.2, the default PSAR steps *)
Definition step02 : float := 0x1.47ae147ae147bp-6%float.
Definition step2 : float := 0x1.999999999999ap-3%float.

(** equality of rows up to IEEE equality, NaN equal to NaN *)
Definition same1 (x y : float) : bool :=
  (PrimFloat.eqb x y || (negb (PrimFloat.eqb x x) && negb (PrimFloat.eqb y y)))%bool.
Fixpoint same (l m : list float) : bool :=
  match l, m with
  | [], [] => true
  | x :: l', y :: m' => (same1 x y && same l' m')%bool
  | _, _ => false
  end.
Lemma same_refl : forall l, same l l = true.
Proof.
  induction l; cbn; auto. rewrite IHl. unfold same1. destruct (PrimFloat.eqb a a); reflexivity.
Qed.

(** the two results exist and disagree on the rows present in both *)
Definition changes (f : list (bar float) -> result (list float)) (rows more : list (bar float)) : bool :=
  match f rows, f (rows ++ more) with
  | Ok out, Ok out' => negb (same (firstn (length rows) out') out)
  | _, _ => false
  end.
Lemma changes_refutes : forall f rows more, changes f rows more = true -> ~ no_lookahead f.
Proof.
  intros f rows more H N. unfold changes in H. specialize (N rows more).
  destruct (f rows) as [out|]; [|discriminate]. destruct (f (rows ++ more)) as [out'|]; [|discriminate].
  rewrite (N out out' eq_refl eq_refl), same_refl in H. discriminate.
Qed.

Lemma sample_numeric : rows_numeric 4 sample.
Proof.
  intros i p b Hi. change (Z.to_nat 4) with 4 in Hi.
  do 4 (destruct i; [cbn; intros H H'; injection H as <-; injection H' as <-;
                     split; [|split]; vm_compute; reflexivity|]). lia.
Qed.

(** some row is finite without fillna and different with it *)
Fixpoint differs (l m : list float) : bool :=
  match l, m with
  | x :: l', y :: m' => (ffinite x && negb (PrimFloat.eqb x y) || differs l' m')%bool
  | _, _ => false
  end.
Definition fill_changes (ind : indicator float) (rows : list (bar float)) : bool :=
  match compute ind false rows, compute ind true rows with
  | Ok out, Ok out' => differs out out'
  | _, _ => false
  end.
