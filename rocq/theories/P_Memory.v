(** * P_Memory: properties C73 (how far back a series looks) and C74 (how fast
    the exponential averages forget). *)
From Coq Require Import Reals Floats Lra.
From Verif Require Import Api FloatArith Samples SpecNum SpecMemory SpecRepeat SpecForget SpecResidue Rows Running Memory Local Forget.

(** C73.  Rows more than [memory] rows back make no difference: cutting off the
    start of the frame leaves these rows as they are (fillna=False): in exact
    arithmetic. *)
Theorem C73_finite_memory : forall (ind : indicator xr) m,
  memory ind = Some m -> finite_memory m (compute ind false).
Proof. exact (fun ind m => memory_table ind m (or_introl windowed_xr)). Qed.
Print Assumptions C73_finite_memory.

(** C73.  In any arithmetic, binary64 included, for the series that compute each
    window anew. *)
Theorem C73_finite_memory_anew : forall F (A : Arith F) (ind : indicator F) m,
  each_window_anew ind = true -> memory ind = Some m -> finite_memory m (compute ind false).
Proof. exact (fun F A ind m H => memory_table ind m (or_intror H)). Qed.
Print Assumptions C73_finite_memory_anew.

(** C73.  Neither do later rows: a section cut out of a frame shows the same as
    the whole frame from its row [m] on. *)
Theorem C73_sections : forall (ind : indicator xr) m,
  memory ind = Some m -> looks_back ind = true -> local m (compute ind false).
Proof. exact (fun ind m => local_table ind m (or_introl windowed_xr)). Qed.
Print Assumptions C73_sections.
Theorem C73_sections_anew : forall F (A : Arith F) (ind : indicator F) m,
  each_window_anew ind = true -> memory ind = Some m -> looks_back ind = true -> local m (compute ind false).
Proof. exact (fun F A ind m H => local_table ind m (or_intror H)). Qed.
Print Assumptions C73_sections_anew.

Example C73_table :
  memory (Sma 20 : indicator float) = Some 19%nat /\ memory (Stoch 14 3 : indicator float) = Some 13%nat /\
  memory (StochSignal 14 3 : indicator float) = Some 15%nat /\ memory (Dpo 20 : indicator float) = Some 19%nat /\
  memory (Mfi 14 : indicator float) = Some 14%nat /\ memory (Ulcer 14 : indicator float) = Some 26%nat /\
  memory (Kst 10 15 20 30 10 10 10 15 9 : indicator float) = Some 44%nat /\
  memory (IchiB 9 26 52 true : indicator float) = Some 77%nat.
Proof. repeat split. Qed.

(** the two results exist and differ after row m of the shorter frame *)
Definition remembers (m : nat) (f : list (bar float) -> result (list float)) (past rows : list (bar float)) : bool :=
  match f rows, f (past ++ rows) with
  | Ok out, Ok out' => negb (same (skipn (length past + m) out') (skipn m out))
  | _, _ => false
  end.
Lemma remembers_refutes : forall m f past rows, remembers m f past rows = true -> ~ finite_memory m f.
Proof.
  intros m f past rows H N. unfold remembers in H. specialize (N past rows).
  destruct (f rows) as [out|]; [|discriminate]. destruct (f (past ++ rows)) as [out'|]; [|discriminate].
  rewrite (N out out' eq_refl eq_refl), same_refl in H. discriminate.
Qed.
(** the same up to 2^-20, NaN like NaN *)
Fixpoint near (l m : list float) : bool :=
  match l, m with
  | [], [] => true
  | x :: l', y :: m' => ((same1 x y || PrimFloat.ltb (PrimFloat.abs (x - y)) 0x1p-20) && near l' m')%bool
  | _, _ => false
  end.
Lemma near_refl : forall l, near l l = true.
Proof. induction l; cbn; auto. rewrite IHl. unfold same1. destruct (PrimFloat.eqb a a); reflexivity. Qed.
Definition remembers_more (m : nat) (f : list (bar float) -> result (list float)) (past rows : list (bar float)) : bool :=
  match f rows, f (past ++ rows) with
  | Ok out, Ok out' => negb (near (skipn (length past + m) out') (skipn m out))
  | _, _ => false
  end.
Lemma remembers_more_refutes : forall m f past rows, remembers_more m f past rows = true -> ~ finite_memory m f.
Proof.
  intros m f past rows H N. unfold remembers_more in H. specialize (N past rows).
  destruct (f rows) as [out|]; [|discriminate]. destruct (f (past ++ rows)) as [out'|]; [|discriminate].
  rewrite (N out out' eq_refl eq_refl), near_refl in H. discriminate.
Qed.
(** one row of memory less is too little: the result differs by more than any
    rounding error, which it does not from the next row on *)
Definition sharp (ind : indicator float) : Prop :=
  match memory ind with
  | Some (S m) => ~ finite_memory m (compute ind false) /\
      exists past rows, remembers_more m (compute ind false) past rows = true /\ remembers_more (S m) (compute ind false) past rows = false
  | _ => False
  end.
Ltac sharp_on :=
  lazymatch goal with |- sharp ?i => red; cbn [memory];
    let m := eval compute in (memory i) in
    lazymatch m with Some (S ?k) => split;
      [apply remembers_more_refutes with (past := bars_from 20 [(12, 9, 10, 100); (40, 5, 25, 300)]%float) (rows := skipn 1 sample ++ later ++ sample)
      |exists (bars_from 20 [(12, 9, 10, 100); (40, 5, 25, 300)]%float), (skipn 1 sample ++ later ++ sample); split]; vm_compute; reflexivity end end.

(** C73: the bounds are sharp. *)
Theorem C73_sharp :
  (sharp (UltOsc 2 3 4 4%float 2%float 1%float) /\ sharp (Stoch 3 2) /\ sharp (WilliamsR 3) /\ sharp (StochSignal 3 2) /\ sharp (Roc 3) /\
   sharp (AwesomeOsc 2 4) /\ sharp (AroonUp 3) /\ sharp (AroonDown 3) /\ sharp (AroonInd 3)) /\
  (sharp (Sma 3) /\ sharp (Wma 3) /\ sharp (Cci 3 step02) /\ sharp (IchiConv 3 4 5 false) /\ sharp (IchiBase 3 4 5 false) /\
   sharp (IchiA 2 3 4 false) /\ sharp (IchiB 2 3 4 false) /\ sharp (IchiA 2 3 4 true) /\ sharp (IchiB 2 3 4 true) /\
   sharp (Kst 1 2 3 4 2 2 2 3 2) /\ sharp (KstSig 1 2 3 4 2 2 2 3 2) /\ sharp (KstDiff 1 2 3 4 2 2 2 3 2) /\
   sharp (Dpo 4) /\ sharp (VortexPos 2) /\ sharp (VortexNeg 2) /\ sharp (VortexDiff 2)) /\
  (sharp (BbM 3 2%float) /\ sharp (BbH 3 2%float) /\ sharp (BbL 3 2%float) /\ sharp (BbW 3 2%float) /\ sharp (BbP 3 2%float) /\
   sharp (KcM 3 2 true 2%float) /\ sharp (KcH 3 2 true 2%float) /\ sharp (KcL 3 2 true 2%float) /\ sharp (KcW 3 2 true 2%float) /\
   sharp (KcP 3 2 true 2%float) /\ sharp (DcH 3 1) /\ sharp (DcL 3 1) /\ sharp (DcM 3 1) /\ sharp (DcW 3 1) /\ sharp (DcP 3 1) /\
   sharp (Ulcer 3)) /\
  (sharp (Cmf 3) /\ sharp (Vwap 3) /\ sharp (Eom 3) /\ sharp (SmaEom 3) /\ sharp (Mfi 3) /\ sharp DailyReturn).
Proof. repeat match goal with |- _ /\ _ => split end; sharp_on. Qed.
Print Assumptions C73_sharp.

(** C73, binary64: where sums, means and deviations are updated from row to row,
    what happened before the window shows. *)
Theorem C73_binary64_refuted :
  ~ finite_memory 1 (compute (Sma 2) false : list (bar float) -> _) /\
  ~ finite_memory 1 (compute (Vwap 2) false : list (bar float) -> _) /\
  ~ finite_memory 1 (compute (Cmf 2) false : list (bar float) -> _) /\
  ~ finite_memory 4 (compute (BbH 5 2%float) false).
Proof.
  repeat split.
  - apply remembers_refutes with (past := bars_from 0 (map tick [1; 9007199254740994]%float)) (rows := bars_from 2 (map tick [3; 3; 3]%float)); vm_compute; reflexivity.
  - apply remembers_refutes with (past := bars_from 0 [(11, 9, 10, 1); (11, 9, 10, 9007199254740994)]%float)
      (rows := bars_from 2 [(11, 9, 10, 3); (11, 9, 10, 3); (11, 9, 10, 3)]%float); vm_compute; reflexivity.
  - apply remembers_refutes with (past := bars_from 0 [(11, 9, 9, 1); (11, 9, 10, 9007199254740994)]%float)
      (rows := bars_from 2 [(11, 9, 11, 3); (11, 9, 11, 3); (11, 9, 11, 3)]%float); vm_compute; reflexivity.
  - apply remembers_refutes with (past := bars_from 0 bad_tick) (rows := bars_from 81 (repeat (tick penny) 7)); vm_compute; reflexivity.
Qed.
Print Assumptions C73_binary64_refuted.

(** C73: the EMA has no finite memory; one row of the past shows for ever
    (exact arithmetic). *)
Theorem C73_ema_unbounded : forall w m, (2 <= w)%nat -> ~ finite_memory m (@compute xr _ (Ema (Z.of_nat w)) false).
Proof. exact ema_no_memory. Qed.
Print Assumptions C73_ema_unbounded.

Local Open Scope R_scope.

(** C74.  Two histories whose closes differ by at most D on the first k rows and
    agree afterwards: the EMAs differ by at most (1 - alpha)^(i+1-k) D. *)
Theorem C74_ema_forgets : forall fillna w n h l c v h' l' c' v' k D, (1 <= w)%nat -> (1 <= k)%nat ->
  closes_within D k c c' ->
  differ_at_most (fun i => (1 - 2 / (INR w + 1)) ^ (S i - k) * D) (Nat.max k (warm fillna w)) n
    (compute (Ema (Z.of_nat w)) fillna (frame n h l c v)) (compute (Ema (Z.of_nat w)) fillna (frame n h' l' c' v')).
Proof. exact ema_forgets. Qed.
Print Assumptions C74_ema_forgets.

Theorem C74_macd_forgets : forall fillna s f g n h l c v h' l' c' v' k D,
  (1 <= s)%nat -> (1 <= f)%nat -> (1 <= g)%nat -> (1 <= k)%nat -> closes_within D k c c' ->
  differ_at_most (fun i => ((1 - 2 / (INR f + 1)) ^ (S i - k) + (1 - 2 / (INR s + 1)) ^ (S i - k)) * D)
    (Nat.max k (warm fillna (Nat.max f s))) n
    (compute (Macd (Z.of_nat s) (Z.of_nat f) (Z.of_nat g)) fillna (frame n h l c v))
    (compute (Macd (Z.of_nat s) (Z.of_nat f) (Z.of_nat g)) fillna (frame n h' l' c' v')).
Proof. exact macd_forgets. Qed.
Print Assumptions C74_macd_forgets.

(** C74: the ATR of two such histories (high, low and close within D). *)
Theorem C74_atr_forgets : forall fillna w n h l c v h' l' c' v' k D, (1 <= w)%nat -> (w <= n)%nat -> (1 <= k)%nat ->
  closes_within D k h h' -> closes_within D k l l' -> closes_within D k c c' ->
  differ_at_most (fun i => (1 - 1 / INR w) ^ (i - Nat.max k (w - 1)) * (2 * D)) (Nat.max k (w - 1)) n
    (compute (Atr (Z.of_nat w)) fillna (frame n h l c v)) (compute (Atr (Z.of_nat w)) fillna (frame n h' l' c' v')).
Proof. exact atr_forgets. Qed.
Print Assumptions C74_atr_forgets.

Example C74_hyps : closes_within 3 2 (fun i => match i with O => 10 | 1%nat => 12 | _ => 11 end)
                                     (fun i => match i with O => 13 | 1%nat => 11 | _ => 11 end).
Proof.
  split; intros j Hj.
  - do 2 (destruct j; [unfold Rabs; destruct Rcase_abs; lra|]). lia.
  - do 2 (destruct j; [lia|]). reflexivity.
Qed.
