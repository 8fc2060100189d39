(** * P_Halt: property C89, what a stretch of unchanging prices does to the
    series after an arbitrary history. *)
From Coq Require Import Reals Floats Lra.
From Verif Require Import Api FloatArith Samples SpecNum SpecMemory SpecHalt Halt.
Local Open Scope R_scope.

(** C89.  Prices move in any way ([past]: gaps and infinities included), then
    stay at p.  Once the halt covers the rows a series looks at
    (SpecMemory.memory), the series shows the resting value of SpecHalt.rests_at
    on every row. *)
Theorem C89_resting_values : forall p ind x m past rows out, 0 < p -> Forall (halted p) rows -> rests_at p ind x -> memory ind = Some m ->
  compute ind false (past ++ rows) = Ok out ->
  forall i, (length past + m <= i < length past + length rows)%nat -> nth i out NaN = x.
Proof. exact halt_table. Qed.
Print Assumptions C89_resting_values.

(** RSI and +DI/-DI do not decay: a row that repeats the close (a bar without
    range at the previous close) repeats the indicator. *)
Theorem C89_rsi_stands_still : forall fillna w n h l c v i out, (2 <= w)%nat -> (warm fillna w < i < n)%nat -> c i = c (i - 1)%nat ->
  compute (Rsi (Z.of_nat w)) fillna (frame n h l c v) = Ok out -> nth i out NaN = nth (i - 1) out NaN.
Proof. exact rsi_still. Qed.
Print Assumptions C89_rsi_stands_still.
Theorem C89_directional_stand_still : forall fillna w n h l c v i p q, (2 <= w)%nat -> (S w < i < n)%nat ->
  l (i - 1)%nat <= c (i - 1)%nat <= h (i - 1)%nat -> h i = c (i - 1)%nat -> l i = c (i - 1)%nat ->
  compute (AdxPos (Z.of_nat w)) fillna (frame n h l c v) = Ok p -> compute (AdxNeg (Z.of_nat w)) fillna (frame n h l c v) = Ok q ->
  nth i p NaN = nth (i - 1) p NaN /\ nth i q NaN = nth (i - 1) q NaN.
Proof. exact di_rows_still. Qed.
Print Assumptions C89_directional_stand_still.

(** closes 10, 11, 10.5, then 10.5 for k rows *)
Definition halt64 (k : nat) : list (bar float) :=
  bars_from 0 ([(10, 10, 10, 1); (11, 11, 11, 1)] ++ repeat (10.5, 10.5, 10.5, 1) (S k))%float.
(** In binary64 the averages run out of precision when they become subnormal:
    with window 2 the RSI jumps from 50 to 100 on an unchanged close, and with
    the default window 14 it drifts from 65 to 50. *)
Theorem C89_rsi_stands_still_in_binary64_refuted :
  ~ (forall (rows : list (bar float)) out i, compute (Rsi 2) false rows = Ok out -> (2 <= i < length rows)%nat ->
       PrimFloat.eqb (nth i (map b_close rows) nan) (nth (i - 1) (map b_close rows) nan) = true ->
       PrimFloat.leb (PrimFloat.abs (PrimFloat.sub (nth i out nan) (nth (i - 1) out nan))) 49 = true) /\
  ~ (forall (rows : list (bar float)) out i j p, compute (Rsi 14) false rows = Ok out -> (14 <= i <= j)%nat -> (j < length rows)%nat ->
       forallb (fun b => PrimFloat.eqb (b_close b) p) (skipn i rows) = true ->
       PrimFloat.leb (PrimFloat.abs (PrimFloat.sub (nth j out nan) (nth i out nan))) 14 = true).
Proof.
  split; intros H.
  - specialize (H (halt64 (11 * 100)) (match compute (Rsi 2) false (halt64 (11 * 100)) with Ok o => o | _ => [] end) (3 * 300 + 175)%nat).
    assert (E : (3 * 300 + 175 < length (halt64 (11 * 100)))%nat) by (apply Nat.ltb_lt; vm_compute; reflexivity).
    specialize (H ltac:(vm_compute; reflexivity) ltac:(split; [lia|exact E]) ltac:(vm_compute; reflexivity)).
    vm_compute in H. discriminate.
  - specialize (H (halt64 (110 * 100)) (match compute (Rsi 14) false (halt64 (110 * 100)) with Ok o => o | _ => [] end) 14%nat (109 * 100)%nat 10.5%float).
    assert (E : (109 * 100 < length (halt64 (110 * 100)))%nat) by (apply Nat.ltb_lt; vm_compute; reflexivity).
    specialize (H ltac:(vm_compute; reflexivity) ltac:(split; [lia|apply Nat.leb_le; vm_compute; reflexivity]) E ltac:(vm_compute; reflexivity)).
    vm_compute in H. discriminate.
Qed.
Print Assumptions C89_rsi_stands_still_in_binary64_refuted.

(** two bars of history with a gap, then five rows at 7 *)
Example C89_applies :
  let past := [mkbar 0 (Fin 9) (Fin 3) (Fin 5) (Fin 1); mkbar 1 NaN NaN NaN NaN] in
  let halt := map (fun i => mkbar (Z.of_nat i) (Fin 7) (Fin 7) (Fin 7) (Fin 1)) (seq 2 5) in
  Forall (halted 7) halt /\ rests_at 7 (BbH 3 (Fin 2)) (Fin 7) /\ memory (BbH 3 (Fin 2) : indicator xr) = Some 2%nat /\
  (exists out, compute (BbH 3 (Fin 2)) false (past ++ halt) = Ok out) /\ (length past + 2 <= 5 < length past + length halt)%nat.
Proof.
  cbv zeta. split; [|split; [|split; [|split]]].
  - repeat constructor; exists 1; split; auto; lra.
  - cbn. repeat split; auto. lia.
  - reflexivity.
  - eexists. reflexivity.
  - cbn. lia.
Qed.
Example C89_still_applies :
  let c := fun i => nth i [1; 3; 2; 2] 0 in
  (warm false 2 < 3 < 4)%nat /\ c 3%nat = c (3 - 1)%nat /\ (exists out, compute (Rsi (Z.of_nat 2)) false (frame 4 c c c c) = Ok out) /\
  let k := fun i => nth i [1; 3; 2; 4; 2; 2] 0 in
  (S 2 < 5 < 6)%nat /\ k 4%nat <= k 4%nat <= k 4%nat /\ k 5%nat = k 4%nat /\
  exists out, compute (AdxPos (Z.of_nat 2)) false (frame 6 k k k k) = Ok out.
Proof. cbv zeta. repeat split; cbn; auto; try lia; try lra; eexists; reflexivity. Qed.
