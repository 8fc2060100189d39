(** * P_Warmup: property C10, exact arithmetic.

    [warms_up ind k] (SpecWarm.v) is the table of warm-up lengths; [lively]
    data has positive prices, ranges and volumes, so that no denominator of
    the indicators in the table vanishes. *)
From Coq Require Import Floats.
From Verif Require Import Api FloatArith SpecNum SpecWarm Warmup SpecQuiet Quiet.
Local Open Scope R_scope.

(** C10. *)
Theorem C10_warm_up_rows : forall n h l c v, lively n h l c v -> forall ind k out, warms_up ind k ->
  compute ind false (frame n h l c v) = Ok out -> begins k n out.
Proof. exact warm_up. Qed.
Print Assumptions C10_warm_up_rows.

(** the table on the rows named in the property: 12/26/9 MACD, 5/34 awesome
    oscillator, a 14 row RSI, 25 row Aroon *)
Example C10_table : warms_up (Macd 26 12 9) 25 /\ warms_up (MacdSignal 26 12 9) 33 /\ warms_up (AwesomeOsc 5 34) 33 /\
  warms_up (Rsi 14) 13 /\ warms_up (AroonUp 25) 25 /\ warms_up (Roc 12) 12 /\ warms_up (Fi 13) 13 /\ warms_up (Vwap 14) 13 /\
  warms_up (BbH 20 (Fin 2)) 19 /\ warms_up (DcH 20 3) 22.
Proof. cbn [warms_up]. repeat split; repeat constructor; lia. Qed.
Example C10_applies : lively 99 (fun i => INR i + 3) (fun i => INR i + 1) (fun i => INR i + 2) (fun _ => 5) /\
  exists out, compute (MacdSignal 26 12 9) false (frame 99 (fun i => INR i + 3) (fun i => INR i + 1) (fun i => INR i + 2) (fun _ => 5)) = Ok out.
Proof.
  split; [intros i _; pose proof (pos_INR i); lra|].
  eexists. apply (Averages.macd_formula false 26 12 9); lia.
Qed.

(** With any data (missing or infinite cells included) and any arithmetic with
    IEEE's treatment of NaN - exact or binary64 - no number comes earlier.
    The table [silent] also covers StochRSI, TSI, CCI, MFI, STC, the Bollinger
    percentage and the one-sided PSAR lines. *)
Theorem C10_never_earlier : forall {F} {A : Arith F} {L : ArithLaws F} (ind : indicator F) k rows out, silent ind k ->
  compute ind false rows = Ok out -> quiet k out.
Proof. exact @silent_quiet. Qed.
Print Assumptions C10_never_earlier.

(** the two tables agree *)
Example C10_tables_agree : forall ind k, warms_up ind k -> (0 < k)%nat -> silent ind k.
Proof.
  intros ind k W K. destruct ind; cbn [warms_up silent] in *; try exact W; try tauto; try lia;
    repeat match goal with x : xr |- _ => destruct x | b : bool |- _ => destruct b | o : option Z |- _ => destruct o end; try tauto; try lia;
    unfold okw, atleast1 in *; repeat match goal with W : _ /\ _ |- _ => destruct W end; repeat split; try assumption; try lia;
    repeat match goal with W : Forall _ (_ :: _) |- _ => apply Forall_cons_iff in W; destruct W end;
    repeat (apply Forall_cons; [assumption|]); try apply Forall_nil.
Qed.
(** in binary64, on a column with a gap *)
Example C10_early_rows : silent (F := float) (Tsi 3 2) 4 /\
  exists out, compute (F := float) (Tsi 3 2) false
    (map (fun c => mkbar 0 c c c 1%float) [1; 2; nan; 4; 3; 5; 2; 8]%float) = Ok out /\ fisnan (nth 6 out fnan) = false.
Proof. split; [split; [repeat constructor; lia|reflexivity]|]. eexists. split; [vm_compute; reflexivity|vm_compute; reflexivity]. Qed.
