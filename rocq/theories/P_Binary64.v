(** * P_Binary64: properties C79-C82.

    Binary64 arithmetic with its rounding, overflow and signed zeros, as the
    library runs.  Vocabulary: SpecBinary64.v.  The one assumption on windows,
    100 * w <= 2^53, holds for every frame a machine can hold. *)
From Coq Require Import Floats.
From Verif Require Import Api FloatArith Samples SpecBinary64 Binary64.
Local Open Scope float_scope.
(** checks a property of literal rows *)
Ltac rows_by t := unfold sample, bars_from; repeat (apply Forall_cons; [t; vm_compute; reflexivity|]); apply Forall_nil.

(** C79: any rows, missing and infinite cells included. *)
Theorem C79_ranges_in_binary64 : forall ind lo hi w fillna rows out,
  machine_range ind = Some (lo, hi, w) -> (100 * w <= 2 ^ 53)%Z ->
  compute ind fillna rows = Ok out -> Forall (between lo hi) out.
Proof. exact machine_ranges. Qed.
Print Assumptions C79_ranges_in_binary64.
Theorem C79_atr_not_negative_in_binary64 : forall w fillna rows out,
  (1 <= w)%Z -> (100 * w <= 2 ^ 53)%Z -> Forall low_high rows ->
  compute (Atr w) fillna rows = Ok out -> Forall (between 0 infinity) out.
Proof. exact machine_atr. Qed.
Print Assumptions C79_atr_not_negative_in_binary64.
(** on the sample frame every such series has a value strictly inside its range *)
Definition inside (ind : indicator float) (lo hi : float) : bool :=
  match compute ind false sample with
  | Ok out => existsb (fun x => PrimFloat.ltb lo x && PrimFloat.ltb x hi) out
  | Raise _ => false
  end.
Example C79_applies :
  forallb (fun ind => match machine_range ind with Some (lo, hi, w) => inside ind lo hi && (100 * w <=? 2 ^ 53)%Z | None => false end)
    [Rsi 3; Mfi 3; AroonUp 3; AroonDown 3; Adx 3; StochRsi 3 2 2; AroonInd 3; AdxPos 3; AdxNeg 3; Ulcer 3] = true /\
  inside (Atr 3) 0 infinity = true /\ Forall low_high sample.
Proof.
  split; [vm_compute; reflexivity|]. split; [vm_compute; reflexivity|].
  rows_by ltac:(right; right).
Qed.
(** a frame with a missing, an infinite and an overflowing cell *)
Example C79_applies_to_bad_rows :
  match compute (Rsi 2) true (bars_from 0 [(1, 1, nan, 1); (1, 1, 3, 1); (1, 1, infinity, 1); (1, 1, -0x1.fffffffffffffp1023, 1); (1, 1, 2, 1)]) with
  | Ok out => forallb (fun x => PrimFloat.leb 0 x && PrimFloat.leb x 100) out = true /\ length out = 5%nat
  | Raise _ => False
  end.
Proof. vm_compute. split; reflexivity. Qed.

(** C80. *)
Theorem C80_bollinger_ordered_in_binary64 : forall w dev rows m h l, PrimFloat.leb 0 dev = true ->
  compute (BbM w dev) false rows = Ok m -> compute (BbH w dev) false rows = Ok h -> compute (BbL w dev) false rows = Ok l ->
  Forall2 below l m /\ Forall2 below m h.
Proof. exact machine_bollinger. Qed.
Print Assumptions C80_bollinger_ordered_in_binary64.
Theorem C80_keltner_ordered_in_binary64 : forall w wa mult rows m h l,
  PrimFloat.leb 0 mult = true -> (1 <= wa)%Z -> (100 * wa <= 2 ^ 53)%Z -> Forall low_high rows ->
  compute (KcM w wa false mult) false rows = Ok m -> compute (KcH w wa false mult) false rows = Ok h ->
  compute (KcL w wa false mult) false rows = Ok l -> Forall2 below l m /\ Forall2 below m h.
Proof. exact machine_keltner. Qed.
Print Assumptions C80_keltner_ordered_in_binary64.
Theorem C80_donchian_ordered_in_binary64 : forall w o fillna rows m h l, Forall priced rows ->
  compute (DcM w o) fillna rows = Ok m -> compute (DcH w o) fillna rows = Ok h -> compute (DcL w o) fillna rows = Ok l ->
  Forall2 below l m /\ Forall2 below m h.
Proof. exact machine_donchian. Qed.
Print Assumptions C80_donchian_ordered_in_binary64.
Theorem C80_donchian_pband_in_binary64 : forall w o fillna rows out, Forall priced rows ->
  compute (DcP w o) fillna rows = Ok out -> Forall (between 0 1) out.
Proof. exact machine_donchian_pband. Qed.
Print Assumptions C80_donchian_pband_in_binary64.
Example C80_applies : Forall priced sample /\ inside (DcP 3 0) 0 1 = true /\
  inside (BbM 3 2) 0 infinity && inside (BbH 3 2) 0 infinity && inside (BbL 3 2) 0 infinity = true /\
  inside (KcM 3 3 false 2) 0 infinity && inside (KcH 3 3 false 2) 0 infinity && inside (KcL 3 3 false 2) 0 infinity = true /\
  inside (DcM 3 0) 0 infinity && inside (DcH 3 0) 0 infinity && inside (DcL 3 0) 0 infinity = true.
Proof. split; [rows_by ltac:(repeat split)|repeat split; vm_compute; reflexivity]. Qed.

(** C81: the float next to 100 is 0x1.9000000000001p+6; C66 shows it is reached. *)
Theorem C81_stochastic_one_rounding_past_100 : forall w s fillna rows out, Forall bounded_row rows ->
  compute (Stoch w s) fillna rows = Ok out -> Forall (between 0 0x1.9000000000001p+6) out.
Proof. exact machine_stoch. Qed.
Print Assumptions C81_stochastic_one_rounding_past_100.
Theorem C81_williams_one_rounding_past_minus_100 : forall n fillna rows out, Forall bounded_row rows ->
  compute (WilliamsR n) fillna rows = Ok out -> Forall (between (- 0x1.9000000000001p+6) 0) out.
Proof. exact machine_williams. Qed.
Print Assumptions C81_williams_one_rounding_past_minus_100.
Theorem C81_bound_is_next_after_100 : PrimFloat.next_up 100 = 0x1.9000000000001p+6 /\
  exists rows, Forall bounded_row rows /\ compute (Stoch 1 1) false rows = Ok [0x1.9000000000001p+6].
Proof.
  split; [vm_compute; reflexivity|]. exists (bars_from 0 [(0x1.1c28f5c28f5c3p+0, 1, 0x1.1c28f5c28f5c3p+0, 1)]).
  split; [rows_by ltac:(repeat split)|vm_compute; reflexivity].
Qed.
Print Assumptions C81_bound_is_next_after_100.
Example C81_applies : Forall bounded_row sample /\ inside (Stoch 3 3) 0 100 = true /\ inside (WilliamsR 3) (-100) 0 = true.
Proof. split; [rows_by ltac:(repeat split)|split; vm_compute; reflexivity]. Qed.
(** beyond 2^1000 the product by 100 overflows and the bound is lost *)
Example C81_overflow : exists rows out, compute (Stoch 1 1) false rows = Ok out /\ Forall priced rows /\ nth 0 out 0 = infinity.
Proof.
  exists (bars_from 0 [(0x1p1022, 0, 0x1p1021, 1)]). eexists. split; [vm_compute; reflexivity|]. split; [rows_by ltac:(repeat split)|reflexivity].
Qed.

(** C82. *)
Theorem C82_returns_above_minus_100_in_binary64 : forall ind fillna rows out,
  ind = DailyReturn \/ ind = CumReturn \/ (exists w, ind = Roc w) -> Forall positive_close rows ->
  compute ind fillna rows = Ok out -> Forall (between (-100) infinity) out.
Proof. exact machine_returns. Qed.
Print Assumptions C82_returns_above_minus_100_in_binary64.
Theorem C82_nvi_not_negative_in_binary64 : forall fillna rows out, Forall positive_close rows ->
  compute Nvi fillna rows = Ok out -> Forall (between 0 infinity) out.
Proof. exact machine_nvi. Qed.
Print Assumptions C82_nvi_not_negative_in_binary64.
Theorem C82_ema_not_negative_in_binary64 : forall w fillna rows out, (100 * w <= 2 ^ 53)%Z -> Forall nonneg_close rows ->
  compute (Ema w) fillna rows = Ok out -> Forall (between 0 infinity) out.
Proof. exact machine_ema. Qed.
Print Assumptions C82_ema_not_negative_in_binary64.
Example C82_applies : Forall positive_close sample /\ Forall nonneg_close sample /\
  inside DailyReturn (-100) infinity && inside CumReturn (-100) infinity && inside (Roc 2) (-100) infinity &&
  inside Nvi 0 infinity && inside (Ema 3) 0 infinity = true.
Proof.
  split; [|split; [|vm_compute; reflexivity]]; rows_by ltac:(right).
Qed.
