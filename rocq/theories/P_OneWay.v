(** * P_OneWay: property C92, the series in a market that never turns. *)
From Coq Require Import Reals Floats Lra.
From Verif Require Import Api FloatArith Samples SpecNum SpecOneWay OneWay.
Local Open Scope R_scope.

(** C92.  While the price never falls (s = 1) or never rises (s = -1) the
    momentum series of [leans] show no number on the other side of zero. *)
Theorem C92_signs : forall s n h l c v ind out i r, s = 1 \/ s = -1 -> leans s n h l c v ind -> (i < n)%nat ->
  compute ind false (frame n h l c v) = Ok out -> nth i out NaN = Fin r -> 0 <= s * r.
Proof. exact lean_table. Qed.
Print Assumptions C92_signs.

(** The averages of the close stay behind the close and move with it. *)
Theorem C92_averages_trail : forall s n h l c v ind out i r, one_way s n c -> trails ind -> (i < n)%nat ->
  compute ind false (frame n h l c v) = Ok out -> nth i out NaN = Fin r ->
  0 <= s * (c i - r) /\ forall r', (S i < n)%nat -> nth (S i) out NaN = Fin r' -> 0 <= s * (r' - r).
Proof. exact trail_table. Qed.
Print Assumptions C92_averages_trail.

(** Of two averages the one over the shorter window is ahead: no cross-over. *)
Theorem C92_faster_sma_leads : forall s n h l c v w w' a b i x y, one_way s n c -> (1 <= w <= w')%Z -> (i < n)%nat ->
  compute (Sma w) false (frame n h l c v) = Ok a -> compute (Sma w') false (frame n h l c v) = Ok b ->
  nth i a NaN = Fin x -> nth i b NaN = Fin y -> 0 <= s * (x - y).
Proof. exact faster_sma. Qed.
Print Assumptions C92_faster_sma_leads.
Theorem C92_faster_ema_leads : forall s n h l c v w w' a b i x y, one_way s n c -> (1 <= w <= w')%Z -> (i < n)%nat ->
  compute (Ema w) false (frame n h l c v) = Ok a -> compute (Ema w') false (frame n h l c v) = Ok b ->
  nth i a NaN = Fin x -> nth i b NaN = Fin y -> 0 <= s * (x - y).
Proof. exact faster_ema. Qed.
Print Assumptions C92_faster_ema_leads.

(** Where highs and lows never fall -DI is zero throughout; where they never
    rise +DI is. *)
Theorem C92_no_other_side : forall w n h l c v, (1 <= w <= Z.of_nat n)%Z ->
  (one_way 1 n h -> one_way 1 n l -> compute (AdxNeg w) false (frame n h l c v) = Ok (repeat (Fin 0) n)) /\
  (one_way (-1) n h -> one_way (-1) n l -> compute (AdxPos w) false (frame n h l c v) = Ok (repeat (Fin 0) n)).
Proof. exact no_other_side. Qed.
Print Assumptions C92_no_other_side.

(** In binary64 the sign of MACD is not kept: closes that rise by a few units in
    the last place put the faster average one unit below the slower one. *)
Definition creeping : list float :=
  [0x1.9066666666666p+6; 0x1.9066666666666p+6; 0x1.9066666666666p+6; 0x1.9066666666668p+6; 0x1.9066666666668p+6; 0x1.906666666666ap+6]%float.
Theorem C92_macd_rounds_refuted :
  forallb (fun p => PrimFloat.leb (fst p) (snd p)) (combine creeping (tl creeping)) = true /\
  match compute (Macd 5 3 2) false (map (fun c => mkbar 0 c c c 1%float) creeping) with
  | Ok out => PrimFloat.ltb (nth 5 out nan) 0%float
  | Raise _ => false
  end = true.
Proof. split; vm_compute; reflexivity. Qed.
Print Assumptions C92_macd_rounds_refuted.

(** a rise and a fall that are not trivial: closes 1, 2, 4, 8, ... and 32, 16, 8, ... *)
Definition rise (i : nat) : R := 2 ^ i.
Definition fall (i : nat) : R := 32 * (/ 2) ^ i.
Example C92_rise : one_way 1 9 rise /\ all_positive 9 rise /\ leans 1 9 rise rise rise rise (Trix 2) /\
  leans 1 9 rise rise rise rise (Cci 3 (Fin (15 / 1000))) /\ leans 1 9 rise rise rise rise (Tsi 3 2) /\
  (exists out, compute (Trix 2) false (frame 9 rise rise rise rise) = Ok out) /\ trails (Kama 3 2 4 : indicator xr).
Proof.
  assert (W : one_way 1 9 rise) by (intros j _; unfold rise; cbn; pose proof (pow_lt 2 j ltac:(lra)); lra).
  assert (P : all_positive 9 rise) by (intros j _; unfold rise; apply pow_lt; lra).
  split; auto. split; auto. split; [cbn; split; [lia|auto]|]. split.
  { cbn. split; [lia|]. split; [lra|]. intros j Hj. specialize (W j Hj). unfold typical. lra. }
  split; [cbn; split; [lia|split; [lia|auto]]|]. split; [eexists; cbn [compute]; reflexivity|cbn; lia].
Qed.
Example C92_fall : one_way (-1) 6 fall /\ all_positive 6 fall /\ leans (-1) 6 fall fall fall fall (Macd 3 2 2) /\
  leans (-1) 6 fall fall fall fall (Vpt None false) /\ (1 <= 3 <= Z.of_nat 6)%Z.
Proof.
  assert (W : one_way (-1) 6 fall) by (intros j _; unfold fall; cbn [pow]; pose proof (pow_lt (/ 2) j ltac:(lra)); lra).
  assert (P : all_positive 6 fall) by (intros j _; unfold fall; pose proof (pow_lt (/ 2) j ltac:(lra)); lra).
  split; auto. split; auto. split; [cbn; split; [lia|split; [lia|auto]]|]. split; [|lia].
  cbn. split; auto. split; auto. intros j Hj. apply Rlt_le. now apply P.
Qed.
