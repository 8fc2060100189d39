(** * P_Nest: property C95, wider settings give wider channels in binary64.

    [below x y]: never above, where both are present (SpecBinary64.v). *)
From Coq Require Import Floats.
From Verif Require Import Api FloatArith Samples Halt SpecBinary64 Nest P_Binary64.
Local Open Scope float_scope.

(** C95.  More deviations, a larger multiplier, a longer Donchian window: the
    upper band is nowhere lower, the lower band nowhere higher. *)
Theorem C95_bollinger_wider : forall w d d' rows h h' l l', PrimFloat.leb d d' = true ->
  compute (BbH w d) false rows = Ok h -> compute (BbH w d') false rows = Ok h' ->
  compute (BbL w d) false rows = Ok l -> compute (BbL w d') false rows = Ok l' -> Forall2 below h h' /\ Forall2 below l' l.
Proof. exact bollinger_wider. Qed.
Print Assumptions C95_bollinger_wider.
Theorem C95_keltner_wider : forall w wa k k' rows h h' l l', PrimFloat.leb k k' = true -> (1 <= wa)%Z -> (100 * wa <= 2 ^ 53)%Z -> Forall low_high rows ->
  compute (KcH w wa false k) false rows = Ok h -> compute (KcH w wa false k') false rows = Ok h' ->
  compute (KcL w wa false k) false rows = Ok l -> compute (KcL w wa false k') false rows = Ok l' -> Forall2 below h h' /\ Forall2 below l' l.
Proof. exact keltner_wider. Qed.
Print Assumptions C95_keltner_wider.
Theorem C95_donchian_wider : forall w w' o rows h h' l l', (w <= w')%Z ->
  compute (DcH w o) false rows = Ok h -> compute (DcH w' o) false rows = Ok h' ->
  compute (DcL w o) false rows = Ok l -> compute (DcL w' o) false rows = Ok l' -> Forall2 below h h' /\ Forall2 below l' l.
Proof. exact donchian_wider. Qed.
Print Assumptions C95_donchian_wider.
(** So a break-out of the wide channel is a break-out of the narrow one, wherever
    the narrow bands are present. *)
Theorem C95_bollinger_signals : forall w d d' rows h l sh sh' sl sl' i x y, PrimFloat.leb d d' = true ->
  compute (BbH w d) false rows = Ok h -> compute (BbL w d) false rows = Ok l ->
  compute (BbHI w d) false rows = Ok sh -> compute (BbHI w d') false rows = Ok sh' ->
  compute (BbLI w d) false rows = Ok sl -> compute (BbLI w d') false rows = Ok sl' ->
  nth_error h i = Some x -> PrimFloat.is_nan x = false -> nth_error l i = Some y -> PrimFloat.is_nan y = false ->
  (nth_error sh' i = Some 1 -> nth_error sh i = Some 1) /\ (nth_error sl' i = Some 1 -> nth_error sl i = Some 1).
Proof. exact bollinger_signals_wider. Qed.
Print Assumptions C95_bollinger_signals.
Theorem C95_keltner_signals : forall w wa k k' rows h l sh sh' sl sl' i x y, PrimFloat.leb k k' = true ->
  (1 <= wa)%Z -> (100 * wa <= 2 ^ 53)%Z -> Forall low_high rows ->
  compute (KcH w wa false k) false rows = Ok h -> compute (KcL w wa false k) false rows = Ok l ->
  compute (KcHI w wa false k) false rows = Ok sh -> compute (KcHI w wa false k') false rows = Ok sh' ->
  compute (KcLI w wa false k) false rows = Ok sl -> compute (KcLI w wa false k') false rows = Ok sl' ->
  nth_error h i = Some x -> PrimFloat.is_nan x = false -> nth_error l i = Some y -> PrimFloat.is_nan y = false ->
  (nth_error sh' i = Some 1 -> nth_error sh i = Some 1) /\ (nth_error sl' i = Some 1 -> nth_error sl i = Some 1).
Proof. exact keltner_signals_wider. Qed.
Print Assumptions C95_keltner_signals.

(** on the sample frame the wider bands are strictly wider somewhere, and wide
    channels are broken *)
Definition apart (low high : indicator float) : bool :=
  match compute low false sample, compute high false sample with
  | Ok a, Ok b => existsb (fun p => PrimFloat.ltb (fst p) (snd p)) (combine a b)
  | _, _ => false
  end.
Definition fires (ind : indicator float) : bool :=
  match compute ind false sample with Ok a => existsb (PrimFloat.eqb 1) a | Raise _ => false end.
Example C95_applies :
  apart (BbH 3 1) (BbH 3 2) && apart (BbL 3 2) (BbL 3 1) && apart (KcH 3 3 false 1) (KcH 3 3 false 2) && apart (KcL 3 3 false 2) (KcL 3 3 false 1)
  && apart (DcH 2 0) (DcH 4 0) && apart (DcL 4 0) (DcL 2 0) = true /\
  fires (BbHI 3 1) && fires (BbLI 3 1) && fires (KcHI 3 3 false 0x1p-4) && fires (KcLI 3 3 false 0x1p-4) = true /\ Forall low_high sample.
Proof. split; [vm_compute; reflexivity|]. split; [vm_compute; reflexivity|]. apply C79_applies. Qed.
(** a longer window does not widen the Bollinger bands *)
Theorem C95_bollinger_window_refuted : ~ (forall w w' d rows h h', (w <= w')%Z -> compute (BbH w d) false rows = Ok h -> compute (BbH w' d) false rows = Ok h' ->
  Forall2 below h h').
Proof.
  intros H. specialize (H 2%Z 3%Z 1 sample).
  destruct (compute (BbH 2 1) false sample) as [a|] eqn:E; [|vm_compute in E; discriminate].
  destruct (compute (BbH 3 1) false sample) as [b|] eqn:E'; [|vm_compute in E'; discriminate].
  specialize (H a b ltac:(lia) eq_refl eq_refl).
  assert (T : forallb (fun p => PrimFloat.is_nan (fst p) || PrimFloat.is_nan (snd p) || PrimFloat.leb (fst p) (snd p)) (combine a b) = true).
  { clear E E'. induction H as [|x y a b B _ IH]; [reflexivity|]. cbn [combine forallb fst snd]. rewrite IH.
    destruct B as [B|[B|B]]; rewrite B, ?orb_true_r; reflexivity. }
  apply Ok_inj in E, E'. subst a b. vm_compute in T. discriminate.
Qed.
Print Assumptions C95_bollinger_window_refuted.
