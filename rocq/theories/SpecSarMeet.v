(** * SpecSarMeet: two histories that PSAR has forgotten (C106). *)
From Verif Require Import Api SpecStop.

Section Meet.
Context {F : Type} {A : Arith F}.
(** from row K of one frame and row K' of the other on, both hold the same
    highs and lows (closes, volumes and labels may differ) *)
Definition same_bars (K : nat) (rows : list (bar F)) (K' : nat) (rows' : list (bar F)) : Prop :=
  skipn K (map b_high rows) = skipn K' (map b_high rows') /\ skipn K (map b_low rows) = skipn K' (map b_low rows').
(** the stop changes sides between row i-1 and row i *)
Definition turns (up dn : list F) (i : nat) : Prop :=
  stop_on up (i - 1) /\ stop_on dn i \/ stop_on dn (i - 1) /\ stop_on up i.
(** rows i of one run and i' of the other show their stops on the same side *)
Definition same_side (up dn up' dn' : list F) (i i' : nat) : Prop :=
  stop_on up i /\ stop_on up' i' \/ stop_on dn i /\ stop_on dn' i'.
End Meet.
