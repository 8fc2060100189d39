(** * SpecMemory: how many earlier rows a row of a series depends on. *)
From Verif Require Export Api.

Section SpecMemory.
Context {F : Type} {A : Arith F}.

(** From row [m] of the shorter frame on, rows that precede the frame make no
    difference: a row depends on itself and the [m] rows before it only. *)
Definition finite_memory (m : nat) (f : list (bar F) -> result (list F)) : Prop :=
  forall past rows out out',
    f rows = Ok out -> f (past ++ rows) = Ok out' ->
    skipn (length past + m) out' = skipn m out.

(** the number of earlier rows a window of [w] rows reaches back *)
Definition back (w : Z) : nat := Z.to_nat (w - 1).
Definition lag (n : Z) : nat := Z.to_nat n.

(** [None]: the series accumulates over the whole history (averages with
    exponential weights, cumulative sums, PSAR, ...). *)
Definition memory (ind : indicator F) : option nat :=
  match ind with
  | UltOsc w1 w2 w3 _ _ _ => Some (1 + Nat.max (back w1) (Nat.max (back w2) (back w3)))
  | Stoch w _ | WilliamsR w => Some (back w)
  | StochSignal w s => Some (back w + back s)
  | Roc w => Some (lag w)
  | AwesomeOsc w1 w2 => Some (Nat.max (back w1) (back w2))
  | AroonUp w | AroonDown w | AroonInd w => Some (lag w)
  | Sma w | Wma w | Cci w _ => Some (back w)
  | IchiConv w1 _ _ _ => Some (back w1)
  | IchiBase _ w2 _ _ => Some (back w2)
  | IchiA w1 w2 _ visual => Some (Nat.max (back w1) (back w2) + (if visual then lag w2 else 0))
  | IchiB _ w2 w3 visual => Some (back w3 + (if visual then lag w2 else 0))
  | Kst r1 r2 r3 r4 w1 w2 w3 w4 _ | KstSig r1 r2 r3 r4 w1 w2 w3 w4 _
  | KstDiff r1 r2 r3 r4 w1 w2 w3 w4 _ =>
      if (0 <=? Z.min (Z.min r1 r2) (Z.min r3 r4))%Z then
        let line := Nat.max (Nat.max (lag r1 + back w1) (lag r2 + back w2))
                            (Nat.max (lag r3 + back w3) (lag r4 + back w4)) in
        match ind with
        | Kst _ _ _ _ _ _ _ _ _ => Some line
        | KstSig _ _ _ _ _ _ _ _ nsig | KstDiff _ _ _ _ _ _ _ _ nsig => Some (line + back nsig)
        | _ => None
        end
      else None
  | Dpo w => Some (Nat.max (back w) (lag (w / 2 + 1)))
  | VortexPos w | VortexNeg w | VortexDiff w => Some (1 + back w)
  | BbM w _ | BbH w _ | BbL w _ | BbW w _ | BbP w _ | BbHI w _ | BbLI w _ => Some (back w)
  | KcM w _ true _ | KcH w _ true _ | KcL w _ true _ | KcW w _ true _ | KcP w _ true _
  | KcHI w _ true _ | KcLI w _ true _ => Some (back w)
  | DcH w o | DcL w o | DcM w o | DcW w o | DcP w o => Some (back w + lag o)
  | Ulcer w => Some (back w + back w)
  | Cmf w | Vwap w => Some (back w)
  | Eom _ => Some 1
  | SmaEom w | Mfi w => Some (1 + back w)
  | DailyReturn | DailyLogReturn _ => Some 1
  | _ => None
  end.

(** Series that look at each window anew: extremes, weighted averages,
    differences.  The other series with a [memory] keep running sums, which
    carry the rounding errors of the rows they have left behind. *)
Definition each_window_anew (ind : indicator F) : bool :=
  match ind with
  | Stoch _ _ | WilliamsR _ | Roc _ | AroonUp _ | AroonDown _ | AroonInd _ | Wma _
  | IchiConv _ _ _ _ | IchiBase _ _ _ _ | IchiA _ _ _ _ | IchiB _ _ _ _
  | DcH _ _ | DcL _ _ | DcM _ _ | DcP _ _ | Eom _ | DailyReturn | DailyLogReturn _ => true
  | _ => false
  end.
End SpecMemory.
