(** * SpecRobust: how much an error in the prices can change a series. *)
From Coq Require Export Reals.
From Verif Require Export Api SpecNum.
Local Open Scope R_scope.

(** rows 0..n-1 of the two columns differ by at most e *)
Definition off_by (e : R) (n : nat) (f f' : nat -> R) : Prop := forall i, (i < n)%nat -> Rabs (f i - f' i) <= e.

(** both calls succeed, the same rows are missing, and the numbers differ by at
    most e *)
Definition near (e : R) (r r' : result (list xr)) : Prop :=
  exists out out', r = Ok out /\ r' = Ok out' /\
    Forall2 (fun x y => match x, y with Fin p, Fin q => Rabs (p - q) <= e | NaN, NaN => True | _, _ => False end) out out'.

(** how many times the error of the prices can appear in the series *)
Definition gain (ind : indicator xr) : option R :=
  let pos w (g : R) := if Z.leb 1 w then Some g else None in
  let pos2 v w (g : R) := if Z.leb 1 v && Z.leb 1 w then Some g else None in
  let pos3 u v w (g : R) := if Z.leb 1 u && Z.leb 1 v && Z.leb 1 w then Some g else None in
  match ind with
  | Sma w | Ema w | Wma w | BbM w (Fin _) | KcM w _ true _ | DcH w 0 | DcL w 0 | DcM w 0 => pos w 1
  | IchiConv u v w _ | IchiBase u v w _ | IchiA u v w false | IchiB u v w false => pos3 u v w 1
  | Dpo w => pos w 2
  | AwesomeOsc v w => pos2 v w 2
  | Macd s f g | MacdSignal s f g => pos3 s f g 2
  | MacdDiff s f g => pos3 s f g 4
  | KcH w _ true _ | KcL w _ true _ => pos w (7 / 3)
  | BbH w (Fin d) | BbL w (Fin d) => pos w (1 + Rabs d)
  | _ => None
  end.
