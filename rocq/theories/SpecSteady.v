(** * SpecSteady: what the series show in a steady trend. *)
From Verif Require Export SpecNum SpecMemory.
Local Open Scope R_scope.

(** Row j closes at a + b j, its high is u above and its low d below the close;
    any positive volume. *)
Definition steady (a b u d : R) (rows : list (bar xr)) : Prop :=
  exists v, (forall j, 0 < v j) /\
    same_values rows (frame (length rows) (fun j => a + b * INR j + u) (fun j => a + b * INR j - d) (fun j => a + b * INR j) v).

(** standard deviation and mean absolute deviation of w consecutive integers *)
Definition dev (w : R) : R := sqrt ((w * w - 1) / 12).
Definition mad (w : Z) : R := (IZR (w * w) - IZR (w mod 2)) / (4 * IZR w).
(** distance from the oldest to the newest of w rows, upward and downward *)
Definition rise (b : R) (w : Z) : R := Rmax 0 b * (IZR w - 1).
Definition fall (b : R) (w : Z) : R := Rmax 0 (- b) * (IZR w - 1).
(** true range of every bar *)
Definition step_range (b u d : R) : R := Rmax (u + d) (Rmax (Rabs (b + u)) (Rabs (b - d))).

(** [trend_shows b u d c ind x]: on a row that closes at c the series shows x *)
Definition trend_shows (b u d c : R) (ind : indicator xr) (x : xr) : Prop :=
  let lag w := b * (IZR w - 1) / 2 in
  match ind with
  (* averages lag (w-1)/2 rows behind, the weighted one (w-1)/3 *)
  | Sma w | BbM w (Fin _) => (1 <= w)%Z /\ x = Fin (c - lag w)
  | Wma w => (1 <= w)%Z /\ x = Fin (c - b * (IZR w - 1) / 3)
  | IchiConv w w2 w3 _ | IchiBase w2 w w3 _ => (1 <= w)%Z /\ (1 <= w2)%Z /\ (1 <= w3)%Z /\ x = Fin (c + (u - d) / 2 - lag w)
  | IchiA w1 w2 w3 false => (1 <= w1)%Z /\ (1 <= w2)%Z /\ (1 <= w3)%Z /\ x = Fin (c + (u - d) / 2 - (lag w1 + lag w2) / 2)
  | IchiB w1 w2 w3 false => (1 <= w1)%Z /\ (1 <= w2)%Z /\ (1 <= w3)%Z /\ x = Fin (c + (u - d) / 2 - lag w3)
  | DcM w 0 => (1 <= w)%Z /\ x = Fin (c + (u - d) / 2 - lag w)
  | KcM w _ true _ => (1 <= w)%Z /\ x = Fin (c + (u - d) / 3 - lag w)
  (* channels *)
  | BbH w (Fin k) => (1 <= w)%Z /\ x = Fin (c - lag w + k * (Rabs b * dev (IZR w)))
  | BbL w (Fin k) => (1 <= w)%Z /\ x = Fin (c - lag w - k * (Rabs b * dev (IZR w)))
  | DcH w 0 => (1 <= w)%Z /\ x = Fin (c + u + fall b w)
  | DcL w 0 => (1 <= w)%Z /\ x = Fin (c - d - rise b w)
  | KcH w _ true _ => (1 <= w)%Z /\ x = Fin (c + (u - d) / 3 - lag w + (u + d))
  | KcL w _ true _ => (1 <= w)%Z /\ x = Fin (c + (u - d) / 3 - lag w - (u + d))
  (* a trend breaks out of a Bollinger band only when the band is narrow for its window *)
  | BbHI w (Fin k) => (1 <= w)%Z /\ 0 <= k /\
      (0 < b /\ k * k * (IZR w + 1) < 3 * (IZR w - 1) /\ x = Fin 1 \/ (b <= 0 \/ 3 * (IZR w - 1) <= k * k * (IZR w + 1)) /\ x = Fin 0)
  | BbLI w (Fin k) => (1 <= w)%Z /\ 0 <= k /\
      (b < 0 /\ k * k * (IZR w + 1) < 3 * (IZR w - 1) /\ x = Fin 1 \/ (0 <= b \/ 3 * (IZR w - 1) <= k * k * (IZR w + 1)) /\ x = Fin 0)
  (* place in the channel *)
  | BbP w (Fin k) => (2 <= w)%Z /\ b <> 0 /\ k <> 0 /\ x = Fin (1 / 2 + lag w / (2 * k * (Rabs b * dev (IZR w))))
  | DcP w 0 => (1 <= w)%Z /\ u + d + rise b w + fall b w <> 0 /\ x = Fin ((d + rise b w) / (u + d + rise b w + fall b w))
  | Stoch w _ => (1 <= w)%Z /\ u + d + rise b w + fall b w <> 0 /\ x = Fin (100 * (d + rise b w) / (u + d + rise b w + fall b w))
  | WilliamsR w => (1 <= w)%Z /\ u + d + rise b w + fall b w <> 0 /\ x = Fin (100 * (d + rise b w) / (u + d + rise b w + fall b w) - 100)
  | Cci w (Fin k) => (2 <= w)%Z /\ b <> 0 /\ k <> 0 /\ x = Fin (lag w / (k * (Rabs b * mad w)))
  (* oscillators *)
  | AwesomeOsc w1 w2 => (1 <= w1)%Z /\ (1 <= w2)%Z /\ x = Fin (lag w2 - lag w1)
  | Dpo w => (1 <= w)%Z /\ x = Fin (lag w - b * (IZR (w / 2) + 1))
  | UltOsc w1 w2 w3 (Fin k1) (Fin k2) (Fin k3) => (1 <= w1)%Z /\ (1 <= w2)%Z /\ (1 <= w3)%Z /\ k1 + k2 + k3 <> 0 /\
      step_range b u d <> 0 /\ x = Fin (100 * (Rmax d b / step_range b u d))
  | AroonUp w => (1 <= w)%Z /\ (0 < b /\ x = Fin 100 \/ b < 0 /\ x = Fin 0)
  | AroonDown w => (1 <= w)%Z /\ (0 < b /\ x = Fin 0 \/ b < 0 /\ x = Fin 100)
  | AroonInd w => (1 <= w)%Z /\ (0 < b /\ x = Fin 100 \/ b < 0 /\ x = Fin (-100))
  | VortexPos w => (1 <= w)%Z /\ step_range b u d <> 0 /\ x = Fin (Rabs (b + u + d) / step_range b u d)
  | VortexNeg w => (1 <= w)%Z /\ step_range b u d <> 0 /\ x = Fin (Rabs (b - u - d) / step_range b u d)
  | Cmf w => (1 <= w)%Z /\ 0 < u + d /\ x = Fin ((d - u) / (u + d))
  | Mfi w => (1 <= w)%Z /\ 0 < c - d - Rabs b * IZR w /\ (0 < b /\ x = Fin 100 \/ b < 0 /\ x = Fin 0)
  | _ => False
  end.
