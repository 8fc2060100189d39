(** * P_Mirror: property C71, exact arithmetic.

    [mirrored] negates every price and swaps high and low; [mirrors]
    (SpecMirror.v) tabulates what each series shows then. *)
From Coq Require Import Lra Lia.
From Verif Require Import Api SpecCausal SpecNum SpecSarMeet SpecMirror MirrorInd MirrorRsi UoMirror Tab Sar SarMirror.
Local Open Scope R_scope.

(** C71: all rows (gaps and infinities included), all windows.  If one of the
    two calls raises, so does the other, with the same exception. *)
Theorem C71_mirror_image : forall ind fl rows ind' im, mirrors ind fl = Some (ind', im) ->
  compute ind fl (mirrored rows) = rmap (map (seen im)) (compute ind' fl rows).
Proof. exact mirror_image. Qed.
Print Assumptions C71_mirror_image.

Example C71_table :
  mirrors (AroonUp 25) true = Some (AroonDown 25, Same) /\ mirrors (AdxPos 14) true = Some (AdxNeg 14, Same) /\
  mirrors (BbH 20 (Fin 2)) true = Some (BbL 20 (Fin 2), Opposite) /\ mirrors (DcL 20 0) true = Some (DcH 20 0, Opposite) /\
  mirrors (KcHI 20 10 true (Fin 2)) true = Some (KcLI 20 10 true (Fin 2), Same) /\ mirrors (VortexPos 14) false = Some (VortexNeg 14, Same) /\
  mirrors (Atr 14) true = Some (Atr 14, Same) /\ mirrors (Macd 26 12 9) true = Some (Macd 26 12 9, Opposite) /\
  mirrors (Stoch 14 3) true = Some (Stoch 14 3, Complement 100) /\ mirrors (WilliamsR 14) true = Some (WilliamsR 14, Complement (-100)) /\
  mirrors (Stc 50 23 10 3 3) false = Some (Stc 50 23 10 3 3, Complement 100) /\ mirrors (DcP 20 0) false = Some (DcP 20 0, Complement 1) /\
  mirrors (Vwap 14) false = Some (Vwap 14, Opposite) /\ mirrors (Mfi 14) true = Some (Mfi 14, Same).
Proof. repeat split. Qed.

(** RSI: rows without any price change so far show 100 on both markets, all
    others 100 - x. *)
Theorem C71_rsi_mirror : forall w fl rows, Forall (fun b => b_close b <> PInf /\ b_close b <> NInf) rows ->
  match compute (Rsi w) fl (mirrored rows), compute (Rsi w) fl rows with
  | Ok a, Ok b => Forall2 (fun x y => x = seen (Complement 100) y \/ (x = Fin 100 /\ y = Fin 100)) a b
  | Raise e, Raise e' => e = e'
  | _, _ => False
  end.
Proof. exact rsi_mirrors. Qed.
Print Assumptions C71_rsi_mirror.

Example C71_rsi_hyps : Forall (fun b : bar xr => b_close b <> PInf /\ b_close b <> NInf)
  [mkbar 0 (Fin 5) (Fin 3) (Fin 4) (Fin 10); mkbar 1 (Fin 6) (Fin 4) NaN (Fin 10); mkbar 2 (Fin 7) (Fin 4) (Fin 6) (Fin 10)].
Proof. repeat constructor; discriminate. Qed.

(** ultimate oscillator of bars with low <= close <= high *)
Theorem C71_ultimate_oscillator_mirror : forall w1 w2 w3 k1 k2 k3 n h l c v, (1 <= w1)%nat -> (1 <= w2)%nat -> (1 <= w3)%nat ->
  sane n h l c -> k1 + k2 + k3 <> 0 ->
  let uo := UltOsc (Z.of_nat w1) (Z.of_nat w2) (Z.of_nat w3) (Fin k1) (Fin k2) (Fin k3) in
  compute uo false (mirrored (frame n h l c v)) = rmap (map (seen (Complement 100))) (compute uo false (frame n h l c v)).
Proof. exact uo_mirror. Qed.
Print Assumptions C71_ultimate_oscillator_mirror.
Example C71_uo_hyps : sane 40 (fun i => INR i + 2) INR (fun i => INR i + 1) /\ 4 + 2 + 1 <> 0.
Proof. split; [intros i _; lra|lra]. Qed.

(** PSAR.  Both runs start in an up trend, so they cannot mirror each other from
    the start.  Once the stops have turned twice together, on opposite sides,
    they do: psar changes its sign, psar_up and psar_down trade places. *)
Theorem C71_psar_mirror : forall b step mx (rows : list (bar xr)) ps up dn ps' up' dn',
  b = false \/ default_index rows ->
  compute (Psar b step mx) false rows = Ok ps -> compute (PsarUp b step mx) false rows = Ok up -> compute (PsarDown b step mx) false rows = Ok dn ->
  compute (Psar b step mx) false (mirrored rows) = Ok ps' -> compute (PsarUp b step mx) false (mirrored rows) = Ok up' -> compute (PsarDown b step mx) false (mirrored rows) = Ok dn' ->
  forall i j, (1 <= i < j)%nat -> (j < length rows)%nat -> turns up dn i -> turns up dn j ->
  (forall r, (i - 1 <= r <= j)%nat -> same_side up dn dn' up' r r) ->
  forall r, (j <= r)%nat -> (r < length rows)%nat ->
    nth r ps' fnan = opposite (nth r ps fnan) /\ nth r up' fnan = opposite (nth r dn fnan) /\ nth r dn' fnan = opposite (nth r up fnan).
Proof. exact psar_mirrors. Qed.
Print Assumptions C71_psar_mirror.

Definition swing_bars : list (bar xr) := frame 6 swing_h swing_l swing_c (fun _ => 1).
Definition half : xr := Fin (1 / 2).
Example C71_psar_hyps : default_index swing_bars /\ exists ps up dn ps' up' dn',
  compute (Psar true half half) false swing_bars = Ok ps /\ compute (PsarUp true half half) false swing_bars = Ok up /\
  compute (PsarDown true half half) false swing_bars = Ok dn /\ compute (Psar true half half) false (mirrored swing_bars) = Ok ps' /\
  compute (PsarUp true half half) false (mirrored swing_bars) = Ok up' /\ compute (PsarDown true half half) false (mirrored swing_bars) = Ok dn' /\
  turns up dn 3 /\ turns up dn 4 /\ forall r, (3 - 1 <= r <= 4)%nat -> same_side up dn dn' up' r r.
Proof. split; [reflexivity|exact swing_case]. Qed.

(** one common turn is not enough, let alone none: on row 3 of these bars, just
    after the first, the stops are 4 and -3 *)
Theorem C71_psar_one_turn_refuted :
  ~ (forall (rows : list (bar xr)) ps up dn ps' up' dn', default_index rows ->
       compute (Psar true half half) false rows = Ok ps -> compute (PsarUp true half half) false rows = Ok up ->
       compute (PsarDown true half half) false rows = Ok dn -> compute (Psar true half half) false (mirrored rows) = Ok ps' ->
       compute (PsarUp true half half) false (mirrored rows) = Ok up' -> compute (PsarDown true half half) false (mirrored rows) = Ok dn' ->
       forall i, (1 <= i < length rows)%nat -> turns up dn i -> same_side up dn dn' up' (i - 1) (i - 1) -> same_side up dn dn' up' i i ->
       nth i ps' NaN = opposite (nth i ps NaN)).
Proof. exact one_turn_differs. Qed.
Print Assumptions C71_psar_one_turn_refuted.
