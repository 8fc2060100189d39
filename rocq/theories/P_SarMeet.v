(** * P_SarMeet: C106, when PSAR has forgotten where its history began. *)
From Coq Require Import Floats Reals Lra.
From Verif Require Import Lists Api FloatArith SpecCausal SpecNum Samples SpecStop SpecSarMeet SarMeet.

(** C106. Any arithmetic with the laws of Arith.v (in particular binary64),
    arbitrary rows and steps: after two reversals both runs show on the same
    rows, every later row agrees exactly. *)
Theorem C106_two_reversals_forget : forall F (A : Arith F) (L : ArithLaws F) b b' step mx (rows rows' : list (bar F)) K K' ps up dn ps' up' dn',
  b = false \/ default_index rows -> b' = false \/ default_index rows' -> same_bars K rows K' rows' ->
  compute (Psar b step mx) false rows = Ok ps -> compute (PsarUp b step mx) false rows = Ok up -> compute (PsarDown b step mx) false rows = Ok dn ->
  compute (Psar b' step mx) false rows' = Ok ps' -> compute (PsarUp b' step mx) false rows' = Ok up' -> compute (PsarDown b' step mx) false rows' = Ok dn' ->
  forall i j, (1 <= i < j)%nat -> (K + j < length rows)%nat -> turns up dn (K + i) -> turns up dn (K + j) ->
  (forall r, (i - 1 <= r <= j)%nat -> same_side up dn up' dn' (K + r) (K' + r)) ->
  forall r, (j <= r)%nat -> (K + r < length rows)%nat ->
    nth (K + r) ps fnan = nth (K' + r) ps' fnan /\ nth (K + r) up fnan = nth (K' + r) up' fnan /\ nth (K + r) dn fnan = nth (K' + r) dn' fnan /\
    forall ui di ui' di',
      compute (PsarUpInd b step mx) false rows = Ok ui -> compute (PsarDownInd b step mx) false rows = Ok di ->
      compute (PsarUpInd b' step mx) false rows' = Ok ui' -> compute (PsarDownInd b' step mx) false rows' = Ok di' ->
      nth (K + r) ui fnan = nth (K' + r) ui' fnan /\ nth (K + r) di fnan = nth (K' + r) di' fnan.
Proof. exact @psar_meet. Qed.
Print Assumptions C106_two_reversals_forget.

(** a history of twelve rows and the same without its first row: both turn at
    rows 5 and 8; between them the stops differ, from row 8 on they agree *)
Definition meet_bars : list (float * float * float * float) :=
  [(32, 27, 29, 1); (20, 16, 19, 1); (32, 28, 29, 1); (30, 25, 27, 1); (23, 20, 21, 1); (8, 6, 7, 1); (8, 2, 5, 1);
   (10, 7, 9, 1); (30, 26, 27, 1); (27, 25, 26, 1); (29, 24, 26, 1); (22, 16, 19, 1)]%float.
Definition psar_cols (rows : list (bar float)) :=
  let get ind := match compute ind false rows with Ok s => s | Raise _ => [] end in
  (get (Psar true step02 step2), get (PsarUp true step02 step2), get (PsarDown true step02 step2)).
Example C106_applies :
  let rows := bars_from 0 meet_bars in let rows' := bars_from 0 (tl meet_bars) in
  let '(ps, up, dn) := psar_cols rows in let '(ps', up', dn') := psar_cols rows' in
  default_index rows /\ default_index rows' /\ same_bars 1 rows 0 rows' /\ turns up dn (1 + 4) /\ turns up dn (1 + 7) /\
  (forall r, (4 - 1 <= r <= 7)%nat -> same_side up dn up' dn' (1 + r) (0 + r)) /\
  (nth 7 ps nan =? nth 6 ps' nan)%float = false /\ (nth 8 ps nan =? nth 7 ps' nan)%float = true.
Proof.
  cbv zeta. destruct (psar_cols (bars_from 0 meet_bars)) as [[ps up] dn] eqn:E. destruct (psar_cols (bars_from 0 (tl meet_bars))) as [[ps' up'] dn'] eqn:E'.
  vm_compute in E, E'. injection E as <- <- <-. injection E' as <- <- <-.
  do 3 (split; [vm_compute; auto|]). split; [left; vm_compute; auto|]. split; [right; vm_compute; auto|].
  split; [|vm_compute; auto]. intros r Hr.
  assert (C : r = 3%nat \/ r = 4%nat \/ r = 5%nat \/ r = 6%nat \/ r = 7%nat) by lia.
  destruct C as [E|[E|[E|[E|E]]]]; rewrite E; first [left; split; vm_compute; reflexivity|right; split; vm_compute; reflexivity].
Qed.

(** one common reversal is not enough: both runs of these eight rows turn at
    row 5, on row 6 they show their stops on different sides *)
Definition part_bars : list (float * float * float * float) :=
  [(32, 29, 30, 1); (7, 2, 4, 1); (14, 10, 13, 1); (15, 13, 14, 1); (18, 13, 15, 1); (8, 2, 5, 1); (24, 20, 23, 1); (24, 18, 21, 1)]%float.
Theorem C106_one_reversal_refuted :
  ~ (forall (rows rows' : list (bar float)) K K' up dn up' dn', default_index rows -> default_index rows' -> same_bars K rows K' rows' ->
       compute (PsarUp true step02 step2) false rows = Ok up -> compute (PsarDown true step02 step2) false rows = Ok dn ->
       compute (PsarUp true step02 step2) false rows' = Ok up' -> compute (PsarDown true step02 step2) false rows' = Ok dn' ->
       forall i, (1 <= i)%nat -> turns up dn (K + i) -> turns up' dn' (K' + i) ->
       forall r, (i <= r)%nat -> (K + r < length rows)%nat -> same_side up dn up' dn' (K + r) (K' + r)).
Proof.
  intros H. specialize (H (bars_from 0 part_bars) (bars_from 0 (tl part_bars)) 1%nat 0%nat _ _ _ _ eq_refl eq_refl (conj eq_refl eq_refl) eq_refl eq_refl eq_refl eq_refl
    4%nat ltac:(lia) ltac:(left; vm_compute; auto) ltac:(left; vm_compute; auto) 5%nat ltac:(lia) ltac:(cbn; lia)).
  destruct H as [[A B]|[A B]]; [vm_compute in A|vm_compute in B]; discriminate.
Qed.
Print Assumptions C106_one_reversal_refuted.

(** and no amount of history need be enough: in a flat market, of any length,
    the stop of a history that starts one row later is wrong on every row *)
Theorem C106_flat_market_never_forgets : (forall b step mx n hi lo c v, 0 < step <= 1 -> lo < hi -> lo <= c <= hi -> (1 <= n)%nat ->
  let market m := frame m (fun _ => hi) (fun _ => lo) (fun _ => c) v in
  same_bars 1 (market (S n)) 0 (market n) /\
  exists out out', compute (Psar b (Fin step) (Fin mx)) false (market (S n)) = Ok out /\
    compute (Psar b (Fin step) (Fin mx)) false (market n) = Ok out' /\
    forall r, (2 <= r < n)%nat -> nth (1 + r) out NaN <> nth r out' NaN)%R.
Proof. exact flat_market. Qed.
Print Assumptions C106_flat_market_never_forgets.
Example C106_flat : (0 < 1 / 50 <= 1 /\ 9 < 11 /\ 9 <= 10 <= 11)%R.
Proof. lra. Qed.
