(** * P_Repeat: property C98, markets that repeat themselves.

    [repeats k g q rows]: every row is the row k rows before with prices times g
    and volumes times q; [climbs k s rows]: prices plus s (SpecRepeat.v).  The
    rows may hold missing and infinite values, and anything may precede them. *)
From Coq Require Import Reals Lra.
From Verif Require Import Api SpecNum SpecScale SpecMemory SpecRepeat Tab Repeat.
Local Open Scope R_scope.

(** C98.  From the first row whose window lies in the repeating part, the series
    repeats itself as well, up to the factor of C60 (exact arithmetic).  g = q =
    1: a periodic market; k = 1: constant growth, in which every unit-free series
    stands still. *)
Theorem C98_repeats : forall g q, 0 < g -> 0 < q -> forall ind m k past rows out i, log_is_ln ind ->
  memory ind = Some m -> looks_back ind = true -> repeats k g q rows ->
  compute ind false (past ++ rows) = Ok out -> (m <= i)%nat -> (k + i < length rows)%nat ->
  nth (length past + (k + i)) out NaN = times (factor ind g q) (nth (length past + i) out NaN).
Proof. exact repeat_table. Qed.
Print Assumptions C98_repeats.

(** C98.  The same for a market that climbs by the same amount. *)
Theorem C98_climbs : forall s ind m k past rows out i,
  memory ind = Some m -> looks_back ind = true -> climbs k s rows ->
  compute ind false (past ++ rows) = Ok out -> (m <= i)%nat -> (k + i < length rows)%nat ->
  match follows ind false with
  | Some true => nth (length past + (k + i)) out NaN = plus s (nth (length past + i) out NaN)
  | Some false => nth (length past + (k + i)) out NaN = nth (length past + i) out NaN
  | None => True
  end.
Proof. exact climb_table. Qed.
Print Assumptions C98_climbs.

(** C98.  A window of whole periods levels a periodic market out: averages,
    highs, lows and deviations stand still. *)
Theorem C98_whole_periods_level_out : forall k t ind past n h l c v out i j, (1 <= k)%nat -> (1 <= t)%nat ->
  cyclic k n h -> cyclic k n l -> cyclic k n c -> cyclic k n v -> levels_out (Z.of_nat (k * t)) ind ->
  compute ind false (past ++ frame n h l c v) = Ok out -> (k * t - 1 <= i)%nat -> (i <= j)%nat -> (j < n)%nat ->
  nth (length past + j) out NaN = nth (length past + i) out NaN.
Proof. exact levels. Qed.
Print Assumptions C98_whole_periods_level_out.

(** C98.  The EMA remembers every row, so it only approaches such a state: with
    growth by the factor g per row its distance from the multiple [lead] of the
    close shrinks by the factor (w-1)/(w+1) per row. *)
Theorem C98_ema_growth : forall w n h l c v g k i out, (1 <= w)%nat -> INR w - 1 < (INR w + 1) * g -> (w - 1 <= k <= i)%nat -> (i < n)%nat ->
  (forall j, (k <= j)%nat -> (S j < n)%nat -> c (S j) = g * c j) ->
  compute (Ema (Z.of_nat w)) false (frame n h l c v) = Ok out ->
  let lead := 2 * g / ((INR w + 1) * g - (INR w - 1)) in
  exists e f, nth k out NaN = Fin e /\ nth i out NaN = Fin f /\
    f - lead * c i = ((INR w - 1) / (INR w + 1)) ^ (i - k) * (e - lead * c k).
Proof. exact ema_grows. Qed.
Print Assumptions C98_ema_growth.

(** closes 1, 2, 4, 1, 2, 4, ... with a missing low in every period, after a bad
    row; a price that doubles every row; one that climbs by 3 every 2 rows *)
Definition wave (j : nat) : R := nth (j mod 3) [1; 2; 4] 0.
Definition waves (n : nat) : list (bar xr) :=
  tab n (fun j => mkbar 0 (Fin (wave j + 1)) (if (j mod 3 =? 1)%nat then NaN else Fin (wave j / 2)) (Fin (wave j)) (Fin 7)).
Lemma tab_error : forall {B} n (f : nat -> B) j x, nth_error (tab n f) j = Some x -> x = f j.
Proof.
  intros B n f j x H. unfold tab in H. rewrite nth_error_map in H. destruct (nth_error (seq 0 n) j) as [a|] eqn:E; [|discriminate].
  injection H as <-. assert (j < n)%nat by (rewrite <- (seq_length n 0); apply nth_error_Some; congruence).
  apply nth_error_nth with (d := 0%nat) in E. now rewrite seq_nth in E by auto; subst a.
Qed.
Example C98_applies : repeats 3 1 1 (waves 30) /\
  repeats 1 2 1 (frame 30 (fun j => 2 ^ j) (fun j => 2 ^ j / 2) (fun j => 2 ^ j) (fun _ => 1)) /\
  climbs 2 3 (frame 30 (fun j => 3 * INR (j / 2) + 1) (fun j => 3 * INR (j / 2)) (fun j => 3 * INR (j / 2)) (fun _ => 1)) /\
  cyclic 3 30 wave /\ memory (Cci 20 (Fin (3 / 200))) = Some 19%nat /\
  (exists out, compute (Cci 20 (Fin (3 / 200))) false (mkbar 0 NaN NaN NaN NaN :: waves 30) = Ok out) /\
  (forall p q, factor (Cci 20 (Fin (3 / 200))) p q = 1) /\ levels_out (Z.of_nat (3 * 4)) (BbH 12 (Fin 2)).
Proof.
  assert (P : forall j, ((3 + j) mod 3 = j mod 3)%nat) by (intros j; replace (3 + j)%nat with (j + 1 * 3)%nat by lia; now rewrite Nat.mod_add).
  repeat split.
  1-4: apply tab_error in H; apply tab_error in H0; subst a b; cbn [b_high b_low b_close b_volume]; unfold wave; rewrite ?P; cbn [times]; rewrite ?Rmult_1_l; auto.
  - destruct (j mod 3 =? 1)%nat; cbn [times]; rewrite ?Rmult_1_l; auto.
  - apply tab_error in H; apply tab_error in H0; subst a b. reflexivity.
  - apply tab_error in H; apply tab_error in H0; subst a b. cbn. f_equal. lra.
  - apply tab_error in H; apply tab_error in H0; subst a b. reflexivity.
  - apply tab_error in H; apply tab_error in H0; subst a b. cbn. f_equal. lra.
  - apply tab_error in H; apply tab_error in H0; subst a b. cbn [b_high plus]. f_equal.
    replace ((2 + j) / 2)%nat with (S (j / 2)) by (replace (2 + j)%nat with (j + 1 * 2)%nat by lia; rewrite Nat.div_add by lia; lia). rewrite S_INR. lra.
  - apply tab_error in H; apply tab_error in H0; subst a b. cbn [b_low plus]. f_equal.
    replace ((2 + j) / 2)%nat with (S (j / 2)) by (replace (2 + j)%nat with (j + 1 * 2)%nat by lia; rewrite Nat.div_add by lia; lia). rewrite S_INR. lra.
  - apply tab_error in H; apply tab_error in H0; subst a b. cbn [b_close plus]. f_equal.
    replace ((2 + j) / 2)%nat with (S (j / 2)) by (replace (2 + j)%nat with (j + 1 * 2)%nat by lia; rewrite Nat.div_add by lia; lia). rewrite S_INR. lra.
  - apply tab_error in H; apply tab_error in H0; subst a b. reflexivity.
  - intros j Hj. unfold wave. now rewrite P.
  - eexists. cbn [compute]. reflexivity.
Qed.
(** window 3 and growth by 10 percent: the EMA settles at 11/12 of the close *)
Example C98_lead : 2 * (11 / 10) / ((INR 3 + 1) * (11 / 10) - (INR 3 - 1)) = 11 / 12.
Proof. cbn. lra. Qed.
