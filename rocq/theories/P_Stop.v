(** * P_Stop: property C88, PSAR as a trailing stop in binary64.

    Machine arithmetic throughout; [b] says whether the index holds integers,
    and the hypothesis on it excludes the label-dependent case of C59. *)
From Coq Require Import Floats.
From Verif Require Import Api FloatArith SpecCausal Samples SpecStop FloatOrder Stop Stop64.
Local Open Scope float_scope.

(** C88: any rows, missing and infinite cells included, any steps. *)
Theorem C88_stop_on_its_side : forall b step mx (rows : list (bar float)) up dn, b = false \/ default_index rows ->
  compute (PsarUp b step mx) false rows = Ok up -> compute (PsarDown b step mx) false rows = Ok dn ->
  forall i, (2 <= i < length rows)%nat ->
    (stop_on up i -> (i = 2)%nat \/ stop_on up (i - 1) ->
       (nth i (map b_low rows) nan <? nth i up nan) = false /\ (nth (i - 2) (map b_low rows) nan <? nth i up nan) = false) /\
    (stop_on dn i -> stop_on dn (i - 1) ->
       (nth i dn nan <? nth i (map b_high rows) nan) = false /\ (nth i dn nan <? nth (i - 2) (map b_high rows) nan) = false).
Proof. exact (@stop_side float FloatA Float_laws Float_round). Qed.
Print Assumptions C88_stop_on_its_side.

(** the stop of a reversal row is exactly the highest high (lowest low) of the trend it ends *)
Theorem C88_reversal_at_extreme : forall b step mx (rows : list (bar float)) up dn, b = false \/ default_index rows ->
  Forall (fun r => PrimFloat.is_nan (b_high r) = false /\ PrimFloat.is_nan (b_low r) = false) rows ->
  compute (PsarUp b step mx) false rows = Ok up -> compute (PsarDown b step mx) false rows = Ok dn ->
  forall s k, (2 <= s <= k)%nat -> (k < length rows)%nat ->
    (trend_from dn s -> (forall j, (s <= j < k)%nat -> stop_on up j) -> stop_on dn k -> (s = 2 \/ s < k)%nat ->
       (exists j, trend_row s k j /\ nth k dn nan = nth j (map b_high rows) nan) /\
       forall j, trend_row s k j -> (nth k dn nan <? nth j (map b_high rows) nan) = false) /\
    ((s < k)%nat -> s = 2%nat \/ stop_on up (s - 1) -> (forall j, (s <= j < k)%nat -> stop_on dn j) -> stop_on up k ->
       (exists j, (s <= j < k)%nat /\ nth k up nan = nth j (map b_low rows) nan) /\
       forall j, (s <= j < k)%nat -> (nth j (map b_low rows) nan <? nth k up nan) = false).
Proof. exact (@reversal_stop float FloatA Float_laws Float_round). Qed.
Print Assumptions C88_reversal_at_extreme.

(** every stop lies inside any interval that holds the prices up to its row; in particular it is a number *)
Theorem C88_inside_prices : forall b step mx rows out, b = false \/ default_index rows -> steps_ok step mx ->
  compute (Psar b step mx) false rows = Ok out -> forall i lo hi, (i < length rows)%nat -> bounded lo -> bounded hi ->
  (forall j, (j <= i)%nat -> row_in lo hi rows j) ->
  PrimFloat.leb lo (nth i out nan) = true /\ PrimFloat.leb (nth i out nan) hi = true.
Proof. exact psar_inside64. Qed.
Print Assumptions C88_inside_prices.

(** while a trend lasts the stop moves back only onto the low (high) of one of the two bars before *)
Theorem C88_stop_falls_back_only_to_bars : forall b step mx rows up dn, b = false \/ default_index rows ->
  steps_ok step mx -> Forall row_bounded rows ->
  compute (PsarUp b step mx) false rows = Ok up -> compute (PsarDown b step mx) false rows = Ok dn ->
  forall i, (i < length rows)%nat ->
    (stop_on up (i - 1) -> stop_on up i -> PrimFloat.ltb (nth i up nan) (nth (i - 1) up nan) = true ->
       PrimFloat.eqb (nth i up nan) (nth (i - 1) (map b_low rows) nan) = true \/ PrimFloat.eqb (nth i up nan) (nth (i - 2) (map b_low rows) nan) = true) /\
    (stop_on dn (i - 1) -> stop_on dn i -> PrimFloat.ltb (nth (i - 1) dn nan) (nth i dn nan) = true ->
       PrimFloat.eqb (nth i dn nan) (nth (i - 1) (map b_high rows) nan) = true \/ PrimFloat.eqb (nth i dn nan) (nth (i - 2) (map b_high rows) nan) = true).
Proof. exact psar_ratchet64. Qed.
Print Assumptions C88_stop_falls_back_only_to_bars.
(** and it does move back: a stop that trails 5, then 4, in one up trend *)
Definition falling : list (bar float) := bars_from 0 [(14, 5, 11, 1); (12, 4, 5, 1); (22, 10, 16, 1); (13, 12, 12, 1)].
Theorem C88_stop_never_falls_refuted :
  ~ (forall rows up i, default_index rows -> Forall row_bounded rows -> compute (PsarUp true step02 step2) false rows = Ok up ->
       (i < length rows)%nat -> stop_on up (i - 1) -> stop_on up i -> (nth i up nan <? nth (i - 1) up nan) = false).
Proof.
  intros H. specialize (H falling _ 3%nat eq_refl ltac:(repeat (apply Forall_cons; [repeat split; vm_compute; reflexivity|]); apply Forall_nil) eq_refl
    ltac:(cbn; lia) ltac:(vm_compute; reflexivity) ltac:(vm_compute; reflexivity)).
  vm_compute in H. discriminate.
Qed.
Print Assumptions C88_stop_never_falls_refuted.

Example C88_applies : default_index sample /\ steps_ok step02 step2 /\ Forall row_bounded sample /\
  (exists up dn, compute (PsarUp true step02 step2) false sample = Ok up /\ compute (PsarDown true step02 step2) false sample = Ok dn /\
     (* the opening trend ends on row 2 at the high of row 0, below the high of row 1 *)
     nth 2 dn nan = 12 /\ nth 1 (map b_high sample) nan = 13 /\
     (* an up trend on rows 3 and 4, ended on row 5 at its highest high *)
     stop_on dn 2 /\ stop_on up 3 /\ stop_on up 4 /\ stop_on dn 5 /\ trend_from dn 3 /\ nth 5 dn nan = 16 /\
     (* a down trend on rows 5 to 8, ended on row 9 at its lowest low *)
     stop_on dn 6 /\ stop_on dn 7 /\ stop_on dn 8 /\ stop_on up 9 /\ nth 9 up nan = 8 /\
     PrimFloat.ltb (nth 7 dn nan) (nth 6 dn nan) = true) /\
  bounded 8 /\ bounded 18 /\ (forall j, (j < 12)%nat -> row_in 8 18 sample j) /\
  (* the stop that falls back, falls to the low of row 1 *)
  Forall row_bounded falling /\ compute (PsarUp true step02 step2) false falling = Ok [nan; nan; 5; 4].
Proof.
  assert (R : forall l, Forall (fun b => (- 0x1p1000 <=? b_high b) && (b_high b <=? 0x1p1000) && ((- 0x1p1000 <=? b_low b) && (b_low b <=? 0x1p1000)) &&
    ((- 0x1p1000 <=? b_close b) && (b_close b <=? 0x1p1000)) && (b_low b <=? b_high b) = true) l -> Forall row_bounded l).
  { intros l H. eapply Forall_impl; [|exact H]. intros b E. cbv beta in E. rewrite !Bool.andb_true_iff in E. unfold row_bounded, bounded. tauto. }
  split; [reflexivity|]. split; [repeat split; vm_compute; reflexivity|].
  split; [apply R; repeat (apply Forall_cons; [vm_compute; reflexivity|]); apply Forall_nil|].
  split. { eexists. eexists. split; [vm_compute; reflexivity|]. split; [vm_compute; reflexivity|]. repeat split; try (vm_compute; reflexivity). right. split; [lia|vm_compute; reflexivity]. }
  split; [split; vm_compute; reflexivity|]. split; [split; vm_compute; reflexivity|].
  split; [intros j Hj; do 12 (destruct j as [|j]; [repeat split; vm_compute; reflexivity|]); lia|].
  split; [apply R; repeat (apply Forall_cons; [vm_compute; reflexivity|]); apply Forall_nil|vm_compute; reflexivity].
Qed.
