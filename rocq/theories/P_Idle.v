(** * P_Idle: property C96, rows on which nothing trades. *)
From Coq Require Import Reals Lra Lia Floats.
From Verif Require Import Api FloatArith SpecNum SpecIdle SpecResidue Flows Idle IdleFloat.
Local Open Scope R_scope.

(** C96.  A row without volume leaves the running totals where they were. *)
Theorem C96_obv : forall fillna n h l c v i out, v i = 0 -> (1 <= i < n)%nat ->
  compute Obv fillna (frame n h l c v) = Ok out -> nth i out NaN = nth (i - 1) out NaN.
Proof. exact obv_idle. Qed.
Print Assumptions C96_obv.
Theorem C96_adi : forall fillna n h l c v i out, sane n h l c -> v i = 0 -> (1 <= i < n)%nat ->
  compute Adi fillna (frame n h l c v) = Ok out -> nth i out NaN = nth (i - 1) out NaN.
Proof. exact adi_idle. Qed.
Print Assumptions C96_adi.
Theorem C96_vpt : forall fillna n h l c v i out, (forall j, (j < n)%nat -> c j <> 0) -> v i = 0 -> (2 <= i < n)%nat ->
  compute (Vpt None false) fillna (frame n h l c v) = Ok out -> nth i out NaN = nth (i - 1) out NaN.
Proof. exact vpt_idle. Qed.
Print Assumptions C96_vpt.

(** C96.  The NVI takes the whole return of the row when volume dries up, and
    none while it stays away.  The force index decays. *)
Theorem C96_nvi : forall fillna n h l c v i out, (forall j, (j < n)%nat -> c j <> 0) -> v i = 0 -> 0 <= v (i - 1)%nat -> (1 <= i < n)%nat ->
  compute Nvi fillna (frame n h l c v) = Ok out ->
  exists x, nth (i - 1) out NaN = Fin x /\ nth i out NaN = Fin (if Req_EM_T (v (i - 1)%nat) 0 then x else x * (c i / c (i - 1)%nat)).
Proof. exact nvi_idle. Qed.
Print Assumptions C96_nvi.
Theorem C96_force_index : forall fillna w n h l c v i out, (1 <= w)%nat -> v i = 0 -> (1 + warm fillna w < i < n)%nat ->
  compute (Fi (Z.of_nat w)) fillna (frame n h l c v) = Ok out ->
  exists x, nth (i - 1) out NaN = Fin x /\ nth i out NaN = Fin ((INR w - 1) / (INR w + 1) * x).
Proof. exact fi_idle. Qed.
Print Assumptions C96_force_index.

(** C96.  The ease of movement divides by the volume: the row is infinite, or
    missing if the market did not move, and w rows of its average are missing. *)
Theorem C96_ease_of_movement : forall fillna w n h l c v i out, v i = 0 -> (1 <= i < n)%nat ->
  compute (Eom w) fillna (frame n h l c v) = Ok out ->
  nth i out NaN = if fillna then nth (i - 1) out NaN else ratio ((delta h i + delta l i) * (h i - l i)) 0.
Proof. exact eom_idle. Qed.
Print Assumptions C96_ease_of_movement.
Theorem C96_sma_ease_of_movement : forall w n h l c v i j out, (1 <= w)%nat -> v i = 0 -> (i <= j < i + w)%nat -> (j < n)%nat ->
  compute (SmaEom (Z.of_nat w)) false (frame n h l c v) = Ok out -> nth j out NaN = NaN.
Proof. exact sma_eom_idle. Qed.
Print Assumptions C96_sma_ease_of_movement.

(** C96.  A window without volume has no CMF, VWAP and MFI; with fillna=True the
    row repeats the one before. *)
Theorem C96_cmf : forall fillna w n h l c v i out, (1 <= w)%nat -> sane n h l c -> idle w v i -> (i < n)%nat ->
  compute (Cmf (Z.of_nat w)) fillna (frame n h l c v) = Ok out -> nth i out NaN = if fillna then before (Fin 0) out i else NaN.
Proof. exact cmf_idle. Qed.
Print Assumptions C96_cmf.
Theorem C96_vwap : forall fillna w n h l c v i out, (1 <= w)%nat -> idle w v i -> (i < n)%nat ->
  compute (Vwap (Z.of_nat w)) fillna (frame n h l c v) = Ok out -> nth i out NaN = if fillna then before (Fin 0) out i else NaN.
Proof. exact vwap_idle. Qed.
Print Assumptions C96_vwap.
Theorem C96_mfi : forall fillna w n h l c v i out, (1 <= w)%nat -> idle w v i -> (i < n)%nat ->
  compute (Mfi (Z.of_nat w)) fillna (frame n h l c v) = Ok out -> nth i out NaN = if fillna then before (Fin 50) out i else NaN.
Proof. exact mfi_idle. Qed.
Print Assumptions C96_mfi.

(** a rising market in which nobody trades from row 5 on *)
Definition dries_up (n : nat) : list (bar xr) :=
  frame n (fun j => 12 + INR j) (fun j => 9 + INR j) (fun j => 10 + INR j) (fun j => if (j <? 5)%nat then 100 else 0).
Example C96_applies : sane 12 (fun j => 12 + INR j) (fun j => 9 + INR j) (fun j => 10 + INR j) /\ (forall j, (j < 12)%nat -> 10 + INR j <> 0) /\
  (forall w, (1 <= w <= 4)%nat -> idle w (fun j => if (j <? 5)%nat then 100 else 0) 8) /\
  (exists out, compute Obv true (dries_up 12) = Ok out /\ nth 8 out NaN = Fin 500) /\
  (forall fillna, exists out, compute (Vwap 3) fillna (dries_up 12) = Ok out) /\ (forall fillna, exists out, compute (Mfi 3) fillna (dries_up 12) = Ok out).
Proof.
  repeat split.
  1,2: lra. 2: lia. 2: intros j Hj; destruct (Nat.ltb_spec j 5); [lia|reflexivity].
  - intros j _. pose proof (pos_INR j). lra.
  - unfold dries_up. rewrite obv_formula. eexists. split; [reflexivity|]. rewrite Tab.nth_tab by lia. unfold from, fromx. cbn [Nat.ltb Nat.leb]. f_equal.
    cbn [rsum signed_volume Nat.add Nat.ltb Nat.leb INR].
    repeat match goal with |- context [Rlt_dec ?a ?b] => destruct (Rlt_dec a b); [lra|] end. lra.
  - intros fillna. destruct (vwap_formula fillna 3 12 (fun j => 12 + INR j) (fun j => 9 + INR j) (fun j => 10 + INR j) (fun j => if (j <? 5)%nat then 100 else 0) ltac:(lia)) as (o & E & _). now exists o.
  - intros fillna. destruct (mfi_formula fillna 3 12 (fun j => 12 + INR j) (fun j => 9 + INR j) (fun j => 10 + INR j) (fun j => if (j <? 5)%nat then 100 else 0) ltac:(lia)) as (o & E & _). now exists o.
Qed.

(** C96 in binary64: the same for OBV and MFI, on any data ... *)
Theorem C96_obv_binary64 : forall rows out i b p, compute Obv false rows = Ok out -> nth_error rows (S i) = Some b -> nth_error rows i = Some p ->
  PrimFloat.eqb (b_volume b) 0 = true -> PrimFloat.is_nan (b_volume p) = false -> alike (nth (S i) out nan) (nth i out nan).
Proof. exact obv_idle64. Qed.
Print Assumptions C96_obv_binary64.
Theorem C96_mfi_binary64 : forall w rows out i, compute (Mfi w) false rows = Ok out -> (i < length rows)%nat ->
  (forall j b, (i < j + Z.to_nat w)%nat -> (j <= i)%nat -> nth_error rows j = Some b ->
    PrimFloat.is_nan (b_volume b) = true \/ PrimFloat.eqb (b_volume b) 0 = true) ->
  PrimFloat.is_nan (nth i out nan) = true.
Proof. exact mfi_idle64. Qed.
Print Assumptions C96_mfi_binary64.
(** ... but not for the VWAP: after volumes of 0.9 and 1.3 at a price of 13
    nothing trades any more, the price stays between 9 and 11, and the VWAP(2)
    is -16 for ever. *)
Definition thin : list (float * float * float * float) := [(14, 12, 13, 0x1.ccccccccccccdp-1); (14, 12, 13, 0x1.4cccccccccccdp+0)]%float.
Theorem C96_vwap_refuted : shows_for_ever (Vwap 2) thin (11, 9, 10, 0)%float 4 (-16)%float.
Proof. exact vwap_idle_residue. Qed.
Print Assumptions C96_vwap_refuted.
Example C96_binary64_applies :
  compute Obv false (then_still thin (11, 9, 10, 0)%float 3) = Ok [0x1.ccccccccccccdp-1; 0x1.199999999999ap+1; 0x1.199999999999ap+1; 0x1.199999999999ap+1; 0x1.199999999999ap+1]%float /\
  compute (Mfi 2) false (then_still thin (11, 9, 10, 0)%float 3) = Ok [nan; nan; nan; nan; nan].
Proof. split; vm_compute; reflexivity. Qed.
