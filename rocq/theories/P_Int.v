(** * P_Int: property C100 (integer columns). *)
From Coq Require Import Floats Reals Lra.
From Verif Require Import FloatArith FloatReal Api SpecNum SpecTracking IntColumns SpecInt IntProofs IntFloat.
Local Open Scope Z_scope.

(** C100.  Signed volumes (int8 ... int64): on-balance volume is exact while the
    turnover stays below 2^63, and off by a multiple of 2^64 beyond.  The closes
    are of any arithmetic, so also float64. *)
Theorem C100_obv_signed : forall F (A : Arith F) (L : ArithLaws F) w (close : list F) volume i, 0 < w <= 64 -> length volume = length close -> (i < length close)%nat ->
  (forall j, (j <= i)%nat -> 0 <= nth j volume 0 < 2 ^ (w - 1)) ->
  let shown := nth i (on_balance_volume_int (mkdtype true w) close volume) 0 in
  (shown - balance close volume i) mod 2 ^ 64 = 0 /\ (turnover volume i < 2 ^ 63 -> shown = balance close volume i).
Proof. intros F A L w close volume i W LEN Hi V. exact (obv_signed (mkdtype true w) close volume W LEN eq_refl i Hi V). Qed.
Print Assumptions C100_obv_signed.
(** It shows the number a float64 volume column shows, as long as the turnover is
    at most 2^53; a float64 column may round beyond. *)
Theorem C100_obv_as_float : forall rows volume fillna i, Forall2 (on_grid 0) volume (map b_volume rows) -> Forall (fun k => 0 <= k) volume -> total volume <= 2 ^ 53 ->
  (i < length rows)%nat -> exists out, compute Obv fillna rows = Ok out /\
  val (nth i out fnan) = Fin (IZR (nth i (on_balance_volume_int int64 (map b_close rows) volume) 0)).
Proof. exact obv_int_float. Qed.
Print Assumptions C100_obv_as_float.
(** Unsigned volumes: uint64 shows a negative balance plus 2^64 ... *)
Theorem C100_obv_uint64 : forall F (A : Arith F) (L : ArithLaws F) (close : list F) volume i, length volume = length close -> (i < length close)%nat ->
  (forall j, (j <= i)%nat -> 0 <= nth j volume 0) -> turnover volume i < 2 ^ 64 ->
  let shown := nth i (on_balance_volume_int uint64 close volume) 0 in
  (0 <= balance close volume i -> shown = balance close volume i) /\ (balance close volume i < 0 -> shown = balance close volume i + 2 ^ 64).
Proof. exact @obv_uint64. Qed.
Print Assumptions C100_obv_uint64.
(** ... and a narrower one is too high by 2^w for every fall so far, so it is right
    only until the close first falls. *)
Theorem C100_obv_unsigned : forall F (A : Arith F) (L : ArithLaws F) w (close : list F) volume i, 0 < w < 64 -> length volume = length close -> (i < length close)%nat ->
  (forall j, (j <= i)%nat -> 0 <= nth j volume 0 < 2 ^ w) -> Z.of_nat (S i) <= 2 ^ (64 - w) ->
  let shown := nth i (on_balance_volume_int (mkdtype false w) close volume) 0 in
  shown = balance close volume i + 2 ^ w * falls close volume i /\ (shown = balance close volume i <-> falls close volume i = 0).
Proof. exact @obv_narrow. Qed.
Print Assumptions C100_obv_unsigned.

(** Signed prices: accumulation/distribution index and Chaikin money flow are those
    of the float columns ... *)
Theorem C100_adi_cmf_signed : forall b w fillna n h l c v, 1 < b -> zsane (b - 1) n h l c -> (1 <= w)%nat ->
  let H := ztab n h in let L := ztab n l in let C := ztab n c in let V := tab n (from 0 v) in let rows := frame n (zr h) (zr l) (zr c) v in
  Ok (acc_dist_index_int (mkdtype true b) H L C V fillna) = compute Adi fillna rows /\
  chaikin_money_flow_int (mkdtype true b) H L C V (Z.of_nat w) fillna = compute (Cmf (Z.of_nat w)) fillna rows.
Proof.
  intros b w fillna n h l c v B S Hw. exact (conj (adi_signed (mkdtype true b) fillna n h l c v eq_refl B S) (cmf_signed (mkdtype true b) w fillna n h l c v eq_refl B S Hw)).
Qed.
Print Assumptions C100_adi_cmf_signed.
(** ... with unsigned prices every close in the lower half of its bar counts with
    its location plus 2^b over the range of the bar. *)
Theorem C100_adi_cmf_unsigned : forall b w fillna n h l c v, 0 < b -> zsane b n h l c -> (1 <= w)%nat ->
  let H := ztab n h in let L := ztab n l in let C := ztab n c in let V := tab n (from 0 v) in
  acc_dist_index_int (mkdtype false b) H L C V fillna = tab n (from 0 (fun i => rsum (fun j => lifted b h l c j * v j)%R 0 (S i))) /\
  shows fillna 0 (tab n (fromx (warm fillna w) (fun i => ratio (wsum w (fun j => lifted b h l c j * v j)%R i) (wsum w v i))))
    (chaikin_money_flow_int (mkdtype false b) H L C V (Z.of_nat w) fillna).
Proof.
  intros b w fillna n h l c v B S Hw. exact (conj (adi_unsigned (mkdtype false b) fillna n h l c v eq_refl B S) (cmf_unsigned (mkdtype false b) w fillna n h l c v eq_refl B S Hw)).
Qed.
Print Assumptions C100_adi_cmf_unsigned.

(** KAMA never returns on an integer close column, whatever it holds; with a valid
    window it raises numpy's UFuncTypeError. *)
Theorem C100_kama_integer_refuted : forall F (A : Arith F) t close window pow1 pow2 fillna,
  (forall out : list F, kama_int t close window pow1 pow2 fillna <> Done (Ok out)) /\
  (0 <= window -> @kama_int F A t close window pow1 pow2 fillna = UFuncTypeError).
Proof. exact @kama_never. Qed.
Print Assumptions C100_kama_integer_refuted.

(** Closes 10, 9, 8, 9 and volumes 5, 7, 9, 4: the balance is 5, -2, -11, -7. *)
Definition closes : list float := [10; 9; 8; 9]%float.
Definition lots : list Z := [5; 7; 9; 4].
Example C100_applies : map (balance closes lots) [0; 1; 2; 3]%nat = [5; -2; -11; -7] /\ turnover lots 3 = 25 /\ map (falls closes lots) [0; 1; 2; 3]%nat = [0; 1; 2; 2].
Proof. vm_compute. repeat split. Qed.
(** The same market with volumes kept as int64, uint64 and uint32. *)
Theorem C100_unsigned_volume_refuted :
  on_balance_volume_int int64 closes lots = [5; -2; -11; -7] /\
  on_balance_volume_int uint64 closes lots = [5; 2 ^ 64 - 2; 2 ^ 64 - 11; 2 ^ 64 - 7] /\
  on_balance_volume_int uint32 closes lots = [5; 2 ^ 32 - 2; 2 ^ 33 - 11; 2 ^ 33 - 7].
Proof. vm_compute. repeat split. Qed.
Print Assumptions C100_unsigned_volume_refuted.
(** Above 2^53 a float64 column rounds and an int64 column does not. *)
Example C100_beyond : on_balance_volume_int int64 [1; 2]%float [2 ^ 53; 1] = [2 ^ 53; 2 ^ 53 + 1] /\
  on_balance_volume [1; 2]%float [0x1p+53; 1]%float false = Ok [0x1p+53; 0x1p+53]%float.
Proof. vm_compute. repeat split. Qed.
(** A bar from 10 to 14 that closes at 11: location -1/2, but with uint64 prices
    2^62 - 1/2, far outside -1 ... 1. *)
Example C100_money_flow : zsane 64 1 (fun _ => 14) (fun _ => 10) (fun _ => 11) /\ lifted 64 (fun _ => 14) (fun _ => 10) (fun _ => 11) 0 = (IZR (2 ^ 62) - 1 / 2)%R.
Proof.
  split; [intros i Hi; repeat split; lia|]. unfold lifted, location, zr. destruct (Req_EM_T 14 10); [lra|].
  change (2 * 11 <? 14 + 10) with true. cbv iota. change (2 ^ 64) with (4 * 2 ^ 62). rewrite mult_IZR. change (14 - 10) with 4. lra.
Qed.
