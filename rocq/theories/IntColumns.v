(** * IntColumns: OBV, ADI and CMF on integer columns.

    The rest of the model has float64 columns.  pandas keeps integer columns
    integer as long as it can, so three classes compute with numpy's fixed-width
    integers, which wrap around (numpy 1.21.5; not in /repo, transcribed).  Column
    lengths are equal; the result of cumsum is 64 bits wide (np.cumsum, Linux). *)
From Verif Require Export Volume.
Local Open Scope f_scope.

(** an integer dtype: int8 ... int64, uint8 ... uint64 *)
Record dtype := mkdtype { is_signed : bool; width : Z }.
Definition int64 := mkdtype true 64.
Definition uint64 := mkdtype false 64.
Definition uint32 := mkdtype false 32.
(** the value of the low bits: numpy's integer arithmetic *)
Definition wrap (t : dtype) (z : Z) : Z :=
  let r := (z mod 2 ^ width t)%Z in
  if is_signed t && (2 ^ (width t - 1) <=? r)%Z then (r - 2 ^ width t)%Z else r.

(** Series.cumsum of an integer column: np.cumsum in 64 bits *)
Fixpoint cumsum_int (t : dtype) (acc : Z) (s : list Z) : list Z :=
  match s with
  | [] => []
  | x :: r => let acc' := wrap t (acc + x) in acc' :: cumsum_int t acc' r
  end.

(** what a call does: the outcomes of the rest of the model, or numpy's refusal to
    store a result in an array of another kind (UFuncTypeError) *)
Inductive outcome (B : Type) := Done (r : result B) | UFuncTypeError.
Arguments Done {B}. Arguments UFuncTypeError {B}.
Inductive cells := Float64 | Int (t : dtype).
(** np.can_cast(from, to, casting="same_kind"), the rule for ufuncs with [out=] *)
Definition same_kind (from to : cells) : bool :=
  match from, to with
  | _, Float64 => true
  | Float64, Int _ => false
  | Int s, Int t => is_signed t || negb (is_signed s)
  end.

Section Model.
Context {F : Type} {A : Arith F}.

(** ** OnBalanceVolumeIndicator: volume.py:85-96, volume an integer column.
    [-self._volume] is taken in the column's own width; np.where keeps the dtype;
    _check_fillna (utils.py:17-32) finds nothing to fill in an integer column. *)
Definition on_balance_volume_int (t : dtype) (close : list F) (volume : list Z) : list Z :=
  cumsum_int (mkdtype (is_signed t) 64) 0
    (map3 (fun c p v => if c <.? p then wrap t (- v) else v) close (shift 1 close) volume).

(** ** the location of the close, volume.py:48-51 and 133-136, integer price columns:
    differences wrap, the division converts both sides to float64 *)
Definition clv_int (t : dtype) (high low close : list Z) : list F :=
  fillna_const (#0) (map3 (fun h l c => fofZ (wrap t (wrap t (c - l) - wrap t (h - c))) /. fofZ (wrap t (h - l))) high low close).
(** ** AccDistIndexIndicator: volume.py:47-62 *)
Definition acc_dist_index_int (t : dtype) (high low close : list Z) (volume : list F) (fillna : bool) : list F :=
  check_fillna fillna (FillInt 0) (cumsum (smul (clv_int t high low close) volume)).
(** ** ChaikinMoneyFlowIndicator: volume.py:132-151 *)
Definition chaikin_money_flow_int (t : dtype) (high low close : list Z) (volume : list F) (window : Z) (fillna : bool) : result (list F) :=
  let mfv := smul (clv_int t high low close) volume in
  let minp := minp_of fillna window in
  a <- rolling window minp agg_sum mfv ;;
  b <- rolling window minp agg_sum volume ;;
  Ok (check_fillna fillna (FillInt 0) (sdiv a b)).

(** ** KAMAIndicator: momentum.py:317-326, close an integer column.  er_num is
    an integer array, so [np.zeros_like(er_num)] is one as well, and np.divide is to
    store its float64 results there.  The types are compared before any element. *)
Definition kama_int (t : dtype) (close : list Z) (window pow1 pow2 : Z) (fillna : bool) : outcome (list F) :=
  let vol := map2 (fun a b => wrap t (Z.abs (wrap t (a - b)))) close (np_roll 1 close) in
  match rolling window (minp_of fillna window) agg_sum (map fofZ vol) with
  | Raise e => Done (Raise e)
  | Ok er_den => if same_kind Float64 (Int t) then Done (kama (map fofZ close) window pow1 pow2 fillna) else UFuncTypeError
  end.
End Model.
