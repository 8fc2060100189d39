(** * Utils: model of /repo/ta/utils.py *)
From Verif Require Export Sums.
Local Open Scope f_scope.

Section Utils.
Context {F : Type} {A : Arith F}.

(** The [value] argument of _check_fillna: an int, or (KAMA) a Series. *)
Inductive fillvalue := FillInt (z : Z) | FillSeries (s : list F).

(** utils.py:19-36 IndicatorMixin._check_fillna *)
Definition check_fillna (fillna : bool) (value : fillvalue) (s : list F) : list F :=
  if fillna then
    let out := replace_inf s in
    match value with
    | FillInt z => if (z =? -1)%Z then bfill (ffill out)
                   else fillna_const (fofZ z) (ffill out)
    | FillSeries v => fillna_series v (ffill out)
    end
  else s.

(** utils.py:38-46 IndicatorMixin._true_range; DataFrame.max(axis=1) skips NaN *)
Definition true_range (high low prev_close : list F) : list F :=
  let tr1 := ssub high low in
  let tr2 := map fabs (ssub high prev_close) in
  let tr3 := map fabs (ssub low prev_close) in
  map3 (fun a b c => nanmax [a; b; c]) tr1 tr2 tr3.

(** utils.py:59-61 _sma *)
Definition sma_ (s : list F) (periods : Z) (fillna : bool) : result (list F) :=
  let minp := if fillna then 0%Z else periods in
  rolling periods minp agg_mean s.

(** utils.py:64-66 _ema *)
Definition ema_ (s : list F) (periods : Z) (fillna : bool) : result (list F) :=
  let minp := if fillna then 0%Z else periods in
  ewm_span periods minp s.

(** utils.py:69-80 _get_min_max; [function] is the string argument *)
Inductive minmax_fn := FnMin | FnMax | FnOther.
Definition get_min_max (s1 s2 : list F) (function : minmax_fn) : result (list F) :=
  match function with
  | FnMin => Ok (map2 npmin2 s1 s2)
  | FnMax => Ok (map2 npmax2 s1 s2)
  | FnOther => Raise ValueError
  end.

(** utils.py:49-56 dropna.  A row of the frame: its label, its numeric cells
    and, for each non-numeric cell, whether it is missing.  [big] is
    math.exp(709).  The two boolean-mask assignments replace failing cells by
    NaN; df.dropna() then removes every row with a missing cell. *)
Record frow := { flabel : Z; fcells : list F; fother_missing : list bool }.
Definition mask_cell (big x : F) : F :=
  let y := if x <.? big then x else fnan in
  if negb (y =.? #0) then y else fnan.
Definition mask_row (big : F) (r : frow) : frow :=
  {| flabel := flabel r; fcells := map (mask_cell big) (fcells r);
     fother_missing := fother_missing r |}.
Definition row_complete (r : frow) : bool :=
  forallb (fun x => negb (fisnan x)) (fcells r) && forallb negb (fother_missing r).
Definition dropna (big : F) (df : list frow) : list frow :=
  filter row_complete (map (mask_row big) df).

End Utils.
Arguments fillvalue F : clear implicits.
Arguments frow F : clear implicits.
