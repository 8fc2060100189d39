(** * Series: the pandas/numpy operations the indicators are built from.

    These definitions model library code that is not in /repo (pandas 1.3.5,
    numpy 1.21.5, pinned in /repo/requirements-core.txt); they are part of the
    trusted base.  A pandas Series is modelled by the list of its values in
    row order; all columns passed to one call share one index (as the columns
    of one DataFrame do), so element-wise operations are positional.  The only
    place where row labels matter is PSAR (see Trend.v).  Comments cite the
    call sites in /repo. *)
From Verif Require Export Arith.
Local Open Scope f_scope.

(** Python exceptions as values. *)
Inductive exn := ValueError | IndexError | ZeroDivisionError | KeyError.
Inductive result (A : Type) := Ok (a : A) | Raise (e : exn).
Arguments Ok {A}. Arguments Raise {A}.

Definition bind {A B} (m : result A) (k : A -> result B) : result B :=
  match m with Ok a => k a | Raise e => Raise e end.
Notation "x <- m ;; k" := (bind m (fun x => k))
  (at level 100, m at next level, right associativity).
Notation "' p <- m ;; k" := (bind m (fun x => let 'p := x in k))
  (at level 100, p pattern, m at next level, right associativity).
Definition rmap {A B} (f : A -> B) (m : result A) : result B :=
  match m with Ok a => Ok (f a) | Raise e => Raise e end.

Fixpoint map2 {A B C} (f : A -> B -> C) (l : list A) (m : list B) : list C :=
  match l, m with
  | a :: l', b :: m' => f a b :: map2 f l' m'
  | _, _ => []
  end.

Fixpoint map3 {A B C D} (f : A -> B -> C -> D) (l : list A) (m : list B) (n : list C) : list D :=
  match l, m, n with
  | a :: l', b :: m', c :: n' => f a b c :: map3 f l' m' n'
  | _, _, _ => []
  end.

Section Series.
Context {F : Type} {A : Arith F}.

(** Element-wise Series arithmetic, e.g. trend.py:118, volume.py:48. *)
Definition sadd := map2 (@fadd F A).
Definition ssub := map2 (@fsub F A).
Definition smul := map2 (@fmul F A).
Definition sdiv := map2 (@fdiv F A).
(** scalar * series and series / scalar, e.g. momentum.py:257, trend.py:657 *)
Definition scal (c : F) (s : list F) := map (fun x => c **. x) s.
Definition divs (s : list F) (c : F) := map (fun x => x /. c) s.
Definition subs (s : list F) (c : F) := map (fun x => x -. c) s.
Definition muls (s : list F) (c : F) := map (fun x => x **. c) s.

Definition fofnat (n : nat) : F := fofZ (Z.of_nat n).
Definition fhalf : F := #1 /. #2.

(** Series.shift(n, fill_value): n rows down for n >= 0, up for n < 0.
    Default fill value NaN. utils/trend/momentum/volatility passim. *)
Definition shift_fill (n : Z) (fill : F) (s : list F) : list F :=
  if (0 <=? n)%Z then
    let k := Nat.min (Z.to_nat n) (length s) in
    repeat fill k ++ firstn (length s - k) s
  else
    let k := Nat.min (Z.to_nat (- n)) (length s) in
    skipn k s ++ repeat fill k.
Definition shift (n : Z) (s : list F) : list F := shift_fill n fnan s.

(** Series.diff(1) = s - s.shift(1): momentum.py:37, volume.py:230, others.py:64 *)
Definition diff1 (s : list F) : list F := ssub s (shift 1 s).

(** non-missing observations *)
Definition obs (l : list F) : list F := filter (fun x => negb (fisnan x)) l.
(** np.sum: numpy 1.21.5, DOUBLE_pairwise_sum (core/src/umath/loops.c.src).
    Fewer than 8 terms are added left to right.  Up to 128 terms go into 8
    interleaved running sums, which are added up in pairs before the last n mod 8
    terms follow left to right.  More terms are split in two halves, the first of
    them a multiple of 8 terms.  The reduction starts from 0. *)
Fixpoint lanes (k : nat) (r l : list F) : list F * list F :=
  match k with O => (r, l) | S k' => lanes k' (map2 fadd r (firstn 8 l)) (skipn 8 l) end.
Definition in_pairs (r : list F) : F :=
  let x i := nth i r fnan in
  ((x 0 +. x 1) +. (x 2 +. x 3)) +. ((x 4 +. x 5) +. (x 6 +. x 7)).
Definition sum_block (l : list F) : F :=
  let '(r, rest) := lanes (length l / 8 - 1) (firstn 8 l) (skipn 8 l) in
  fold_left fadd rest (in_pairs r).
Fixpoint pairwise (fuel : nat) (l : list F) : F :=
  let n := length l in
  if n <? 8 then fold_left fadd l (#0)
  else match fuel with
       | S fuel' =>
           if n <=? 128 then sum_block l
           else let m := n / 2 - (n / 2) mod 8 in pairwise fuel' (firstn m l) +. pairwise fuel' (skipn m l)
       | O => sum_block l
       end.
Definition fsum (l : list F) : F := #0 +. pairwise (length l) l.
(** Series.sum(): pandas' nansum puts 0 for the missing values *)
Definition ssum (l : list F) : F := fsum (map (fun x => if fisnan x then #0 else x) l).
(** np.mean of a raw array: NaN propagates *)
Definition npmean (l : list F) : F := fsum l /. fofnat (length l).
(** Series.mean(): skips NaN; NaN when nothing is left. trend.py:273,414,500,896 *)
Definition smean (l : list F) : F :=
  match obs l with [] => fnan | o => ssum l /. fofnat (length o) end.

(** two-argument maximum / minimum by IEEE comparison *)
Definition fmax2 (a b : F) : F := if a <.? b then b else a.
Definition fmin2 (a b : F) : F := if b <.? a then b else a.
(** maximum / minimum of the non-missing values (DataFrame.max(axis=1), rolling max) *)
Definition nanmax (l : list F) : F :=
  match obs l with [] => fnan | x :: r => fold_left fmax2 r x end.
Definition nanmin (l : list F) : F :=
  match obs l with [] => fnan | x :: r => fold_left fmin2 r x end.
(** np.amax([a,b],axis=0), np.amin, DataFrame.min(axis=1, skipna=False): NaN propagates *)
Definition npmax2 (a b : F) : F :=
  if fisnan a then a else if fisnan b then b else fmax2 a b.
Definition npmin2 (a b : F) : F :=
  if fisnan a then a else if fisnan b then b else fmin2 a b.

(** ** Rolling windows (pandas/core/window/rolling.py, _libs/window/aggregations.pyx) *)

(** BaseWindow._prep_values: infinities are treated as missing *)
Definition prep (s : list F) : list F := map (fun x => if fisinf x then fnan else x) s.

(** rows max(0,i-w+1) .. i *)
Definition window_at (w i : nat) (s : list F) : list F := skipn (S i - w) (firstn (S i) s).

(** *** Aggregations that see one window at a time *)
(** calc_mm *)
Definition win_max (minp : nat) (win : list F) : F :=
  if length (obs win) <? minp then fnan else nanmax win.
Definition win_min (minp : nat) (win : list F) : F :=
  if length (obs win) <? minp then fnan else nanmin win.
(** roll_apply(raw=True): the function sees the whole window, missing values
    included, provided at least minp entries are not missing *)
Definition win_apply (g : list F -> F) (minp : nat) (win : list F) : F :=
  if minp <=? length (obs win) then g win else fnan.
(** sum, mean and standard deviation of one window, the way one writes them
    down.  pandas does not compute them so (see below); in exact arithmetic the
    result is the same (Running.v), and then these formulas are what is used. *)
Definition win_sum (minp : nat) (win : list F) : F :=
  let o := obs win in if length o <? minp then fnan else fsum o.
Definition win_mean (minp : nat) (win : list F) : F :=
  let o := obs win in
  if (length o <? minp) || (length o =? 0) then fnan else fsum o /. fofnat (length o).
Definition win_std0 (minp : nat) (win : list F) : F :=
  let o := obs win in
  if (length o <? minp) || (length o =? 0) then fnan
  else
    let m := fsum o /. fofnat (length o) in
    fsqrt (fsum (map (fun x => (x -. m) **. (x -. m)) o) /. fofnat (length o)).

(** *** Aggregations updated from row to row: roll_sum, roll_mean, roll_var *)
(** One row: the value that leaves the window is taken out, the new one put in
    (range(start[i-1], start[i]), then range(end[i-1], end[i])).  [gone] holds
    what leaves on each row, NaN (which add and remove skip) for nothing. *)
Fixpoint run_go {S : Type} (put take : F -> S -> S) (st : S) (gone s : list F) : list S :=
  match gone, s with
  | g :: gone', x :: s' => let st' := put x (take g st) in st' :: run_go put take st' gone' s'
  | _, _ => []
  end.
Definition run {S : Type} (put take : F -> S -> S) (st : S) (w : nat) (s : list F) : list S :=
  run_go put take st (shift (Z.of_nat w) s) s.

(** add_sum / remove_sum, add_mean / remove_mean: sum with Kahan compensation,
    one compensation for the additions and one for the removals *)
Record ksum := mkksum { k_sum : F; k_add : F; k_rem : F }.
Definition sum_put (x : F) (st : ksum) : ksum :=
  if fisnan x then st
  else let y := x -. k_add st in
       let t := k_sum st +. y in mkksum t (t -. k_sum st -. y) (k_rem st).
Definition sum_take (x : F) (st : ksum) : ksum :=
  if fisnan x then st
  else let y := fopp x -. k_rem st in
       let t := k_sum st +. y in mkksum t (k_add st) (t -. k_sum st -. y).
Definition sum_start : ksum := mkksum (#0) (#0) (#0).

(** add_var / remove_var: Welford's update, likewise compensated *)
Record kvar := mkkvar { v_n : nat; v_mean : F; v_ssq : F; v_add : F; v_rem : F }.
Definition var_put (x : F) (st : kvar) : kvar :=
  if fisnan x then st
  else let n := S (v_n st) in
       let prev := v_mean st -. v_add st in
       let y := x -. v_add st in
       let d := y -. v_mean st in
       let m := v_mean st +. d /. fofnat n in
       mkkvar n m (v_ssq st +. (x -. prev) **. (x -. m)) (d +. v_mean st -. y) (v_rem st).
Definition var_take (x : F) (st : kvar) : kvar :=
  if fisnan x then st
  else match pred (v_n st) with
       | O => mkkvar 0 (#0) (#0) (v_add st) (v_rem st)
       | n => let prev := v_mean st -. v_rem st in
              let y := x -. v_rem st in
              let d := y -. v_mean st in
              let m := v_mean st -. d /. fofnat n in
              mkkvar n m (v_ssq st -. (x -. prev) **. (x -. m)) (v_add st) (d +. v_mean st -. y)
       end.
Definition var_start : kvar := mkkvar 0 (#0) (#0) (#0) (#0).

(** the sign bit, set for -0.0 too *)
Definition signbit (x : F) : bool := (x <.? #0) || (x =.? #0) && (#1 /. x <.? #0).

(** calc_sum: fewer than minp observations -> NaN; no observation and minp=0 -> 0.
    The observations of a window are counted in the window; pandas updates the
    count, an integer, like the sum. *)
Definition calc_sum (minp : nat) (o : list F) (st : ksum) : F :=
  if length o <? minp then fnan else if length o =? 0 then #0 else k_sum st.
(** calc_mean: NaN without observations; the mean of values of one sign has that sign *)
Definition calc_mean (minp : nat) (o : list F) (st : ksum) : F :=
  if (length o <? minp) || (length o =? 0) then fnan
  else let r := k_sum st /. fofnat (length o) in
       let neg := length (filter signbit o) in
       if (neg =? 0) && (r <.? #0) then #0
       else if (neg =? length o) && (#0 <.? r) then #0 else r.
(** calc_var with ddof=0, then zsqrt, which takes negative variances for 0 *)
Definition calc_std0 (minp : nat) (o : list F) (st : kvar) : F :=
  if (length o <? minp) || (length o =? 0) then fnan
  else let r := if length o =? 1 then #0 else v_ssq st /. fofnat (length o) in
       if r <.? #0 then #0 else fsqrt r.

(** [Rolling.sum], [.mean], [.std(ddof=0)], and [.max], [.min], [.apply] *)
Inductive aggregation := agg_sum | agg_mean | agg_std0 | by_window (g : nat -> list F -> F).
Definition agg_max := by_window win_max.
Definition agg_min := by_window win_min.
Definition agg_apply (g : list F -> F) := by_window (win_apply g).

(** one row of the result per row i of the prepared column [p] *)
Definition roll_rows (w minp : nat) (agg : aggregation) (p : list F) : list F :=
  let rows := seq 0 (length p) in
  match agg with
  | agg_sum => map2 (fun i st => calc_sum minp (obs (window_at w i p)) st) rows (run sum_put sum_take sum_start w p)
  | agg_mean => map2 (fun i st => calc_mean minp (obs (window_at w i p)) st) rows (run sum_put sum_take sum_start w p)
  | agg_std0 => map2 (fun i st => calc_std0 minp (obs (window_at w i p)) st) rows (run var_put var_take var_start w p)
  | by_window g => map (fun i => g minp (window_at w i p)) rows
  end.

(** BaseWindow.validate / Rolling.validate (all ValueError), then one
    aggregation per row *)
Definition rolling (w minp : Z) (agg : aggregation) (s : list F) : result (list F) :=
  if (minp <? 0)%Z || (w <? minp)%Z || (w <? 0)%Z then Raise ValueError
  else Ok (roll_rows (Z.to_nat w) (Z.to_nat minp) agg (prep s)).

(** the aggregation of one window on its own *)
Definition win_agg (agg : aggregation) : nat -> list F -> F :=
  match agg with agg_sum => win_sum | agg_mean => win_mean | agg_std0 => win_std0 | by_window g => g end.

(** ** Exponential windows: ewma(adjust=False, ignore_na=False) *)
Fixpoint ewm_go (alpha : F) (minp nobs : nat) (avg oldw : F) (s : list F) : list F :=
  match s with
  | [] => []
  | cur :: r =>
    let isobs := negb (fisnan cur) in
    let nobs' := if isobs then S nobs else nobs in
    let '(avg', oldw') :=
      if negb (fisnan avg) then
        let ow := oldw **. (#1 -. alpha) in
        if isobs then
          ((if avg =.? cur then avg
            else (ow **. avg +. alpha **. cur) /. (ow +. alpha)), #1)
        else (avg, ow)
      else if isobs then (cur, oldw) else (avg, oldw) in
    (if minp <=? nobs' then avg' else fnan) :: ewm_go alpha minp nobs' avg' oldw' r
  end.

(** alpha = 1/(1+com); min_periods = max(int(min_periods), 1) *)
Definition ewm_com (com : F) (minp : Z) (s : list F) : list F :=
  ewm_go (#1 /. (#1 +. com)) (Z.to_nat (Z.max minp 1)) 0 fnan (#1) (prep s).
(** get_center_of_mass(span): span < 1 raises ValueError *)
Definition ewm_span (span minp : Z) (s : list F) : result (list F) :=
  if (span <? 1)%Z then Raise ValueError
  else Ok (ewm_com ((fofZ span -. #1) /. #2) minp s).
(** ewm(alpha=1/window): 1/0 raises ZeroDivisionError, alpha outside (0,1] ValueError *)
Definition ewm_inv_alpha (window minp : Z) (s : list F) : result (list F) :=
  if (window =? 0)%Z then Raise ZeroDivisionError
  else if (window <? 0)%Z then Raise ValueError
  else let alpha := #1 /. fofZ window in
       Ok (ewm_com ((#1 -. alpha) /. alpha) minp s).

(** Series.cumsum(): NaN rows stay NaN and are skipped in the running sum *)
Fixpoint cumsum_go (acc : F) (s : list F) : list F :=
  match s with
  | [] => []
  | x :: r => if fisnan x then fnan :: cumsum_go acc r
              else (acc +. x) :: cumsum_go (acc +. x) r
  end.
Definition cumsum (s : list F) : list F := cumsum_go (#0) s.

(** ** Gaps *)
(** Series.ffill() *)
Fixpoint ffill_go (last : F) (s : list F) : list F :=
  match s with
  | [] => []
  | x :: r => let y := if fisnan x then last else x in y :: ffill_go y r
  end.
Definition ffill (s : list F) : list F := ffill_go fnan s.
(** Series.bfill() *)
Fixpoint bfill (s : list F) : list F :=
  match s with
  | [] => []
  | x :: r => let r' := bfill r in
              (if fisnan x then hd fnan r' else x) :: r'
  end.
(** Series.fillna(constant) and Series.fillna(series) *)
Definition fillna_const (v : F) (s : list F) : list F :=
  map (fun x => if fisnan x then v else x) s.
Definition fillna_series (v s : list F) : list F :=
  map2 (fun x y => if fisnan x then y else x) s v.
(** Series.replace([inf,-inf], nan) *)
Definition replace_inf (s : list F) : list F := map (fun x => if fisinf x then fnan else x) s.

(** Series.pct_change(): pad missing values, then ratio to previous row minus 1.
    volume.py:290,327 *)
Definition pct_change (s : list F) : list F :=
  let d := ffill s in subs (sdiv d (shift 1 d)) (#1).

(** np.roll(a, k) *)
Definition np_roll (k : Z) (s : list F) : list F :=
  match s with
  | [] => []
  | _ => let n := length s in
         let m := Z.to_nat (k mod Z.of_nat n) in
         skipn (n - m) s ++ firstn (n - m) s
  end.

(** np.argmax / np.argmin on a raw window: index of the first NaN if there is
    one, otherwise of the first maximum / minimum. trend.py:47,52 *)
Fixpoint argbest_go (better : F -> F -> bool) (i bi : nat) (b : F) (l : list F) : nat :=
  match l with
  | [] => bi
  | x :: r =>
      if fisnan b then bi
      else if fisnan x then i
      else if better x b then argbest_go better (S i) i x r
      else argbest_go better (S i) bi b r
  end.
Definition np_argmax (l : list F) : nat :=
  match l with [] => 0 | x :: r => argbest_go (fun a b => b <.? a) 1 0 x r end.
Definition np_argmin (l : list F) : nat :=
  match l with [] => 0 | x :: r => argbest_go (fun a b => a <.? b) 1 0 x r end.

End Series.
