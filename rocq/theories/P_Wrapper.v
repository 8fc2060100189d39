(** * P_Wrapper: properties C11 (which calls raise) and C62-C65 (dropna and the
    add_*_ta wrapper functions).  All hold for every arithmetic [Arith F], in
    particular for binary64. *)
From Coq Require Import Floats String.
From Verif Require Import Api FloatArith SpecRaise Raises SpecFrame Wrapper Frames Samples.
Local Open Scope list_scope.

(** C11. A call returns a series unless one of its documented checks fails,
    and then raises the exception of the first failing check. *)
Theorem C11_raises_exactly : forall F (A : Arith F) (ind : indicator F) fillna rows,
  fisnan (fnan : F) = true ->
  match failing_check ind fillna rows with
  | Some e => compute ind fillna rows = Raise e
  | None => exists out, compute ind fillna rows = Ok out
  end.
Proof. exact @raises_exactly. Qed.
Print Assumptions C11_raises_exactly.

Example C11_applies :
  fisnan (fnan : float) = true /\
  failing_check (Adx 6 : indicator float) true sample = None /\
  failing_check (Adx 7 : indicator float) true sample = Some IndexError /\
  failing_check (Adx 14 : indicator float) true sample = Some ValueError /\
  failing_check (Atr (-11) : indicator float) true sample = None /\
  failing_check (Atr (-12) : indicator float) true sample = Some IndexError /\
  failing_check (Rsi 0 : indicator float) false sample = Some ZeroDivisionError /\
  failing_check (Kst 1 1 1 1 2 2 2 (-1) 3 : indicator float) false sample = Some ValueError.
Proof. repeat split. Qed.

(** _get_min_max raises on an unknown function name only (utils.py:69-80). *)
Theorem C11_get_min_max : forall F (A : Arith F) (a b : list F) f,
  (f = FnOther -> get_min_max a b f = Raise ValueError) /\
  (f <> FnOther -> exists r, get_min_max a b f = Ok r).
Proof. exact @get_min_max_raises. Qed.
Print Assumptions C11_get_min_max.

(** C62. dropna keeps exactly the rows whose numeric cells are all below
    exp(709) and non-zero and which miss no cell; in order, unchanged. *)
Theorem C62_dropna_rows : forall F (A : Arith F) (L : ArithLaws F) big (df : list (frow F)),
  dropna big df = filter (row_kept big) df.
Proof. exact @dropna_filter. Qed.
Print Assumptions C62_dropna_rows.

Theorem C62_dropna_idempotent : forall F (A : Arith F) (L : ArithLaws F) big (df : list (frow F)),
  dropna big (dropna big df) = dropna big df.
Proof. exact @dropna_idem. Qed.
Print Assumptions C62_dropna_idempotent.

(** minus infinity is not dropped, plus infinity, zero and NaN are *)
Theorem C62_negative_infinity_survives : forall lb om, forallb negb om = true ->
  let row x := {| flabel := lb; fcells := [x]; fother_missing := om |} in
  let big := Fin (exp 709) in
  dropna big [row NInf] = [row NInf] /\ dropna big [row PInf] = [] /\
  dropna big [row NaN] = [] /\ dropna big [row (Fin 0)] = [].
Proof. exact dropna_infinities. Qed.
Print Assumptions C62_negative_infinity_survives.

Definition cells (i : Z) (l : list float) : frow float :=
  {| flabel := i; fcells := l; fother_missing := [false] |}.
Example C62_applies :
  ArithLaws float /\
  dropna 0x1.d422d2be5dc9bp+1022%float
    [cells 0 [1; 2]; cells 1 [0; 2]; cells 2 [1; nan]; cells 3 [infinity; 1]; cells 4 [neg_infinity; 1];
     {| flabel := 5; fcells := [1; 1]; fother_missing := [true] |}]%float
  = [cells 0 [1; 2]; cells 4 [neg_infinity; 1]]%float.
Proof. split; [exact Float_laws|vm_compute; reflexivity]. Qed.

(** C63. add_all_ta_features: names, order, kept columns and values. *)
Theorem C63_all_features : forall F (A : Arith F) log prefix fillna int_index rows high low close volume
    vectorized open (df df' : Wrapper.frame F),
  apart [high; low; close; volume] (added prefix vectorized (all_columns log int_index)) ->
  holds rows high low close volume df ->
  add_all_ta_features log (labels_of int_index rows) open high low close volume fillna prefix vectorized df
    = (df', Ok tt) ->
  extended prefix fillna rows (selected vectorized (all_columns log int_index)) df df'.
Proof. exact @all_extended. Qed.
Print Assumptions C63_all_features.

(** 86 columns, 68 with vectorized=True, with pairwise different names *)
Theorem C63_column_count : forall F (A : Arith F) (log : F -> F) prefix int_index vectorized,
  List.length (added prefix vectorized (all_columns log int_index)) = (if vectorized then 68 else 86) /\
  NoDup (added prefix vectorized (all_columns log int_index)).
Proof. exact @plan_size. Qed.
Print Assumptions C63_column_count.

(** and one theorem per group function *)
Theorem C63_volume : forall F (A : Arith F) prefix fillna rows high low close volume vectorized
    (df df' : Wrapper.frame F),
  apart [high; low; close; volume] (added prefix vectorized (@volume_columns F)) ->
  holds rows high low close volume df ->
  add_volume_ta high low close volume fillna prefix vectorized df = (df', Ok tt) ->
  extended prefix fillna rows (selected vectorized volume_columns) df df'.
Proof. exact @volume_extended. Qed.
Print Assumptions C63_volume.

Theorem C63_volatility : forall F (A : Arith F) prefix fillna rows high low close vectorized
    (df df' : Wrapper.frame F),
  apart [high; low; close] (added prefix vectorized volatility_columns) ->
  holds_prices rows high low close df ->
  add_volatility_ta high low close fillna prefix vectorized df = (df', Ok tt) ->
  extended prefix fillna rows (selected vectorized volatility_columns) df df'.
Proof. exact @volatility_extended. Qed.
Print Assumptions C63_volatility.

Theorem C63_trend : forall F (A : Arith F) prefix fillna int_index rows high low close vectorized
    (df df' : Wrapper.frame F),
  apart [high; low; close] (added prefix vectorized (trend_columns int_index)) ->
  holds_prices rows high low close df ->
  add_trend_ta (labels_of int_index rows) high low close fillna prefix vectorized df = (df', Ok tt) ->
  extended prefix fillna rows (selected vectorized (trend_columns int_index)) df df'.
Proof. exact @trend_extended. Qed.
Print Assumptions C63_trend.

Theorem C63_momentum : forall F (A : Arith F) prefix fillna rows high low close volume vectorized
    (df df' : Wrapper.frame F),
  apart [high; low; close; volume] (added prefix vectorized momentum_columns) ->
  holds rows high low close volume df ->
  add_momentum_ta high low close volume fillna prefix vectorized df = (df', Ok tt) ->
  extended prefix fillna rows (selected vectorized momentum_columns) df df'.
Proof. exact @momentum_extended. Qed.
Print Assumptions C63_momentum.

Theorem C63_others : forall F (A : Arith F) log prefix fillna rows close (df df' : Wrapper.frame F),
  ~ In close (added prefix false (others_columns log)) ->
  column close df = Some (map b_close rows) ->
  add_others_ta log close fillna prefix df = (df', Ok tt) ->
  extended prefix fillna rows (selected false (others_columns log)) df df'.
Proof. exact @others_extended. Qed.
Print Assumptions C63_others.

(** C64. Running the same call again changes nothing. *)
Theorem C64_idempotent : forall F (A : Arith F) log prefix fillna int_index rows high low close volume
    vectorized open (df df' : Wrapper.frame F),
  apart [high; low; close; volume] (added prefix vectorized (all_columns log int_index)) ->
  holds rows high low close volume df ->
  add_all_ta_features log (labels_of int_index rows) open high low close volume fillna prefix vectorized df
    = (df', Ok tt) ->
  add_all_ta_features log (labels_of int_index rows) open high low close volume fillna prefix vectorized df'
    = (df', Ok tt).
Proof. exact @all_again. Qed.
Print Assumptions C64_idempotent.

(** vectorized=True gives the columns it adds the same values. *)
Theorem C64_vectorized_subset : forall F (A : Arith F) log prefix fillna int_index rows high low close volume
    open open' (df fast full : Wrapper.frame F),
  apart [high; low; close; volume] (added prefix false (all_columns log int_index)) ->
  holds rows high low close volume df ->
  add_all_ta_features log (labels_of int_index rows) open high low close volume fillna prefix true df
    = (fast, Ok tt) ->
  add_all_ta_features log (labels_of int_index rows) open' high low close volume fillna prefix false df
    = (full, Ok tt) ->
  forall n, In n (added prefix true (all_columns log int_index)) ->
  column n fast <> None /\ column n fast = column n full.
Proof. exact @all_subset. Qed.
Print Assumptions C64_vectorized_subset.

(** C65. Enough rows: no exception. *)
Theorem C65_long_enough : forall F (A : Arith F) log prefix fillna int_index rows high low close volume
    open (df : Wrapper.frame F),
  apart [high; low; close; volume] (added prefix false (all_columns log int_index)) ->
  holds rows high low close volume df -> fisnan (fnan : F) = true -> 28 <= List.length rows ->
  exists df', add_all_ta_features log (labels_of int_index rows) open high low close volume fillna prefix
                false df = (df', Ok tt).
Proof. exact @all_long. Qed.
Print Assumptions C65_long_enough.

(** Fewer than 28 rows: an exception, and the frame keeps the columns added so far. *)
Theorem C65_too_short : forall F (A : Arith F) log prefix fillna int_index rows high low close volume
    open (df : Wrapper.frame F),
  apart [high; low; close; volume] (added prefix false (all_columns log int_index)) ->
  holds rows high low close volume df -> fisnan (fnan : F) = true -> List.length rows < 28 ->
  exists df', add_all_ta_features log (labels_of int_index rows) open high low close volume fillna prefix
                false df = (df', Raise (stop_exn (List.length rows))) /\
    extended prefix fillna rows
      (firstn (stop_at (List.length rows)) (selected false (all_columns log int_index))) df df'.
Proof. exact @all_short. Qed.
Print Assumptions C65_too_short.

(** vectorized=True needs one row *)
Theorem C65_vectorized : forall F (A : Arith F) log prefix fillna int_index rows high low close volume
    open (df : Wrapper.frame F),
  apart [high; low; close; volume] (added prefix true (all_columns log int_index)) ->
  holds rows high low close volume df -> fisnan (fnan : F) = true -> 1 <= List.length rows ->
  exists df', add_all_ta_features log (labels_of int_index rows) open high low close volume fillna prefix
                true df = (df', Ok tt).
Proof. exact @all_vectorized. Qed.
Print Assumptions C65_vectorized.

Theorem C65_vectorized_empty : forall F (A : Arith F) log prefix fillna int_index rows high low close volume
    open (df : Wrapper.frame F),
  apart [high; low; close; volume] (added prefix true (all_columns log int_index)) ->
  holds rows high low close volume df -> fisnan (fnan : F) = true -> rows = [] ->
  exists df', add_all_ta_features log (labels_of int_index rows) open high low close volume fillna prefix
                true df = (df', Raise IndexError) /\
    extended prefix fillna rows (firstn 67 (selected true (all_columns log int_index))) df df'.
Proof. exact @all_vectorized_empty. Qed.
Print Assumptions C65_vectorized_empty.

(** a missing input column: KeyError, frame untouched *)
Theorem C65_missing_column : forall F (A : Arith F) log prefix fillna high low close volume
    vectorized open labels (df : Wrapper.frame F) n,
  In n [high; low; close; volume] -> column n df = None ->
  add_all_ta_features log labels open high low close volume fillna prefix vectorized df = (df, Raise KeyError).
Proof. exact @missing_column. Qed.
Print Assumptions C65_missing_column.

(** The hypotheses of C63-C65 on concrete frames of 12 and 30 rows with an
    unrelated fifth column and a prefix. *)
Local Open Scope string_scope.
Definition long_rows : list (bar float) :=
  bars_from 0 (map (fun b => (b_high b, b_low b, b_close b, b_volume b))
                   (sample ++ sample ++ sample))%list.
Definition ohlcv (rows : list (bar float)) : Wrapper.frame float :=
  [("id", map b_volume rows); ("H", map b_high rows); ("L", map b_low rows);
   ("C", map b_close rows); ("V", map b_volume rows); ("x_volume_obv", map b_low rows)].
Example C63_C64_C65_apply :
  apart ["H"; "L"; "C"; "V"] (added "x_" false (all_columns (fun x : float => x) true)) /\
  (holds long_rows "H" "L" "C" "V" (ohlcv long_rows) /\ (28 <= List.length long_rows)%nat) /\
  (holds sample "H" "L" "C" "V" (ohlcv sample) /\ (List.length sample < 28)%nat) /\
  snd (add_all_ta_features (fun x => x) (labels_of true long_rows) "O" "H" "L" "C" "V" true "x_" false
         (ohlcv long_rows)) = Ok tt /\
  names (fst (add_all_ta_features (fun x => x) (labels_of true long_rows) "O" "H" "L" "C" "V" true "x_" true
         (ohlcv long_rows)))
    = (["id"; "H"; "L"; "C"; "V"; "x_volume_obv"; "x_volume_adi"; "x_volume_cmf"] ++
       skipn 3 (added "x_" true (all_columns (fun x : float => x) true)))%list.
Proof.
  split; [apply apart_by; vm_compute; reflexivity|].
  split; [split; [repeat split; vm_compute; reflexivity|vm_compute; repeat constructor]|].
  split; [split; [repeat split; vm_compute; reflexivity|vm_compute; repeat constructor]|].
  split; vm_compute; reflexivity.
Qed.
