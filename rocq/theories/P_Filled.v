(** * P_Filled: property C76 (fillna=True leaves no missing cell). *)
From Coq Require Import Reals String Floats.
From Verif Require Import Api FloatArith Samples SpecNum SpecFill SpecFrame Wrapper Frames FilledFrame.
Local Open Scope R_scope.

(** C76.  Finite prices and volumes, first close not 0: after
    add_all_ta_features(fillna=True) every added column but the two below holds
    finite numbers only (exact arithmetic). *)
Theorem C76_no_missing_cell : forall log prefix int_index n h l c v high low close volume vectorized open
    (df df' : Wrapper.frame xr),
  apart [high; low; close; volume] (added prefix vectorized (all_columns log int_index)) ->
  holds (SpecNum.frame n h l c v) high low close volume df -> (1 <= n)%nat -> c 0%nat <> 0 ->
  add_all_ta_features log (labels_of int_index (SpecNum.frame n h l c v)) open high low close volume true prefix
    vectorized df = (df', Ok tt) ->
  forall name ind, In (name, ind) (selected vectorized (all_columns log int_index)) ->
  name <> "trend_psar_up"%string -> name <> "trend_psar_down"%string ->
  exists col, column (prefix ++ name) df' = Some col /\ List.length col = n /\ Forall (fun x => ffinite x = true) col.
Proof. exact all_filled. Qed.
Print Assumptions C76_no_missing_cell.

(** a frame that meets the hypotheses: the call succeeds from 28 rows on *)
Example C76_applies : forall n h l c v, (28 <= n)%nat ->
  let rows := SpecNum.frame n h l c v in
  let df := [("H"%string, map b_high rows); ("L"%string, map b_low rows); ("C"%string, map b_close rows);
             ("V"%string, map b_volume rows)] in
  apart ["H"; "L"; "C"; "V"]%string (added "x_" false (all_columns (fun x : xr => x) true)) /\
  holds rows "H" "L" "C" "V" df /\
  exists df', add_all_ta_features (fun x => x) (labels_of true rows) "O" "H" "L" "C" "V" true "x_" false df = (df', Ok tt).
Proof.
  intros n h l c v Hn rows df.
  assert (Ap : apart ["H"; "L"; "C"; "V"]%string (added "x_" false (all_columns (fun x : xr => x) true)))
    by (apply apart_by; vm_compute; reflexivity).
  assert (Hd : holds rows "H" "L" "C" "V" df) by (repeat split).
  split; [exact Ap|]. split; [exact Hd|]. apply all_long; auto. unfold rows, SpecNum.frame. now rewrite Tab.len_tab.
Qed.

(** The two PSAR columns are filled completely, or - when the market is never
    in an up (down) trend - not at all.  Every arithmetic, any rows. *)
Theorem C76_psar_all_or_none : forall F (A : Arith F), ArithLaws F ->
  forall (ind : indicator F) rows raw out, (exists b s m, ind = PsarUp b s m \/ ind = PsarDown b s m) ->
  compute ind false rows = Ok raw -> compute ind true rows = Ok out ->
  (Forall (fun x => ffinite x = true) out /\ Exists (fun x => ffinite x = true) raw) \/
  (Forall (fun x => x = fnan) out /\ Forall (fun x => ffinite x = false) raw).
Proof. exact psar_all_or_none. Qed.
Print Assumptions C76_psar_all_or_none.

(** thirty rows, each lower than the one before *)
Definition falling : list (bar float) :=
  bars_from 0 (List.map (fun i => let x := (100 - PrimFloat.of_uint63 (Uint63.of_Z (Z.of_nat i)))%float in
                                  (x + 1, x - 1, x, 1000)%float) (seq 0 30)).
Definition falling_frame : Wrapper.frame float :=
  [("High"%string, map b_high falling); ("Low"%string, map b_low falling);
   ("Close"%string, map b_close falling); ("Volume"%string, map b_volume falling)].
Definition filled_features := add_all_ta_features (fun x => x) (labels_of true falling) "Open" "High" "Low" "Close" "Volume"
  true "" false falling_frame.

(** C76: on that frame psar_up stays empty although fillna=True was asked for
    (np.log plays no part and is replaced by the identity). *)
Theorem C76_psar_column_filled_refuted : exists df' col,
  filled_features = (df', Ok tt) /\ column "trend_psar_up" df' = Some col /\
  List.length col = 30%nat /\ forallb PrimFloat.is_nan col = true.
Proof.
  exists (fst filled_features). eexists. split; [|split; [|split]].
  - transitivity (fst filled_features, snd filled_features); [now destruct filled_features|]. apply (f_equal2 pair eq_refl). vm_compute. reflexivity.
  - vm_compute. reflexivity.
  - reflexivity.
  - reflexivity.
Qed.
Print Assumptions C76_psar_column_filled_refuted.
