(** * P_Apart: property C102.

    Calls whose columns have their own indexes (Apart.v).  A column is a list
    of labelled rows with strictly increasing labels ([all_ascending]); [row a t]
    is the cell of column [a] at label [t], missing if it has no such row. *)
From Coq Require Import Floats Sorting.Sorted.
From Verif Require Import Api FloatArith SpecCausal Apart SpecApart ApartProofs ApartCut ApartIndex ApartGaps ApartJoin ApartRaise.
Local Open Scope Z_scope.

(** C102.  On columns that share their index the model agrees with [compute],
    so everything proved about [compute] speaks about these calls as well. *)
Theorem C102_same_index : forall {F} {A : Arith F} (ind : indicator F) fillna (rows : list (bar F)), StronglySorted Z.lt (map b_label rows) ->
  (out <- compute_apart ind fillna (together rows) ;; Ok (values out)) = compute ind fillna rows.
Proof. exact @same_index_values. Qed.
Print Assumptions C102_same_index.

(** C102.  The rows of the result are the rows of the columns named by
    [index_from], each label once, in order. *)
Theorem C102_result_index : forall {F} {A : Arith F} (ind : indicator F) fillna k out, all_ascending k ->
  drops_rows ind = false -> label_dependent ind = false -> compute_apart ind fillna k = Ok out ->
  ascending out /\ forall t, In t (labels out) <-> exists x, In x (index_from ind) /\ In t (labels (pick k x)).
Proof. exact @result_index. Qed.
Print Assumptions C102_result_index.

(** C102.  Series that match rows by label look at no row with a later label
    than their own, whatever the indexes. *)
Theorem C102_no_later_row : forall {F} {A : Arith F} (ind : indicator F) fillna, by_label ind = true ->
  (fillna = false \/ fills_backward ind = false) -> no_later_row (compute_apart ind fillna).
Proof. exact @no_later_apart. Qed.
Print Assumptions C102_no_later_row.

(** C102.  Without fillna these series are missing wherever one of their
    columns has no row. *)
Theorem C102_missing_rows : forall {F} {A : Arith F} {L : ArithLaws F} (ind : indicator F) k out t x, all_ascending k -> strict ind = true ->
  compute_apart ind false k = Ok out -> In x (index_from ind) -> ~ In t (labels (pick k x)) -> fisnan (row out t) = true.
Proof. exact @missing_rows. Qed.
Print Assumptions C102_missing_rows.

(** C102.  These series are those of the outer join of the columns. *)
Theorem C102_outer_join : forall {F} {A : Arith F} {L : ArithLaws F} (ind : indicator F) fillna k ls, all_ascending k ->
  joins_first ind = true -> StronglySorted Z.lt ls ->
  (forall t, In t ls <-> exists x, In x (index_from ind) /\ In t (labels (pick k x))) ->
  compute_apart ind fillna k = (x <- compute ind fillna (joined ls k) ;; Ok (combine ls x)).
Proof. exact @outer_join. Qed.
Print Assumptions C102_outer_join.

(** C102.  These series pair rows by position: the labels of high, low and
    volume do not matter (the directional indicators want high and low to have
    one index). *)
Theorem C102_by_position : forall {F} {A : Arith F} (ind : indicator F) fillna k k', by_position ind = true ->
  labels (c_high k) = labels (c_low k) -> labels (c_high k') = labels (c_low k') ->
  (forall x, values (pick k x) = values (pick k' x)) -> labels (c_close k) = labels (c_close k') ->
  compute_apart ind fillna k = compute_apart ind fillna k'.
Proof. exact @positions. Qed.
Print Assumptions C102_by_position.
Theorem C102_adx_indexes : forall {F} {A : Arith F} (ind : indicator F) fillna k, match ind with Adx _ | AdxPos _ | AdxNeg _ => True | _ => False end ->
  labels (c_high k) <> labels (c_low k) -> compute_apart ind fillna k = Raise ValueError.
Proof. exact @adx_indexes. Qed.
Print Assumptions C102_adx_indexes.

(** C102.  ATR, the Keltner series and MFI raise ValueError exactly when one
    column has a row that another lacks. *)
Theorem C102_unmatched : forall {F} {A : Arith F} (ind : indicator F) fillna k xs ys, all_ascending k ->
  must_cover ind = Some (xs, ys) -> enough ind k ->
  (outside k xs ys -> compute_apart ind fillna k = Raise ValueError) /\ (~ outside k xs ys -> exists out, compute_apart ind fillna k = Ok out).
Proof. exact @unmatched. Qed.
Print Assumptions C102_unmatched.

(** ** The hypotheses hold somewhere *)
Definition cells (ls : list Z) (x : list float) : column float := combine ls x.
(** high lacks label 3, low lacks 5, the close starts late and the volume has a row of its own *)
Definition ragged : columns float :=
  {| c_high := cells [0; 1; 2; 4; 5; 6] [5; 6; 8; 9; 7; 8]%float;
     c_low := cells [0; 1; 2; 3; 4; 6] [3; 4; 5; 4; 6; 5]%float;
     c_close := cells [1; 2; 3; 4; 5; 6] [5; 7; 5; 8; 6; 7]%float;
     c_volume := cells [0; 1; 2; 3; 4; 5; 6; 7] [10; 20; 10; 40; 30; 10; 20; 10]%float |}.
Ltac sorted := repeat (constructor; [|repeat constructor]); constructor.
Example ragged_ascending : all_ascending ragged.
Proof. unfold all_ascending, ascending; cbn. repeat split; sorted. Qed.
Definition shown (r : result (column float)) : list (Z * bool) := match r with Ok out => map (fun p => (fst p, negb (fisnan (snd p)))) out | _ => [] end.
(** labels of the result; [true] where it shows a number *)
Example C102_stochastic : strict (F := float) (Stoch 2 3) = true /\ by_label (F := float) (Stoch 2 3) = true /\
  shown (compute_apart (Stoch 2 3) false ragged) = [(0, false); (1, true); (2, true); (3, false); (4, true); (5, false); (6, true)].
Proof. repeat split. Qed.
Example C102_oscillator : joins_first (F := float) (AwesomeOsc 1 2) = true /\
  shown (compute_apart (AwesomeOsc 1 2) false ragged) = [(0, false); (1, true); (2, true); (3, false); (4, false); (5, false); (6, false)].
Proof. repeat split. Qed.
Example C102_same_applies : exists rows : list (bar float), StronglySorted Z.lt (map b_label rows) /\
  exists out, compute (Atr 2) false rows = Ok out /\ length out = 3%nat.
Proof.
  exists [mkbar 0 5 3 4 1; mkbar 2 6 4 5 1; mkbar 5 7 5 6 1]%float. split; [cbn; sorted|]. eexists. split; [vm_compute; reflexivity|reflexivity].
Qed.
(** the same rows, the volume labelled differently *)
Definition moved : columns float :=
  {| c_high := c_high ragged; c_low := map (fun r => (fst r, (snd r - 3)%float)) (c_high ragged); c_close := c_close ragged;
     c_volume := cells [11; 12; 13; 14; 15; 16] [10; 20; 10; 40; 30; 10]%float |}.
Definition unmoved : columns float :=
  {| c_high := c_high moved; c_low := c_low moved; c_close := c_close moved; c_volume := combine (labels (c_close moved)) (values (c_volume moved)) |}.
Example C102_positions_apply : (forall x, values (pick moved x) = values (pick unmoved x)) /\ labels (c_high moved) = labels (c_low moved) /\
  shown (compute_apart Obv false moved) = [(1, true); (2, true); (3, true); (4, true); (5, true); (6, true)].
Proof. split; [intros []; reflexivity|split; reflexivity]. Qed.
Example C102_raises : must_cover (F := float) (Atr 2) = Some ([High; Low], [Close]) /\ enough (Atr 2) ragged /\ outside ragged [High; Low] [Close] /\
  compute_apart (Atr 2) false ragged = Raise ValueError /\ compute_apart (Mfi 2) false ragged = Raise ValueError.
Proof.
  split; [reflexivity|]. split; [cbn; lia|]. split; [|split; vm_compute; reflexivity].
  exists High, 0. split; [cbn; auto|]. split; [cbn; auto|]. intros y [<-|[]]. cbn. lia.
Qed.

(** ** What does not hold *)
(** Other series show a number at a label some column lacks: the ultimate
    oscillator, accumulation/distribution, money flow, force index, mass index,
    an outer Keltner line. *)
Theorem C102_missing_rows_refuted : forall ind : indicator float,
  In ind [UltOsc 2 2 2 4%float 2%float 1%float; Adi; Cmf 2; Fi 2; Mass 1 1; KcH 2 2 true 2%float] ->
  exists out t x, compute_apart ind false ragged = Ok out /\ In x (index_from ind) /\ ~ In t (labels (pick ragged x)) /\ fisnan (row out t) = false.
Proof.
  intros ind [<-|[<-|[<-|[<-|[<-|[<-|[]]]]]]];
  match goal with |- context [index_from (Fi _)] => eexists; exists 7, Close | _ => eexists; exists 3, High end;
  (split; [vm_compute; reflexivity|]); (split; [cbn; auto|]); (split; [cbn; lia|vm_compute; reflexivity]).
Qed.
Print Assumptions C102_missing_rows_refuted.
(** The stochastic oscillator rolls over the rows high and low have of their
    own: on the outer join it would be missing at label 4. *)
Theorem C102_outer_join_refuted : exists ls, StronglySorted Z.lt ls /\
  (forall t, In t ls <-> exists x, In x (index_from (F := float) (Stoch 2 3)) /\ In t (labels (pick ragged x))) /\
  shown (compute_apart (Stoch 2 3) false ragged) <> shown (x <- compute (Stoch 2 3) false (joined ls ragged) ;; Ok (combine ls x)).
Proof.
  exists [0; 1; 2; 3; 4; 5; 6]. split; [sorted|]. split; [|vm_compute; discriminate].
  intros t. split.
  - intros I. destruct (Z.eq_dec t 5) as [->|N]; [exists High; cbn; auto 10|exists (if Z.eq_dec t 5 then High else Low)].
    destruct (Z.eq_dec t 5); [contradiction|]. cbn in I |- *. intuition.
  - intros (x & [<-|[<-|[<-|[]]]] & I); cbn in I |- *; intuition.
Qed.
Print Assumptions C102_outer_join_refuted.
(** Position is not time.  On-balance volume on a volume column that misses
    label 1 books the volume of label 2 at label 1; Vortex on a close that
    starts after high and low shows, without fillna, a number worked out from
    the mean of the whole close. *)
Definition skipped : columns float :=
  {| c_high := c_high ragged; c_low := c_low ragged; c_close := cells [0; 1; 2] [5; 6; 7]%float; c_volume := cells [0; 2; 3] [10; 20; 30]%float |}.
Theorem C102_no_later_row_refuted : (exists k, all_ascending k /\ exists t out, compute_apart (F := float) Obv false k = Ok out /\
    compute_apart Obv false (known_at t k) <> Ok (upto t out)) /\
  (exists k, all_ascending k /\ exists t out, compute_apart (F := float) (VortexPos 2) false k = Ok out /\
    compute_apart (VortexPos 2) false (known_at t k) <> Ok (upto t out)).
Proof.
  split.
  - exists skipped. split; [unfold all_ascending, ascending; cbn; repeat split; sorted|]. exists 1. eexists. split; [vm_compute; reflexivity|].
    intros E. apply (f_equal (fun r => match r with Ok a => PrimFloat.eqb (row a 1) 30%float | _ => false end)) in E. vm_compute in E. discriminate E.
  - exists ragged. split; [exact ragged_ascending|]. exists 2. eexists. split; [vm_compute; reflexivity|].
    intros E. apply (f_equal (fun r => match r with Ok a => PrimFloat.eqb (row a 2) 1.3125%float | _ => false end)) in E. vm_compute in E. discriminate E.
Qed.
Print Assumptions C102_no_later_row_refuted.
