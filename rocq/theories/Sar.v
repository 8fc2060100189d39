(** * Sar: PSAR row by row (C37-C42, C68). *)
From Verif Require Import Lists Api SpecCausal SpecNum Align Causal CausalPsar Rows Fill Tab Averages.

Section Trace.
Context {F : Type} {A : Arith F}.
Local Open Scope f_scope.

(** the loop variables after row i *)
Record tstate := mkt { t_up : bool; t_af : F; t_uth : F; t_dtl : F; t_val : F }.
Definition t_next (step mx : F) (h l : list F) (s : tstate) (i : nat) : tstate :=
  if t_up s then
    let v := t_val s +. (t_af s **. (t_uth s -. t_val s)) in
    if nth i l fnan <.? v then mkt false step (t_uth s) (nth i l fnan) (t_uth s)
    else let b := t_uth s <.? nth i h fnan in
      mkt true (if b then fmin2 (t_af s +. step) mx else t_af s) (if b then nth i h fnan else t_uth s) (t_dtl s)
        (if nth (i - 2) l fnan <.? v then nth (i - 2) l fnan else if nth (i - 1) l fnan <.? v then nth (i - 1) l fnan else v)
  else
    let v := t_val s -. (t_af s **. (t_val s -. t_dtl s)) in
    if v <.? nth i h fnan then mkt true step (nth i h fnan) (t_dtl s) (t_dtl s)
    else let b := nth i l fnan <.? t_dtl s in
      mkt false (if b then fmin2 (t_af s +. step) mx else t_af s) (t_uth s) (if b then nth i l fnan else t_dtl s)
        (if v <.? nth (i - 2) h fnan then nth (i - 2) h fnan else if v <.? nth (i - 1) h fnan then nth (i - 1) h fnan else v).
Fixpoint t_at (step mx : F) (h l c : list F) (i : nat) : tstate :=
  match i with
  | O => mkt true step (nth 0 h fnan) (nth 0 l fnan) (nth 0 c fnan)
  | S O => mkt true step (nth 0 h fnan) (nth 0 l fnan) (nth 1 c fnan)
  | S i' => t_next step mx h l (t_at step mx h l c i') i
  end.

(** the state before the iteration of row i *)
Definition at_row (step mx : F) (h l c : list F) (i : nat) (st : @psar_state F) : Prop :=
  let T := t_at step mx h l c in
  let t := T (i - 1)%nat in
  ps_labels st = None /\ ps_up_trend st = t_up t /\ ps_af st = t_af t /\ ps_uth st = t_uth t /\ ps_dtl st = t_dtl t /\
  length (ps_psar st) = length c /\ length (ps_up st) = length c /\ length (ps_down st) = length c /\
  forall j, j < length c ->
    nth j (ps_psar st) fnan = (if j <? i then t_val (T j) else nth j c fnan) /\
    nth j (ps_up st) fnan = (if (j <? 2) || (i <=? j) then fnan else if t_up (T j) then t_val (T j) else fnan) /\
    nth j (ps_down st) fnan = (if (j <? 2) || (i <=? j) then fnan else if t_up (T j) then fnan else t_val (T j)).

Lemma psar_step_row : forall step mx h l c i st, 2 <= i < length c -> at_row step mx h l c i st ->
  at_row step mx h l c (S i) (psar_step h l step mx st i).
Proof.
  intros step mx h l c i st Hi (EL & Eu & Ea & Eh & El & L1 & L2 & L3 & R).
  assert (Ht : t_at step mx h l c i = t_next step mx h l (t_at step mx h l c (i - 1)) i).
  { destruct i as [|[|i]]; try lia. replace (S (S i) - 1) with (S i) by lia. reflexivity. }
  assert (Ev : nth (i - 1) (ps_psar st) fnan = t_val (t_at step mx h l c (i - 1))).
  { destruct (R (i - 1)) as [-> _]; [lia|]. destruct (Nat.ltb_spec (i - 1) i); [reflexivity|lia]. }
  assert (Q : exists v t, psar_step h l step mx st i =
    {| ps_up_trend := t_up t; ps_af := t_af t; ps_uth := t_uth t; ps_dtl := t_dtl t; ps_labels := None;
       ps_psar := upd i (t_val t) (upd i v (ps_psar st)); ps_up := if t_up t then upd i (t_val t) (ps_up st) else ps_up st;
       ps_down := if t_up t then ps_down st else upd i (t_val t) (ps_down st) |} /\ t = t_at step mx h l c i).
  { assert (UU : forall (v w : F) s, upd i v (upd i w s) = upd i v s).
    { intros v w s. revert i Hi EL Eu Ea Eh El Ht Ev R. clear. intros i _ _ _ _ _ _ _ _ _. revert i. induction s; intros [|i]; cbn; auto. now rewrite IHs. }
    exists fnan. eexists. split; [|reflexivity]. rewrite UU, Ht. unfold psar_step, t_next. rewrite EL, Eu, Ea, Eh, El, Ev. cbn [setitem].
    set (t := t_at step mx h l c (i - 1)). destruct (t_up t); cbn zeta.
    - destruct (nth i l fnan <.? _); cbn [t_up t_af t_uth t_dtl t_val xorb]; [rewrite nth_upd_eq by lia; reflexivity|].
      destruct (t_uth t <.? _); cbn [xorb]; rewrite nth_upd_eq by lia; reflexivity.
    - destruct (_ <.? nth i h fnan); cbn [t_up t_af t_uth t_dtl t_val xorb]; [rewrite nth_upd_eq by lia; reflexivity|].
      destruct (nth i l fnan <.? _); cbn [xorb];
        (destruct (_ <.? nth (i - 2) h fnan); [|destruct (_ <.? nth (i - 1) h fnan)]); rewrite ?UU; rewrite nth_upd_eq by (rewrite ?len_upd; lia); reflexivity. }
  destruct Q as (v & t & -> & Et). unfold at_row. cbn [ps_up_trend ps_af ps_uth ps_dtl ps_labels ps_psar ps_up ps_down].
  replace (S i - 1)%nat with i by lia. rewrite <- Et.
  do 5 (split; [reflexivity|]). rewrite !len_upd. split; [auto|].
  split; [destruct (t_up t); rewrite ?len_upd; auto|]. split; [destruct (t_up t); rewrite ?len_upd; auto|].
  intros j Hj. destruct (R j Hj) as (R1 & R2 & R3). destruct (Nat.eq_dec j i) as [->|Hne].
  - rewrite nth_upd_eq by (rewrite len_upd; lia).
    destruct (Nat.ltb_spec i (S i)); [|lia]. destruct (Nat.ltb_spec i 2); [lia|]. destruct (Nat.leb_spec (S i) i); [lia|]. cbn [orb].
    destruct (Nat.leb_spec i i) in R2; [|lia]. destruct (Nat.leb_spec i i) in R3; [|lia]. rewrite Bool.orb_true_r in R2, R3. rewrite <- Et.
    split; [reflexivity|]. destruct (t_up t); split; auto; apply nth_upd_eq; lia.
  - rewrite !nth_upd_neq by auto.
    replace (j <? S i) with (j <? i) by (destruct (Nat.ltb_spec j i), (Nat.ltb_spec j (S i)); lia).
    replace (S i <=? j) with (i <=? j) by (destruct (Nat.leb_spec i j), (Nat.leb_spec (S i) j); lia).
    split; [auto|]. split; destruct (t_up t); rewrite ?nth_upd_neq by auto; auto.
Qed.
Lemma psar_trace : forall step mx h l c st, length h = length c -> psar_run h l c None step mx = Ok st ->
  let T := t_at step mx h l c in
  length (ps_psar st) = length c /\ length (ps_up st) = length c /\ length (ps_down st) = length c /\
  forall j, j < length c ->
    nth j (ps_psar st) fnan = t_val (T j) /\
    nth j (ps_up st) fnan = (if j <? 2 then fnan else if t_up (T j) then t_val (T j) else fnan) /\
    nth j (ps_down st) fnan = (if j <? 2 then fnan else if t_up (T j) then fnan else t_val (T j)).
Proof.
  intros step mx h l c st Hh H T. assert (Eh : h <> []) by (intros ->; discriminate). rewrite psar_run_cons in H by auto.
  assert (Hc : 0 < length c) by (rewrite <- Hh; destruct h; [congruence|cbn; lia]).
  assert (I : forall k, k <= length c - 2 -> at_row step mx h l c (2 + k) (fold_left (psar_step h l step mx) (seq 2 k) (psar_init h l c None step))).
  { induction k; intros Hk.
    - cbn [seq fold_left]. unfold at_row. cbn [psar_init ps_up_trend ps_af ps_uth ps_dtl ps_labels ps_psar ps_up ps_down]. rewrite !repeat_length.
      do 8 (split; [reflexivity|]). intros j Hj. split; [|split].
      + destruct (Nat.ltb_spec j (2 + 0)); [|reflexivity]. destruct j as [|[|j]]; [reflexivity|reflexivity|lia].
      + rewrite nth_repeat_lt by lia. destruct (Nat.ltb_spec j 2), (Nat.leb_spec (2 + 0) j); cbn [orb]; auto; lia.
      + rewrite nth_repeat_lt by lia. destruct (Nat.ltb_spec j 2), (Nat.leb_spec (2 + 0) j); cbn [orb]; auto; lia.
    - rewrite seq_S, fold_left_app. cbn [fold_left]. replace (2 + S k) with (S (2 + k)) by lia. apply psar_step_row; [lia|]. apply IHk. lia. }
  specialize (I (length c - 2) ltac:(lia)). injection H as <-. destruct I as (_ & _ & _ & _ & _ & L1 & L2 & L3 & R).
  do 3 (split; [auto|]). intros j Hj. destruct (R j Hj) as (R1 & R2 & R3).
  rewrite R1, R2, R3. destruct (Nat.ltb_spec j (2 + (length c - 2))), (Nat.leb_spec (2 + (length c - 2)) j); try lia. rewrite Bool.orb_false_r. subst T. refine (conj _ (conj _ _)); reflexivity.
Qed.
End Trace.

(** the input columns a positional PSAR reads *)
Lemma psar_frame : forall F (A : Arith F) step mx fl rows (up dn ps : list F),
  compute (Psar false step mx) fl rows = Ok ps ->
  exists st, psar_run (map b_high rows) (map b_low rows) (map b_close rows) None step mx = Ok st /\
    compute (Psar false step mx) fl rows = Ok (check_fillna fl (FillInt (-1)) (ps_psar st)) /\
    compute (PsarUp false step mx) fl rows = Ok (check_fillna fl (FillInt (-1)) (ps_up st)) /\
    compute (PsarDown false step mx) fl rows = Ok (check_fillna fl (FillInt (-1)) (ps_down st)) /\
    compute (PsarUpInd false step mx) fl rows = Ok (psar_indicator (ps_up st) (ps_up st)) /\
    compute (PsarDownInd false step mx) fl rows = Ok (psar_indicator (ps_up st) (ps_down st)).
Proof.
  intros F A step mx fl rows up dn ps H. cbn [compute] in *.
  unfold psar, psar_up, psar_down, psar_up_indicator, psar_down_indicator in *.
  destruct (psar_run _ _ _ _ _ _) as [st|]; [|discriminate]. exists st. cbn [bind]. repeat split; reflexivity.
Qed.
Lemma psar_positional : forall F (A : Arith F) b step mx fl (rows : list (bar F)), b = false \/ default_index rows ->
  compute (Psar b step mx) fl rows = compute (Psar false step mx) fl rows /\
  compute (PsarUp b step mx) fl rows = compute (PsarUp false step mx) fl rows /\
  compute (PsarDown b step mx) fl rows = compute (PsarDown false step mx) fl rows /\
  compute (PsarUpInd b step mx) fl rows = compute (PsarUpInd false step mx) fl rows /\
  compute (PsarDownInd b step mx) fl rows = compute (PsarDownInd false step mx) fl rows.
Proof.
  intros F A b step mx fl rows [->|H]; [repeat split; reflexivity|].
  refine (conj _ (conj _ (conj _ (conj _ _)))); rewrite psar_default_index by exact H; reflexivity.
Qed.

(** C37, any arithmetic *)
Lemma psar_one_side : forall F (A : Arith F) b step mx (rows : list (bar F)) ps up dn,
  b = false \/ default_index rows ->
  compute (Psar b step mx) false rows = Ok ps -> compute (PsarUp b step mx) false rows = Ok up ->
  compute (PsarDown b step mx) false rows = Ok dn ->
  forall i, (i < length rows)%nat ->
    ((i < 2)%nat -> nth i up fnan = fnan /\ nth i dn fnan = fnan /\ nth i ps fnan = nth i (map b_close rows) fnan) /\
    ((2 <= i)%nat -> (nth i up fnan = nth i ps fnan /\ nth i dn fnan = fnan) \/ (nth i dn fnan = nth i ps fnan /\ nth i up fnan = fnan)).
Proof.
  intros F A b step mx rows ps up dn Hb Hp Hu Hd i Hi. destruct (psar_positional F A b step mx false rows Hb) as (E1 & E2 & E3 & _).
  rewrite E1 in Hp. rewrite E2 in Hu. rewrite E3 in Hd. destruct (psar_frame F A step mx false rows up dn ps Hp) as (st & Er & F1 & F2 & F3 & _).
  rewrite F1 in Hp. rewrite F2 in Hu. rewrite F3 in Hd. cbn [check_fillna] in *. injection Hp as <-. injection Hu as <-. injection Hd as <-.
  apply psar_trace in Er; [|now rewrite !map_length]. destruct Er as (_ & _ & _ & R). specialize (R i). rewrite map_length in R.
  destruct (R Hi) as (R1 & R2 & R3). rewrite R1, R2, R3. split; intros Hi2.
  - destruct (Nat.ltb_spec i 2); [|lia]. split; [auto|]. split; [auto|]. destruct i as [|[|i]]; [reflexivity|reflexivity|lia].
  - destruct (Nat.ltb_spec i 2); [lia|]. destruct (t_up _); auto.
Qed.

Local Open Scope R_scope.
Definition lift (s : sar) : @tstate xr := mkt (sar_up s) (Fin (sar_af s)) (Fin (sar_high s)) (Fin (sar_low s)) (Fin (sar_val s)).
Lemma t_at_frame : forall step mx n h l c i, (i < n)%nat ->
  t_at (Fin step) (Fin mx) (tab n (fun i => Fin (h i))) (tab n (fun i => Fin (l i))) (tab n (fun i => Fin (c i))) i = lift (sar_at step mx h l c i).
Proof.
  intros step mx n h l c i Hi. induction i as [|[|i] IH].
  - cbn [t_at sar_at]. rewrite !nth_tab by lia. reflexivity.
  - cbn [t_at sar_at]. rewrite !nth_tab by lia. reflexivity.
  - specialize (IH ltac:(lia)).
    assert (Ht : forall (u w : xr) x y z, t_at u w x y z (S (S i)) = t_next u w x y (t_at u w x y z (S i)) (S (S i))) by reflexivity.
    rewrite Ht. clear Ht.
    rewrite IH. clear IH. change (sar_at step mx h l c (S (S i))) with (sar_next step mx h l (sar_at step mx h l c (S i)) (S (S i))).
    generalize (sar_at step mx h l c (S i)). intros [up af hi lo v]. unfold t_next, sar_next, sar_move, lift.
    cbn [t_up t_af t_uth t_dtl t_val sar_up sar_af sar_high sar_low sar_val].
    assert (N : forall (f : nat -> R) j, (j < n)%nat -> nth j (tab n (fun i => Fin (f i))) (@fnan xr XR) = Fin (f j)) by (intros; now rewrite nth_tab by lia).
    rewrite !N by lia. set (k := S (S i)) in *. destruct up.
    + cbn [fsub fadd fmul XR xsub xadd xmul xopp]. cbn [fltb XR xltb]. change (hi + - v) with (hi - v).
      destruct (Rlt_dec (l k) (v + af * (hi - v))); [reflexivity|]. cbv zeta. rewrite fmin2_fin.
      cbn [sar_up sar_af sar_high sar_low sar_val]. f_equal.
      * destruct (Rlt_dec hi (h k)); reflexivity.
      * unfold Rmax. destruct (Rlt_dec hi (h k)), (Rle_dec hi (h k)); try lra; try reflexivity. f_equal. lra.
      * destruct (Rlt_dec (l (k - 2)%nat) _); [reflexivity|]. unfold Rmin.
        destruct (Rlt_dec (l (k - 1)%nat) _), (Rle_dec _ (l (k - 1)%nat)); try lra; reflexivity.
    + cbn [fsub fadd fmul XR xsub xadd xmul xopp]. cbn [fltb XR xltb]. change (v + - lo) with (v - lo).
      change (v + - (af * (v - lo))) with (v - af * (v - lo)).
      destruct (Rlt_dec _ (h k)); [reflexivity|]. cbv zeta. rewrite fmin2_fin.
      cbn [sar_up sar_af sar_high sar_low sar_val]. f_equal.
      * destruct (Rlt_dec (l k) lo); reflexivity.
      * unfold Rmin. destruct (Rlt_dec (l k) lo), (Rle_dec lo (l k)); try lra; reflexivity.
      * destruct (Rlt_dec _ (h (k - 2)%nat)); [reflexivity|]. unfold Rmax.
        destruct (Rlt_dec _ (h (k - 1)%nat)), (Rle_dec _ (h (k - 1)%nat)); try lra; try reflexivity. f_equal. lra.
Qed.
Lemma frame_default : forall n h l c v, default_index (frame n h l c v).
Proof.
  intros. unfold default_index. rewrite label_tab. unfold frame. rewrite len_tab. reflexivity.
Qed.
(** C68: PSAR is Wilder's recursion *)
Lemma psar_formula : forall b step mx n h l c v, (1 <= n)%nat ->
  let trace := sar_at step mx h l c in
  compute (Psar b (Fin step) (Fin mx)) false (frame n h l c v) = Ok (tab n (fun i => Fin (sar_val (trace i)))) /\
  compute (PsarUp b (Fin step) (Fin mx)) false (frame n h l c v) =
    Ok (tab n (fun i => if (i <? 2)%nat then NaN else if sar_up (trace i) then Fin (sar_val (trace i)) else NaN)) /\
  compute (PsarDown b (Fin step) (Fin mx)) false (frame n h l c v) =
    Ok (tab n (fun i => if (i <? 2)%nat then NaN else if sar_up (trace i) then NaN else Fin (sar_val (trace i)))).
Proof.
  intros b step mx n h l c v Hn trace.
  destruct (psar_positional xr XR b (Fin step) (Fin mx) false (frame n h l c v)) as (-> & -> & -> & _); [right; apply frame_default|].
  assert (E : exists st, psar_run (map b_high (frame n h l c v)) (map b_low (frame n h l c v)) (map b_close (frame n h l c v)) None (Fin step) (Fin mx) = Ok st).
  { rewrite high_tab. destruct n; [lia|]. unfold psar_run, tab. cbn [seq map]. eexists. reflexivity. }
  destruct E as [st E]. cbn [compute]. unfold psar, psar_up, psar_down. rewrite E. cbn [bind check_fillna].
  rewrite high_tab, low_tab, close_tab in E. apply psar_trace in E; [|now rewrite !len_tab].
  rewrite len_tab in E. destruct E as (L1 & L2 & L3 & R).
  refine (conj _ (conj _ _)); f_equal; apply (list_tab n _ _ NaN); auto; intros i Hi; destruct (R i Hi) as (R1 & R2 & R3);
    rewrite t_at_frame in R1, R2, R3 by auto; assumption.
Qed.

(** C38 *)
Lemma sar_continues : forall step mx h l s i, (2 <= i)%nat ->
  let s' := sar_next step mx h l s i in
  (sar_up s = true -> sar_up s' = true -> sar_val s' <= l i /\ sar_val s' <= l (i - 2)%nat) /\
  (sar_up s = false -> sar_up s' = false -> h i <= sar_val s' /\ h (i - 2)%nat <= sar_val s').
Proof.
  intros step mx h l s i Hi s'. unfold s', sar_next. destruct (sar_up s) eqn:Eu; split; intros H; try discriminate; intros H'.
  - destruct (Rlt_dec (l i) (sar_move s)); cbn [sar_up sar_val] in *; [discriminate|].
    destruct (Rlt_dec _ _); [lra|]. pose proof (Rmin_l (sar_move s) (l (i - 1)%nat)). lra.
  - destruct (Rlt_dec (sar_move s) (h i)); cbn [sar_up sar_val] in *; [discriminate|].
    destruct (Rlt_dec _ _); [lra|]. pose proof (Rmax_l (sar_move s) (h (i - 1)%nat)). lra.
Qed.
Lemma psar_right_side : forall b step mx n h l c v up dn,
  compute (PsarUp b (Fin step) (Fin mx)) false (frame n h l c v) = Ok up ->
  compute (PsarDown b (Fin step) (Fin mx)) false (frame n h l c v) = Ok dn ->
  forall i p, (2 <= i < n)%nat ->
    ((i = 2%nat \/ nth (i - 1) up NaN <> NaN) -> nth i up NaN = Fin p -> p <= l i /\ p <= l (i - 2)%nat) /\
    (nth (i - 1) dn NaN <> NaN -> nth i dn NaN = Fin p -> h i <= p /\ h (i - 2)%nat <= p).
Proof.
  intros b step mx n h l c v up dn Hu Hd i p Hi. destruct (psar_formula b step mx n h l c v ltac:(lia)) as (_ & E2 & E3).
  rewrite E2 in Hu. rewrite E3 in Hd. injection Hu as <-. injection Hd as <-. rewrite !nth_tab by lia.
  assert (Hn : sar_at step mx h l c i = sar_next step mx h l (sar_at step mx h l c (i - 1)) i).
  { destruct i as [|[|i]]; try lia. replace (S (S i) - 1)%nat with (S i) by lia. reflexivity. }
  destruct (Nat.ltb_spec i 2); [lia|].
  destruct (sar_continues step mx h l (sar_at step mx h l c (i - 1)) i ltac:(lia)) as [C1 C2]. rewrite <- Hn in C1, C2. split.
  - intros H0 H1. destruct (sar_up (sar_at step mx h l c i)) eqn:Ei; [|discriminate].
    assert (sar_up (sar_at step mx h l c (i - 1)) = true).
    { destruct H0 as [->|H0]; [reflexivity|]. destruct (Nat.ltb_spec (i - 1) 2); [now elim H0|]. destruct (sar_up (sar_at step mx h l c (i - 1))); [reflexivity || now elim H0|reflexivity || now elim H0]. }
    replace p with (sar_val (sar_at step mx h l c i)) by congruence. auto.
  - intros H0 H1. destruct (sar_up (sar_at step mx h l c i)) eqn:Ei; [discriminate|].
    assert (sar_up (sar_at step mx h l c (i - 1)) = false).
    { destruct (Nat.ltb_spec (i - 1) 2); [now elim H0|]. destruct (sar_up (sar_at step mx h l c (i - 1))); [reflexivity || now elim H0|reflexivity || now elim H0]. }
    replace p with (sar_val (sar_at step mx h l c i)) by congruence. auto.
Qed.

(** C40 *)
Lemma sar_inside : forall step mx h l c lo hi, 0 <= step -> step <= mx -> mx <= 1 ->
  forall i, (forall j, (j <= Nat.max i 0)%nat -> lo <= l j <= hi /\ lo <= h j <= hi /\ lo <= c j <= hi) ->
  let s := sar_at step mx h l c i in
  0 <= sar_af s <= mx /\ lo <= sar_high s <= hi /\ lo <= sar_low s <= hi /\ lo <= sar_val s <= hi.
Proof.
  intros step mx h l c lo hi H0 H1 H2. induction i as [|[|i] IH]; intros H; cbv zeta.
  - pose proof (H 0%nat ltac:(lia)). cbn [sar_at sar_af sar_high sar_low sar_val]. lra.
  - pose proof (H 0%nat ltac:(lia)). pose proof (H 1%nat ltac:(lia)). cbn [sar_at sar_af sar_high sar_low sar_val]. lra.
  - specialize (IH ltac:(intros; apply H; lia)). cbv zeta in IH.
    change (sar_at step mx h l c (S (S i))) with (sar_next step mx h l (sar_at step mx h l c (S i)) (S (S i))).
    set (s := sar_at step mx h l c (S i)) in *. clearbody s. destruct IH as (A1 & A2 & A3 & A4).
    set (k := S (S i)) in *. pose proof (H k ltac:(lia)). pose proof (H (k - 1)%nat ltac:(lia)). pose proof (H (k - 2)%nat ltac:(lia)).
    assert (M : lo <= sar_move s <= hi).
    { assert (K : forall a x y, 0 <= a <= 1 -> lo <= x <= hi -> lo <= y <= hi -> lo <= (1 - a) * x + a * y <= hi).
      { intros a x y Ha Hx Hy. assert (0 <= (1 - a) * (x - lo)) by (apply Rmult_le_pos; lra). assert (0 <= a * (y - lo)) by (apply Rmult_le_pos; lra).
        assert (0 <= (1 - a) * (hi - x)) by (apply Rmult_le_pos; lra). assert (0 <= a * (hi - y)) by (apply Rmult_le_pos; lra). lra. }
      unfold sar_move. destruct (sar_up s).
      - replace (sar_val s + sar_af s * (sar_high s - sar_val s)) with ((1 - sar_af s) * sar_val s + sar_af s * sar_high s) by ring. apply K; lra.
      - replace (sar_val s - sar_af s * (sar_val s - sar_low s)) with ((1 - sar_af s) * sar_val s + sar_af s * sar_low s) by ring. apply K; lra. }
    assert (B : 0 <= Rmin (sar_af s + step) mx <= mx).
    { split; [apply Rmin_glb; lra|apply Rmin_r]. }
    unfold sar_next. destruct (sar_up s).
    + destruct (Rlt_dec (l k) _); cbn [sar_af sar_high sar_low sar_val]; [lra|].
      split; [destruct (Rlt_dec _ _); lra|]. split; [unfold Rmax; destruct (Rle_dec _ _); lra|]. split; [lra|].
      destruct (Rlt_dec _ _); [lra|]. unfold Rmin. destruct (Rle_dec _ _); lra.
    + destruct (Rlt_dec _ (h k)); cbn [sar_af sar_high sar_low sar_val]; [lra|].
      split; [destruct (Rlt_dec _ _); lra|]. split; [lra|]. split; [unfold Rmin; destruct (Rle_dec _ _); lra|].
      destruct (Rlt_dec _ _); [lra|]. unfold Rmax. destruct (Rle_dec _ _); lra.
Qed.
Lemma psar_inside : forall b step mx n h l c v out, 0 <= step <= mx -> mx <= 1 -> sane n h l c ->
  compute (Psar b (Fin step) (Fin mx)) false (frame n h l c v) = Ok out ->
  forall i lo hi, (i < n)%nat -> (forall j, (j <= i)%nat -> lo <= l j /\ h j <= hi) ->
  exists p, nth i out NaN = Fin p /\ lo <= p <= hi.
Proof.
  intros b step mx n h l c v out H0 H1 Hs Ho i lo hi Hi H. destruct (psar_formula b step mx n h l c v ltac:(lia)) as (E & _).
  rewrite E in Ho. injection Ho as <-. rewrite nth_tab by auto. eexists. split; [reflexivity|].
  apply (sar_inside step mx h l c lo hi); try lra. intros j Hj. pose proof (H j ltac:(lia)). pose proof (Hs j ltac:(lia)). lra.
Qed.

(** C41 *)
Lemma indicator_rows : forall (up s : list xr) i, length s = length up -> (i < length up)%nat ->
  nth i (psar_indicator up s) NaN = if starts s i then if (nth i up NaN =.? #0)%F then nth i up NaN else Fin 1 else Fin 0.
Proof.
  intros up s i Hl Hi. unfold psar_indicator, starts.
  rewrite (list_tab (length up) up (fun i => nth i up NaN) NaN) at 1 by auto.
  rewrite (list_tab (length up) s (fun i => nth i s NaN) NaN) at 1 2 by auto.
  rewrite shift1_tab, !map2_tab, map_tab, nth_tab by auto.
  assert (Z : xeqb (Fin 0) (Fin 0) = true) by (cbn; destruct (Req_EM_T 0 0); [reflexivity|lra]).
  destruct i as [|j].
  - cbn [fisnan XR fnan fromx]. destruct (negb (xisnan (nth 0 s NaN))); cbn [andb xisnan]; [reflexivity|].
    cbn [feqb XR fofZ]. rewrite Z. reflexivity.
  - unfold fromx. change (S j <? 1)%nat with false. cbv iota. replace (S j - 1)%nat with j by lia. cbn [fisnan XR fnan].
    destruct (negb (xisnan (nth (S j) s NaN)) && xisnan (nth j s NaN)); [reflexivity|].
    cbn [feqb XR fofZ]. rewrite Z. reflexivity.
Qed.
Lemma psar_reversals : forall b step mx rows up dn ui di, b = false \/ default_index rows ->
  compute (PsarUp b step mx) false rows = Ok up -> compute (PsarDown b step mx) false rows = Ok dn ->
  forall fl, compute (PsarUpInd b step mx) fl rows = Ok ui -> compute (PsarDownInd b step mx) fl rows = Ok di ->
  forall i, (i < length rows)%nat ->
    nth i di NaN = (if starts dn i then Fin 1 else Fin 0) /\
    (nth i up NaN <> Fin 0 -> nth i ui NaN = if starts up i then Fin 1 else Fin 0) /\
    (nth i up NaN = Fin 0 -> nth i ui NaN = Fin 0) /\
    ~ (nth i ui NaN = Fin 1 /\ nth i di NaN = Fin 1).
Proof.
  intros b step mx rows up dn ui di Hb Hu Hd fl Hui Hdi i Hi.
  destruct (psar_positional xr XR b step mx false rows Hb) as (E1 & E2 & E3 & _).
  destruct (psar_positional xr XR b step mx fl rows Hb) as (_ & _ & _ & E4 & E5).
  rewrite E2 in Hu. rewrite E3 in Hd. rewrite E4 in Hui. rewrite E5 in Hdi.
  cbn [compute] in *. unfold psar_up, psar_down, psar_up_indicator, psar_down_indicator in *.
  destruct (psar_run _ _ _ _ _ _) as [st|] eqn:Er; [|discriminate]. cbn [bind check_fillna] in *.
  apply psar_trace in Er; [|now rewrite !map_length]. rewrite map_length in Er. destruct Er as (_ & L2 & L3 & R).
  injection Hu as <-. injection Hd as <-. injection Hui as <-. injection Hdi as <-.
  rewrite !indicator_rows by congruence. destruct (R i Hi) as (_ & R2 & R3). change (@fnan xr XR) with NaN in *.
  assert (X : nth i (ps_up st) NaN = NaN \/ nth i (ps_down st) NaN = NaN).
  { rewrite R2, R3. destruct (i <? 2)%nat; auto. destruct (t_up _); auto. }
  assert (S0 : forall s, nth i s NaN = NaN -> starts s i = false) by (intros s E; unfold starts; rewrite E; reflexivity).
  assert (Dn : starts (ps_down st) i = true -> nth i (ps_up st) NaN = NaN).
  { intros E. destruct X as [X|X]; auto. rewrite S0 in E by auto. discriminate. }
  assert (D1 : (if starts (ps_down st) i then if (nth i (ps_up st) NaN =.? #0)%F then nth i (ps_up st) NaN else Fin 1 else Fin 0) =
               (if starts (ps_down st) i then Fin 1 else Fin 0)).
  { destruct (starts (ps_down st) i); auto. rewrite (Dn eq_refl). reflexivity. }
  rewrite D1. refine (conj eq_refl (conj _ (conj _ _))).
  - intros E. destruct (starts (ps_up st) i); auto. cbn [feqb XR fofZ]. destruct (nth i (ps_up st) NaN); cbn [xeqb]; auto.
    destruct (Req_EM_T r 0); auto. subst r. congruence.
  - intros ->. destruct (starts (ps_up st) i); auto. cbn [feqb XR fofZ xeqb]. destruct (Req_EM_T 0 0); auto. lra.
  - intros [H1 H2]. assert (Z01 : Fin 0 <> Fin 1) by (intros E; injection E; lra).
    destruct (starts (ps_down st) i); [|now elim Z01]. rewrite S0 in H1 by auto. now elim Z01.
Qed.

(** C59: labels matter to no indicator but PSAR on an integer index *)
Lemma labels_irrelevant : forall F (A : Arith F) (ind : indicator F) fl rows rows',
  label_dependent ind = false -> same_values rows rows' -> compute ind fl rows = compute ind fl rows'.
Proof.
  intros F A ind fl rows rows' Hl H.
  assert (E : map b_high rows = map b_high rows' /\ map b_low rows = map b_low rows' /\ map b_close rows = map b_close rows' /\ map b_volume rows = map b_volume rows').
  { induction H as [|a b r r' (E1 & E2 & E3 & E4) _ (I1 & I2 & I3 & I4)]; [auto|]. cbn [map]. rewrite E1, E2, E3, E4, I1, I2, I3, I4. auto. }
  destruct E as (E1 & E2 & E3 & E4). destruct ind; cbn [label_dependent] in Hl; try subst int_index; cbn [compute]; rewrite ?E1, ?E2, ?E3, ?E4; reflexivity.
Qed.
