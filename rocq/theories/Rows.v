(** * Rows: reading one row of the series operations. *)
From Verif Require Import Lists Api Align Causal CausalAdx.

Section Rows.
Context {F : Type} {A : Arith F}.

(** rows of the aggregations that see one window at a time *)
Lemma nth_by_window : forall w m g (s r : list F) i d, rolling w m (by_window g) s = Ok r -> i < length s ->
  nth i r d = g (Z.to_nat m) (window_at (Z.to_nat w) i (prep s)).
Proof.
  unfold rolling. intros. destruct (_ || _); [discriminate|]. injection H as <-. cbn [roll_rows].
  rewrite nth_indep with (d' := g (Z.to_nat m) (window_at (Z.to_nat w) (length s) (prep s)))
    by (rewrite map_length, seq_length, len_prep; auto).
  rewrite map_nth with (f := fun i => g (Z.to_nat m) (window_at (Z.to_nat w) i (prep s))).
  now rewrite seq_nth by (rewrite len_prep; auto).
Qed.
(** what the running aggregations show on a row, given their state *)
Definition calc_row (agg : @aggregation F) (w m i : nat) (p : list F) : F :=
  let o := obs (window_at w i p) in
  match agg with
  | agg_sum => calc_sum m o (nth i (run sum_put sum_take sum_start w p) sum_start)
  | agg_mean => calc_mean m o (nth i (run sum_put sum_take sum_start w p) sum_start)
  | agg_std0 => calc_std0 m o (nth i (run var_put var_take var_start w p) var_start)
  | by_window g => g m (window_at w i p)
  end.
Lemma nth_rolling_row : forall w m agg (s r : list F) i d, rolling w m agg s = Ok r -> i < length s ->
  nth i r d = calc_row agg (Z.to_nat w) (Z.to_nat m) i (prep s).
Proof.
  intros w m agg s r i d H Hi. destruct agg; [| | |now apply nth_by_window with (d := d) (i := i) in H].
  all: unfold rolling in H; destruct (_ || _); [discriminate|]; injection H as <-; cbn [roll_rows calc_row].
  1,2: rewrite nth_map2 with (da := 0) (db := sum_start) by (rewrite ?seq_length, ?len_run, len_prep; lia).
  3: rewrite nth_map2 with (da := 0) (db := var_start) by (rewrite ?seq_length, ?len_run, len_prep; lia).
  all: now rewrite seq_nth by (rewrite len_prep; lia).
Qed.
(** arithmetics in which the running aggregations are those of the window *)
Class Windowed : Prop := windowed : forall agg w m i (s : list F), i < length s ->
  calc_row agg w m i (prep s) = win_agg agg m (window_at w i (prep s)).
Lemma nth_rolling : Windowed -> forall w m agg (s r : list F) i d, rolling w m agg s = Ok r -> i < length s ->
  nth i r d = win_agg agg (Z.to_nat m) (window_at (Z.to_nat w) i (prep s)).
Proof. intros W w m agg s r i d H Hi. rewrite (nth_rolling_row _ _ _ _ _ _ _ H) by auto. now apply W. Qed.

Lemma rolling_ok : forall w m agg (s : list F), (0 <= m <= w)%Z ->
  rolling w m agg s = Ok (roll_rows (Z.to_nat w) (Z.to_nat m) agg (prep s)).
Proof.
  intros. unfold rolling.
  rewrite (proj2 (Z.ltb_ge m 0)), (proj2 (Z.ltb_ge w m)), (proj2 (Z.ltb_ge w 0)) by lia. reflexivity.
Qed.

Lemma length_window_at : forall w i (s : list F), i < length s -> length (window_at w i s) = Nat.min w (S i).
Proof. intros. unfold window_at. rewrite skipn_length, firstn_length. lia. Qed.

Lemma length_obs : forall l : list F, length (obs l) <= length l.
Proof. intros. unfold obs. induction l; cbn; auto. destruct (negb _); cbn; lia. Qed.

Lemma nth_shift_fill_lt : forall n x (s : list F) i d, (0 <= n)%Z -> i < length s -> i < Z.to_nat n ->
  nth i (shift_fill n x s) d = x.
Proof.
  intros. rewrite shift_fill_pos by lia. rewrite nth_firstn_lt by lia.
  rewrite app_nth1 by (rewrite repeat_length; lia). now apply nth_repeat_lt.
Qed.
Lemma nth_shift_fill_ge : forall n x (s : list F) i d, (0 <= n)%Z -> i < length s -> Z.to_nat n <= i ->
  nth i (shift_fill n x s) d = nth (i - Z.to_nat n) s d.
Proof.
  intros. rewrite shift_fill_pos by lia. rewrite nth_firstn_lt by lia.
  rewrite app_nth2 by (rewrite repeat_length; lia). now rewrite repeat_length.
Qed.

Lemma nth_ewm_short : forall s al m n a o i d, i + n + 1 < m -> i < length s ->
  nth i (@ewm_go F A al m n a o s) d = fnan.
Proof.
  induction s; intros; cbn in H0; [lia|].
  cbn [ewm_go]. destruct (if negb (fisnan a0) then _ else _) as [a' o'].
  destruct i; cbn [nth].
  - destruct (Nat.leb_spec m (if negb (fisnan a) then S n else n)); auto.
    destruct (negb _); lia.
  - apply IHs; [destruct (negb _); lia|lia].
Qed.

Lemma nth_ewm_span_short : forall w m (s r : list F) i d, ewm_span w m s = Ok r ->
  (Z.of_nat i + 1 < m)%Z -> i < length s -> nth i r d = fnan.
Proof.
  unfold ewm_span. intros. destruct (_ <? _)%Z; [discriminate|]. injection H as <-.
  unfold ewm_com. apply nth_ewm_short; [lia|]. now rewrite len_prep.
Qed.

Context {L : ArithLaws F}.

Lemma sub_nan_l' : forall x, fsub fnan x = (fnan : F).
Proof. intros. apply nan_unique, sub_nan_l, isnan_nan. Qed.
Lemma sub_nan_r' : forall x, fsub x fnan = (fnan : F).
Proof. intros. apply nan_unique, sub_nan_r, isnan_nan. Qed.
Lemma mul_nan_l' : forall x, fmul fnan x = (fnan : F).
Proof. intros. apply nan_unique, mul_nan_l, isnan_nan. Qed.
Lemma mul_nan_r' : forall x, fmul x fnan = (fnan : F).
Proof. intros. apply nan_unique, mul_nan_r, isnan_nan. Qed.
Lemma div_nan_l' : forall x, fdiv fnan x = (fnan : F).
Proof. intros. apply nan_unique, div_nan_l, isnan_nan. Qed.
Lemma div_nan_r' : forall x, fdiv x fnan = (fnan : F).
Proof. intros. apply nan_unique, div_nan_r, isnan_nan. Qed.
Lemma add_nan_l' : forall x, fadd fnan x = (fnan : F).
Proof. intros. apply nan_unique, add_nan_l, isnan_nan. Qed.
Lemma add_nan_r' : forall x, fadd x fnan = (fnan : F).
Proof. intros. apply nan_unique, add_nan_r, isnan_nan. Qed.
Lemma abs_nan' : fabs fnan = (fnan : F).
Proof. apply nan_unique. rewrite abs_nan. apply isnan_nan. Qed.

Lemma prep_nan : forall (s : list F) i, nth i s fnan = fnan -> nth i (prep s) fnan = fnan.
Proof.
  intros. unfold prep. destruct (Nat.lt_ge_cases i (length s)).
  - rewrite nth_indep with (d' := (fun x => if fisinf x then fnan else x) fnan)
      by (rewrite map_length; auto).
    rewrite map_nth with (f := fun x => if fisinf x then fnan else x), H. now rewrite isinf_nan.
  - now rewrite nth_overflow by (rewrite map_length; auto).
Qed.

(** a window containing a missing value has fewer observations than rows *)
Lemma obs_missing : forall (l : list F) i, i < length l -> nth i l fnan = fnan ->
  length (obs l) < length l.
Proof.
  induction l; intros; cbn in H; [lia|]. destruct i; cbn in H0.
  - subst. unfold obs. cbn. rewrite isnan_nan. cbn. apply le_n_S, length_obs.
  - specialize (IHl i ltac:(lia) H0). unfold obs in *. cbn. destruct (negb _); cbn; lia.
Qed.

Lemma window_at_nth : forall w i (s : list F) j d, i < length s -> j < Nat.min w (S i) ->
  nth j (window_at w i s) d = nth (S i - w + j) s d.
Proof. intros. unfold window_at. rewrite nth_skipn', nth_firstn_lt by lia. reflexivity. Qed.

(** a window that reaches back to a missing row is not full *)
Lemma window_missing : forall w i j (s : list F), i < length s -> 0 < w -> j <= i -> i < j + w ->
  nth j s fnan = fnan -> length (obs (window_at w i (prep s))) < w.
Proof.
  intros. assert (length (obs (window_at w i (prep s))) < length (window_at w i (prep s))).
  { apply obs_missing with (j - (S i - w)).
    - rewrite length_window_at by (rewrite len_prep; lia). lia.
    - rewrite window_at_nth by (rewrite ?len_prep; lia).
      replace (S i - w + (j - (S i - w))) with j by lia. now apply prep_nan. }
  rewrite length_window_at in H4 by (rewrite len_prep; lia). lia.
Qed.

Lemma window_short : forall w i (s : list F), i < length s -> S i < w ->
  length (obs (window_at w i (prep s))) < w.
Proof.
  intros. pose proof (length_obs (window_at w i (prep s))).
  rewrite length_window_at in H1 by (rewrite len_prep; lia). lia.
Qed.

(** aggregations that need [m] observations *)
Definition gated (agg : @aggregation F) : Prop :=
  match agg with by_window g => forall m win, length (obs win) < m -> g m win = fnan | _ => True end.
Lemma gated_max : gated agg_max.
Proof. intros m win H. unfold win_max. now rewrite (proj2 (Nat.ltb_lt _ _)). Qed.
Lemma gated_min : gated agg_min.
Proof. intros m win H. unfold win_min. now rewrite (proj2 (Nat.ltb_lt _ _)). Qed.
Lemma gated_apply : forall g, gated (agg_apply g).
Proof. intros g m win H. unfold win_apply. now rewrite (proj2 (Nat.leb_gt _ _)). Qed.
Lemma calc_few : forall agg w m i (p : list F), gated agg -> length (obs (window_at w i p)) < m -> calc_row agg w m i p = fnan.
Proof.
  intros [| | |g] w m i p G H; cbn [calc_row]; [unfold calc_sum|unfold calc_mean|unfold calc_std0|now apply G].
  all: now rewrite (proj2 (Nat.ltb_lt _ _)).
Qed.
Lemma rolling_few : forall w m agg (s r : list F) i d, gated agg -> rolling w m agg s = Ok r -> i < length s ->
  length (obs (window_at (Z.to_nat w) i (prep s))) < Z.to_nat m -> nth i r d = fnan.
Proof. intros. rewrite (nth_rolling_row _ _ _ _ _ _ _ H0) by auto. now apply calc_few. Qed.
Lemma sum_few : forall w m (s r : list F) i d, rolling w m agg_sum s = Ok r -> i < length s ->
  length (obs (window_at (Z.to_nat w) i (prep s))) < Z.to_nat m -> nth i r d = fnan.
Proof. intros. now apply (rolling_few w m agg_sum s r i d I). Qed.
Lemma mean_few : forall w m (s r : list F) i d, rolling w m agg_mean s = Ok r -> i < length s ->
  length (obs (window_at (Z.to_nat w) i (prep s))) < Z.to_nat m -> nth i r d = fnan.
Proof. intros. now apply (rolling_few w m agg_mean s r i d I). Qed.
(** aggregations whose every row is that of its window *)
Definition windowwise (agg : @aggregation F) : Prop :=
  Windowed \/ match agg with by_window _ => True | _ => False end.
Lemma nth_windowwise : forall w m agg (s r : list F) i d, windowwise agg -> rolling w m agg s = Ok r -> i < length s ->
  nth i r d = win_agg agg (Z.to_nat m) (window_at (Z.to_nat w) i (prep s)).
Proof.
  intros w m agg s r i d [W|W] H Hi; [now apply nth_rolling|]. destruct agg; try contradiction.
  rewrite (nth_by_window _ _ _ _ _ _ _ H) by auto. reflexivity.
Qed.
End Rows.
Arguments Windowed F {A}.
Arguments nth_rolling {F A W}.
