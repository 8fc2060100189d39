(** * Stuck: proofs for C86 (bad rows: series that recover and series that do
    not). *)
From Verif Require Import Api Lists SpecRaise Raises Align Rows SpecMemory Memory SpecStuck.

Section Stuck.
Context {F : Type} {A : Arith F} {L : ArithLaws F}.
Local Open Scope f_scope.
Notation nan x := (fisnan x = true).

Lemma Ok_inj : forall {B} (a b : B), Ok a = Ok b -> a = b. Proof. intros B a b E. now inversion E. Qed.

(** ** Series with a finite memory recover *)
Lemma check_suffix : forall (ind : indicator F) m bad rows, memory ind = Some m ->
  failing_check ind false (bad ++ rows) = None -> failing_check ind false rows = None.
Proof.
  intros ind m bad rows M.
  assert (Ar : forall w,
    first_failure [((w <? -1)%Z || ((w =? -1)%Z && (false || negb (length (bad ++ rows) =? 0)%nat)), ValueError);
     ((w =? 0)%Z && (existsb is_number (map b_high (bad ++ rows)) || existsb is_number (map b_low (bad ++ rows))), ZeroDivisionError)] = None ->
    first_failure [((w <? -1)%Z || ((w =? -1)%Z && (false || negb (length rows =? 0)%nat)), ValueError);
     ((w =? 0)%Z && (existsb is_number (map b_high rows) || existsb is_number (map b_low rows)), ZeroDivisionError)] = None).
  { intros w. cbn [first_failure]. rewrite !map_app, !existsb_app, app_length.
    destruct (w <? -1)%Z; [discriminate|]. destruct (w =? -1)%Z; cbn [orb andb].
    - destruct (length bad + length rows) eqn:E; cbn [Nat.eqb negb]; [|discriminate].
      replace (length rows) with 0 by lia. cbn [Nat.eqb negb]. destruct (w =? 0)%Z; cbn [andb]; auto.
      repeat match goal with |- context [existsb ?f ?l] => destruct (existsb f l) end; cbn [orb]; auto.
    - destruct (w =? 0)%Z; cbn [andb]; auto.
      repeat match goal with |- context [existsb ?f ?l] => destruct (existsb f l) end; cbn [orb]; auto. }
  destruct ind; try discriminate M; unfold failing_check; try (exact (fun x => x)); try apply Ar;
    match goal with o : bool |- _ => destruct o; [exact (fun x => x)|discriminate M] end.
Qed.
Lemma wash_out : forall (ind : indicator F) m, Windowed F \/ each_window_anew ind = true -> memory ind = Some m -> washes_out m (compute ind false).
Proof.
  intros ind m W M bad good rows out out' E H H'.
  pose proof (memory_table ind m W M) as T.
  assert (O : exists o, compute ind false rows = Ok o).
  { pose proof (raises_exactly ind false rows isnan_nan) as R. pose proof (raises_exactly ind false (bad ++ rows) isnan_nan) as R'.
    destruct (failing_check ind false (bad ++ rows)) eqn:C; [congruence|].
    rewrite (check_suffix ind m bad rows M C) in R. exact R. }
  destruct O as (o & O). rewrite (T bad rows o out O H), (T good rows o out' O H'). reflexivity.
Qed.

(** ** Filling a series that stays missing *)
Lemma nth_map_lt : forall {B C} (g : B -> C) l i d d', (i < length l)%nat -> nth i (map g l) d = g (nth i l d').
Proof. intros B C g l i d d' H. rewrite (nth_indep _ d (g d')) by now rewrite map_length. apply map_nth. Qed.
Lemma nan_x : forall x : F, nan x -> x = fnan. Proof. exact nan_unique. Qed.
Lemma ffill_stuck : forall s j last, (1 <= j)%nat -> (forall i, (j <= i < length s)%nat -> nan (nth i s fnan)) ->
  forall i, (j <= i < length s)%nat -> nth i (ffill_go last s) fnan = nth (j - 1) (ffill_go last s) fnan.
Proof.
  assert (Z : forall s last, (forall i, (i < length s)%nat -> nan (nth i s fnan)) ->
    forall i, (i < length s)%nat -> nth i (ffill_go last s) fnan = last).
  { induction s as [|x s IH]; intros last H i Hi; cbn [length] in *; [lia|]. cbn [ffill_go].
    rewrite (H 0 ltac:(lia) : nan x). destruct i; [reflexivity|]. cbn [nth]. apply IH; [|lia]. intros k Hk. apply (H (S k)). lia. }
  induction s as [|x s IH]; intros j last Hj H i Hi; cbn [length] in *; [lia|]. cbn [ffill_go].
  destruct j as [|[|j]]; [lia| |].
  - cbn [Nat.sub]. destruct i; [lia|]. cbn [nth]. apply Z; [|lia]. intros k Hk. apply (H (S k)). lia.
  - destruct i; [lia|]. cbn [Nat.sub nth]. replace (S j - 0) with (S j) by lia.
    rewrite (IH (S j)) with (i := i); [|lia| |lia].
    + cbn [Nat.sub]. now rewrite Nat.sub_0_r.
    + intros k Hk. apply (H (S k)). lia.
Qed.
Lemma len_ffill : forall (s : list F) x, length (ffill_go x s) = length s.
Proof. induction s; intros; cbn; auto. Qed.
Lemma gap_inf : forall s j, missing_from j s -> missing_from j (replace_inf s).
Proof.
  intros s j H k Hk. unfold replace_inf in *. rewrite map_length in Hk. rewrite (nth_map_lt _ _ _ _ fnan) by lia.
  rewrite (nan_x _ (H k Hk)), isinf_nan. apply isnan_nan.
Qed.
Lemma fill_stuck_inf : forall z s j, (z <> -1)%Z -> (1 <= j)%nat -> missing_from j (replace_inf s) -> frozen_from j (check_fillna true (FillInt z) s).
Proof.
  intros z s j Hz Hj H i. unfold check_fillna. destruct (Z.eqb_spec z (-1)); [lia|].
  unfold fillna_const. rewrite map_length. unfold ffill at 1. rewrite len_ffill. intros Hi.
  rewrite !(nth_map_lt _ _ _ _ fnan) by (unfold ffill; rewrite len_ffill; lia).
  unfold ffill. rewrite (ffill_stuck _ j fnan Hj H i Hi). reflexivity.
Qed.
Lemma fill_stuck : forall z s j, (z <> -1)%Z -> (1 <= j)%nat -> missing_from j s -> frozen_from j (check_fillna true (FillInt z) s).
Proof. intros z s j Hz Hj H. apply fill_stuck_inf; auto. now apply gap_inf. Qed.
Lemma nth_bfill : forall (s : list F) i, (i < length s)%nat -> nan (nth i s fnan) -> nth i (bfill s) fnan = nth (S i) (bfill s) fnan.
Proof.
  induction s as [|x s IH]; intros i Hi H; cbn [length] in *; [lia|]. cbn [bfill]. destruct i as [|i].
  - cbn [nth] in *. rewrite H. destruct (bfill s); reflexivity.
  - cbn [nth] in *. apply IH; auto. lia.
Qed.
Lemma bfill_nan_tail : forall (s : list F) j, (forall i, (j <= i < length s)%nat -> nan (nth i s fnan)) ->
  forall i, (j <= i)%nat -> nan (nth i (bfill s) fnan).
Proof.
  induction s as [|x s IH]; intros j H i Hi; [destruct i; apply isnan_nan|]. cbn [bfill length] in *. destruct i as [|i].
  - assert (j = 0) by lia. subst. cbn [nth]. rewrite (H 0 ltac:(lia) : nan x).
    specialize (IH 0). destruct (bfill s) as [|y t] eqn:E; [apply isnan_nan|]. cbn [hd].
    apply (IH ltac:(intros k Hk; apply (H (S k)); lia) 0). lia.
  - cbn [nth]. apply (IH (j - 1)); [|lia]. intros k Hk. apply (H (S k)). lia.
Qed.
Lemma bfill_num : forall (s : list F) i, fisnan (nth i s fnan) = false -> nth i (bfill s) fnan = nth i s fnan.
Proof.
  induction s as [|x s IH]; intros i H; [destruct i; reflexivity|]. cbn [bfill]. destruct i as [|i]; cbn [nth] in *; [now rewrite H|]. now apply IH.
Qed.
Lemma len_bfill : forall s : list F, length (bfill s) = length s.
Proof. induction s; cbn; auto. Qed.
Lemma fill_stuck_back : forall s j, (1 <= j)%nat -> missing_from j s -> frozen_from j (check_fillna true (FillInt (-1)) s).
Proof.
  intros s j Hj H i. unfold check_fillna. cbn [Z.eqb Pos.eqb].
  rewrite len_bfill. unfold ffill at 1. rewrite len_ffill. unfold replace_inf at 1. rewrite map_length. intros Hi.
  assert (S : forall i, (j <= i < length s)%nat -> nth i (ffill (replace_inf s)) fnan = nth (j - 1) (ffill (replace_inf s)) fnan).
  { intros k Hk. apply gap_inf in H. apply (ffill_stuck _ j fnan Hj H). unfold replace_inf. now rewrite map_length. }
  set (y := ffill (replace_inf s)) in *.
  assert (Ly : length y = length s) by (unfold y, ffill; rewrite len_ffill; unfold replace_inf; apply map_length).
  destruct (fisnan (nth (j - 1) y fnan)) eqn:E.
  - rewrite (nan_x (nth i (bfill y) fnan)), (nan_x (nth (j - 1) (bfill y) fnan)); auto.
    + apply (bfill_nan_tail y (j - 1)); [|lia]. intros k Hk. rewrite Ly in Hk. destruct (Nat.eq_dec k (j - 1)) as [->|]; auto. rewrite S by lia. exact E.
    + apply (bfill_nan_tail y (j - 1)); [|lia]. intros k Hk. rewrite Ly in Hk. destruct (Nat.eq_dec k (j - 1)) as [->|]; auto. rewrite S by lia. exact E.
  - rewrite !bfill_num; auto; rewrite S by lia; auto.
Qed.

(** ** KAMA *)
Lemma kama_dead : forall (sc close : list F) prev, nan prev -> forall i, nan (nth i (kama_go sc close false prev) fnan).
Proof.
  induction sc as [|s sc IH]; intros close prev H i; [destruct i; apply isnan_nan|].
  destruct close as [|c close]; [destruct i; apply isnan_nan|]. cbn [kama_go]. destruct (fisnan s).
  - destruct i; [apply isnan_nan|]. apply IH, isnan_nan.
  - assert (N : nan (prev +. s **. (c -. prev))) by (apply add_nan_l; auto). destruct i; [exact N|]. now apply IH.
Qed.
Lemma kama_from : forall (sc close : list F) prev j, nan (nth j sc fnan) -> forall i, (j <= i)%nat -> nan (nth i (kama_go sc close false prev) fnan).
Proof.
  induction sc as [|s sc IH]; intros close prev j H i Hi; [destruct i; apply isnan_nan|].
  destruct close as [|c close]; [destruct i; apply isnan_nan|]. cbn [kama_go]. destruct j as [|j].
  - cbn [nth] in H. rewrite H. destruct i; [apply isnan_nan|]. apply kama_dead, isnan_nan.
  - destruct i as [|i]; [lia|]. cbn [nth] in H. destruct (fisnan s); cbn [nth]; apply (IH _ _ j); auto; lia.
Qed.
Lemma kama_stuck_go : forall (sc close : list F) first prev k j, fisnan (nth k (kama_go sc close first prev) fnan) = false -> (k < j)%nat ->
  nan (nth j sc fnan) -> forall i, (j <= i)%nat -> nan (nth i (kama_go sc close first prev) fnan).
Proof.
  induction sc as [|s sc IH]; intros close first prev k j H Hk Hj i Hi; [destruct i; apply isnan_nan|].
  destruct close as [|c close]; [destruct i; apply isnan_nan|]. destruct j as [|j]; [lia|]. destruct i as [|i]; [lia|]. cbn [nth] in Hj.
  cbn [kama_go] in *. destruct (fisnan s) eqn:Es.
  - destruct k as [|k]; [cbn [nth] in H; rewrite isnan_nan in H; discriminate|]. cbn [nth] in *. apply (IH _ _ _ k j); auto; lia.
  - destruct first.
    + cbn [nth]. apply (kama_from _ _ _ j); auto. lia.
    + cbn [nth]. apply (kama_from _ _ _ j); auto. lia.
Qed.
Lemma len_filter : forall {B} (p : B -> bool) l, (length (filter p l) <= length l)%nat.
Proof. induction l; cbn; auto. destruct (p a); cbn; lia. Qed.
Lemma obs_short : forall (l : list F) i, (i < length l)%nat -> nan (nth i l fnan) -> (length (obs l) < length l)%nat.
Proof.
  induction l as [|x l IH]; intros i Hi H; cbn [length] in *; [lia|]. unfold obs in *. cbn [filter]. destruct i as [|i].
  - cbn [nth] in H. rewrite H. cbn [negb]. pose proof (len_filter (fun x => negb (fisnan x)) l). lia.
  - cbn [nth] in H. specialize (IH i ltac:(lia) H). destruct (negb (fisnan x)); cbn [length]; lia.
Qed.
Lemma nth_map2_lt : forall {B C D} (g : B -> C -> D) l m i d db dc, (i < length l)%nat -> (i < length m)%nat ->
  nth i (map2 g l m) d = g (nth i l db) (nth i m dc).
Proof.
  induction l as [|x l IH]; intros [|y m] i d db dc Hl Hm; cbn [length] in *; try lia. cbn [map2]. destruct i; [reflexivity|]. cbn [nth]. apply IH; lia.
Qed.
Lemma rolling_gap : forall w (s : list F) r j, (1 <= w)%Z -> rolling w w agg_sum s = Ok r -> (j < length s)%nat -> nan (nth j s fnan) ->
  nan (nth j r fnan).
Proof.
  intros w s r j Hw E Hj H. pose proof E as R'. unfold rolling in R'. destruct (_ || _)%bool; [discriminate|]. clear R'.
  rewrite (sum_few _ _ _ _ _ fnan E Hj); [apply isnan_nan|]. set (win := window_at (Z.to_nat w) j (prep s)).
  assert (Lp : length (prep s) = length s) by apply map_length.
  assert (Lw : length win = Nat.min (Z.to_nat w) (S j)).
  { unfold win, window_at. rewrite skipn_length, firstn_length, Lp. lia. }
  assert (O : (length (obs win) < length win)%nat).
  { apply (obs_short win (length win - 1)); [lia|]. rewrite Lw. unfold win, window_at. rewrite nth_skipn', nth_firstn_lt by lia.
    replace (S j - Z.to_nat w + (Nat.min (Z.to_nat w) (S j) - 1)) with j by lia. unfold prep. rewrite (nth_map_lt _ _ _ _ fnan) by auto.
    rewrite (nan_x _ H), isinf_nan. apply isnan_nan. }
  lia.
Qed.
Lemma length_roll : forall k (s : list F), length (np_roll k s) = length s.
Proof.
  intros k s. unfold np_roll. destruct s as [|x s]; auto. set (t := x :: s). rewrite app_length, skipn_length, firstn_length. lia.
Qed.
Lemma kama_stuck : forall w p q rows out j k, (1 <= w)%Z -> compute (Kama w p q) false rows = Ok out ->
  missing_cell b_close rows j -> (k < j)%nat -> fisnan (nth k out fnan) = false -> missing_from j out.
Proof.
  intros w p q rows out j k Hw E (b & Hb & Nb) Hk K i Hi. cbn [compute] in E. unfold kama in E. cbn [rmap] in E.
  set (c := map b_close rows) in *. assert (Hj : (j < length c)%nat) by (unfold c; rewrite map_length; apply nth_error_Some; congruence).
  assert (Nc : nan (nth j c fnan)).
  { unfold c. rewrite (nth_error_nth (map b_close rows) j fnan (x := b_close b)); auto. now apply map_nth_error. }
  unfold kama_run in E. destruct (kama_sc c w p q false) as [sc|] eqn:ES; cbn [bind rmap] in E; [|discriminate].
  cbn [check_fillna] in E. injection E as <-.
  apply (kama_stuck_go _ _ _ _ k j); auto; [|lia].
  unfold kama_sc in ES. cbn [minp_of] in ES.
  destruct (rolling w w agg_sum _) as [den|] eqn:ER; cbn [bind] in ES; [|discriminate]. destruct (_ || _)%bool; [discriminate|]. injection ES as <-.
  assert (Lv : length (map fabs (ssub c (np_roll 1 c))) = length c) by (rewrite map_length; unfold ssub; rewrite length_map2, length_roll; lia).
  assert (Ln : length (map fabs (ssub c (np_roll w c))) = length c) by (rewrite map_length; unfold ssub; rewrite length_map2, length_roll; lia).
  assert (Ld : length den = length c).
  { rewrite (Align.len_rolling _ _ _ _ _ ER). exact Lv. }
  assert (Nd : nan (nth j den fnan)).
  { eapply rolling_gap; [exact Hw|exact ER|lia|]. rewrite (nth_map_lt _ _ _ _ fnan).
    - rewrite abs_nan. unfold ssub. rewrite (nth_map2_lt _ _ _ _ _ fnan fnan) by (rewrite ?length_roll; lia). now apply sub_nan_l.
    - unfold ssub. rewrite length_map2, length_roll. lia. }
  rewrite (nth_map_lt _ _ _ _ fnan) by (rewrite length_map2; lia).
  rewrite (nth_map2_lt _ _ _ _ _ fnan fnan) by lia. rewrite (eqb_nan_l _ _ Nd). cbn [negb].
  apply mul_nan_l, add_nan_l, mul_nan_l. now apply div_nan_r.
Qed.

(** ** ATR *)
Lemma atr_dead : forall (w prev : F) tr, nan prev -> forall i, nan (nth i (atr_go w prev tr) fnan).
Proof.
  intros w prev tr. revert prev. induction tr as [|t tr IH]; intros prev H i; [destruct i; apply isnan_nan|]. cbn [atr_go].
  assert (N : nan ((prev **. (w -. #1) +. t) /. w)) by (apply div_nan_l, add_nan_l, mul_nan_l; auto). destruct i; [exact N|]. now apply IH.
Qed.
Lemma atr_from : forall (w : F) tr prev j, nan (nth j tr fnan) -> forall i, (j <= i)%nat -> nan (nth i (atr_go w prev tr) fnan).
Proof.
  intros w. induction tr as [|t tr IH]; intros prev j H i Hi; [destruct i; apply isnan_nan|]. cbn [atr_go]. destruct j as [|j].
  - cbn [nth] in H. assert (N : nan ((prev **. (w -. #1) +. t) /. w)) by (apply div_nan_l, add_nan_r; auto). destruct i; [exact N|]. now apply atr_dead.
  - destruct i as [|i]; [lia|]. cbn [nth] in *. apply (IH _ j); auto. lia.
Qed.
Lemma nth_map3_lt : forall {B C D E} (g : B -> C -> D -> E) l m n i d db dc dd, (i < length l)%nat -> (i < length m)%nat -> (i < length n)%nat ->
  nth i (map3 g l m n) d = g (nth i l db) (nth i m dc) (nth i n dd).
Proof.
  induction l as [|x l IH]; intros [|y m] [|z n] i d db dc dd Hl Hm Hn; cbn [length] in *; try lia. cbn [map3]. destruct i; [reflexivity|]. cbn [nth]. apply IH; lia.
Qed.
Lemma len_shift1 : forall s : list F, length (shift 1 s) = length s.
Proof.
  intros s. unfold shift, shift_fill. cbn [Z.leb Z.compare]. rewrite app_length, repeat_length, firstn_length. lia.
Qed.
Lemma cell : forall (get : bar F -> F) rows j, missing_cell get rows j -> (j < length rows)%nat /\ nan (nth j (map get rows) fnan).
Proof.
  intros get rows j (b & Hb & Nb). split; [apply nth_error_Some; congruence|].
  rewrite (nth_error_nth (map get rows) j fnan (x := get b)); auto. now apply map_nth_error.
Qed.
Lemma tr_gap : forall (h l c : list F) j, length h = length c -> length l = length c -> (j < length c)%nat ->
  nan (nth j h fnan) -> nan (nth j l fnan) -> nan (nth j (true_range h l (shift 1 c)) fnan).
Proof.
  intros h l c j Lh Ll Hj Nh Nl. unfold true_range.
  assert (Lc := len_shift1 c).
  rewrite (nth_map3_lt _ _ _ _ _ _ fnan fnan fnan); rewrite ?map_length; unfold ssub; rewrite ?length_map2; try lia.
  rewrite !(nth_map_lt fabs _ _ _ fnan) by (rewrite length_map2; lia).
  rewrite !(nth_map2_lt _ _ _ _ _ fnan fnan) by lia.
  unfold nanmax, obs. cbn [filter].
  rewrite (sub_nan_l _ _ Nh), !abs_nan, (sub_nan_l _ _ Nh), (sub_nan_l _ _ Nl). cbn [negb]. apply isnan_nan.
Qed.
Lemma atr_stuck : forall w rows j, (1 <= w)%Z -> (w <= Z.of_nat j)%Z ->
  missing_cell b_high rows j -> missing_cell b_low rows j -> stuck_from j (fun fillna => compute (Atr w) fillna rows).
Proof.
  intros w rows j Hw Hj Mh Ml. apply cell in Mh, Ml. destruct Mh as (Hn & Nh). destruct Ml as (_ & Nl).
  cbn [compute]. unfold average_true_range. destruct (Z.leb_spec w 0); [lia|]. rewrite map_length.
  destruct (Nat.ltb_spec (length rows) (Z.to_nat w)); [lia|].
  set (tr := true_range (map b_high rows) (map b_low rows) (shift 1 (map b_close rows))).
  assert (Nt : nan (nth j tr fnan)) by (apply tr_gap; rewrite ?map_length; auto).
  set (raw := repeat (#0) (Z.to_nat w - 1) ++ _).
  assert (R : missing_from j raw).
  { intros i Hi. unfold raw. rewrite app_nth2 by (rewrite repeat_length; lia). rewrite repeat_length.
    replace (i - (Z.to_nat w - 1)) with (S (i - Z.to_nat w)) by lia. cbn [nth].
    apply (atr_from _ _ _ (j - Z.to_nat w)); [|lia]. rewrite nth_skipn'. now replace (Z.to_nat w + (j - Z.to_nat w)) with j by lia. }
  split; intros out E; apply Ok_inj in E; rewrite <- E; [exact R|]. apply fill_stuck; auto; lia.
Qed.

(** ** ADX *)
Lemma smooth_dead : forall (w : F) xs prev, nan prev -> forall i, nan (nth i (adx_smooth_go w prev xs) fnan).
Proof.
  intros w. induction xs as [|x xs IH]; intros prev H i; [destruct i; apply isnan_nan|]. cbn [adx_smooth_go].
  assert (N : nan (prev -. (prev /. w) +. x)) by (apply add_nan_l, sub_nan_l; auto). destruct i; [exact N|]. now apply IH.
Qed.
Lemma smooth_from : forall (w : F) xs prev j, nan (nth j xs fnan) -> forall i, (j <= i)%nat -> nan (nth i (adx_smooth_go w prev xs) fnan).
Proof.
  intros w. induction xs as [|x xs IH]; intros prev j H i Hi; [destruct i; apply isnan_nan|]. cbn [adx_smooth_go]. destruct j as [|j].
  - cbn [nth] in H. assert (N : nan (prev -. (prev /. w) +. x)) by (apply add_nan_r; auto). destruct i; [exact N|]. now apply smooth_dead.
  - destruct i as [|i]; [lia|]. cbn [nth] in *. apply (IH _ j); auto. lia.
Qed.
Lemma len_smooth_go : forall (w : F) xs prev, length (adx_smooth_go w prev xs) = length xs.
Proof. intros w. induction xs; intros; cbn [adx_smooth_go length]; auto. Qed.
Lemma len_smooth : forall w (x : list F), (w <= length x)%nat -> length (adx_smooth w (length x - w + 1) x) = (length x - w + 1)%nat.
Proof.
  intros w x H. unfold adx_smooth. destruct (Nat.eqb_spec (length x - w + 1) 1) as [e|n]; [cbn; lia|].
  cbn [length]. rewrite app_length, len_smooth_go, skipn_length. cbn [length]. lia.
Qed.
Lemma smooth_stuck : forall w (x : list F) j, (w < j)%nat -> (j < length x)%nat -> nan (nth j x fnan) ->
  forall k, (j - w <= k < length x - w)%nat -> nan (nth k (adx_smooth w (length x - w + 1) x) fnan).
Proof.
  intros w x j Hw Hj H k Hk. unfold adx_smooth. destruct (Nat.eqb_spec (length x - w + 1) 1); [lia|].
  destruct k as [|k]; [lia|]. cbn [nth]. rewrite app_nth1 by (rewrite len_smooth_go, skipn_length; lia).
  apply (smooth_from _ _ _ (j - S w)); [|lia]. rewrite nth_skipn'. now replace (S w + (j - S w)) with j by lia.
Qed.
Lemma pct_dead : forall num den : F, nan den -> nan (adx_pct num den).
Proof. intros num den H. unfold adx_pct. rewrite (eqb_nan_l _ _ H). cbn [negb]. now apply mul_nan_r, div_nan_r. Qed.
Lemma dx_dead : forall p q : F, nan p -> nan (adx_dx p q).
Proof.
  intros p q H. unfold adx_dx. rewrite (eqb_nan_l _ _ (add_nan_l _ _ H)). cbn [negb]. apply mul_nan_r. rewrite abs_nan. now apply div_nan_l, sub_nan_l.
Qed.
Lemma adx_go_dead : forall (w : F) xs prev, nan prev -> forall i, nan (nth i (adx_go w prev xs) fnan).
Proof.
  intros w. induction xs as [|x xs IH]; intros prev H i; [destruct i; apply isnan_nan|]. cbn [adx_go].
  assert (N : nan (((prev **. (w -. #1)) +. x) /. w)) by (apply div_nan_l, add_nan_l, mul_nan_l; auto). destruct i; [exact N|]. now apply IH.
Qed.
Lemma adx_go_from : forall (w : F) xs prev j, nan (nth j xs fnan) -> forall i, (j <= i)%nat -> nan (nth i (adx_go w prev xs) fnan).
Proof.
  intros w. induction xs as [|x xs IH]; intros prev j H i Hi; [destruct i; apply isnan_nan|]. cbn [adx_go]. destruct j as [|j].
  - cbn [nth] in H. assert (N : nan (((prev **. (w -. #1)) +. x) /. w)) by (apply div_nan_l, add_nan_r; auto). destruct i; [exact N|]. now apply adx_go_dead.
  - destruct i as [|i]; [lia|]. cbn [nth] in *. apply (IH _ j); auto. lia.
Qed.
Lemma sum_nan : forall (l : list F) k, (k < length l)%nat -> nan (nth k l fnan) -> nan (fsum l).
Proof.
  intros l k Hk H. apply (totals_absorbing (fun x => nan x)) with l; [|apply fsum_totals|].
  - intros x y [X|Y]; [now apply add_nan_l|now apply add_nan_r].
  - apply Exists_exists. exists (nth k l fnan). split; auto. now apply nth_In.
Qed.
Lemma nth_shift1 : forall (s : list F) j, (1 <= j < length s)%nat -> nth j (shift 1 s) fnan = nth (j - 1) s fnan.
Proof.
  intros s j Hj. unfold shift, shift_fill. cbn [Z.leb Z.compare]. change (Z.to_nat 1) with 1%nat.
  replace (Nat.min 1 (length s)) with 1 by lia. cbn [repeat app]. destruct j as [|j]; [lia|]. cbn [nth Nat.sub]. rewrite Nat.sub_0_r.
  apply nth_firstn_lt. lia.
Qed.
Lemma adx_trs_gap : forall w rows st j, (w < Z.of_nat j)%Z -> (j < length rows)%nat ->
  adx_run (map b_high rows) (map b_low rows) (map b_close rows) w = Ok st -> range_gap rows j ->
  length (adx_trs st) = (length rows - Z.to_nat w + 1)%nat /\ length (adx_dip st) = (length rows - Z.to_nat w + 1)%nat /\
  length (adx_din st) = (length rows - Z.to_nat w + 1)%nat /\ (1 <= w)%Z /\
  forall k, (j - Z.to_nat w <= k < length rows - Z.to_nat w)%nat -> nan (nth k (adx_trs st) fnan).
Proof.
  intros w rows st j Hw Hj E G. unfold adx_run in E. destruct (Z.eqb_spec w 0); [discriminate|]. cbn [get_min_max bind] in E.
  rewrite map_length in E. destruct (_ || _)%bool eqn:B; [discriminate|]. apply Bool.orb_false_iff in B. destruct B as (B1 & B2).
  apply Z.ltb_ge in B1, B2. destruct (Z.eqb_spec (Z.of_nat (length rows) - (w - 1)) 0); [discriminate|].
  injection E as <-. cbn [adx_trs adx_dip adx_din].
  replace (Z.to_nat (Z.of_nat (length rows) - (w - 1))) with (length rows - Z.to_nat w + 1)%nat by lia.
  set (h := map b_high rows) in *. set (l := map b_low rows) in *. set (c := map b_close rows) in *.
  assert (Lh : length h = length rows) by apply map_length. assert (Ll : length l = length rows) by apply map_length.
  assert (Lc : length c = length rows) by apply map_length. assert (Ls := len_shift1 c). assert (Lsh := len_shift1 h). assert (Lsl := len_shift1 l).
  set (ddm := ssub _ _).
  assert (Ld : length ddm = length rows) by (unfold ddm, ssub; rewrite !length_map2; lia).
  assert (LS : forall x : list F, length x = length rows -> length (adx_smooth (Z.to_nat w) (length rows - Z.to_nat w + 1) x) = (length rows - Z.to_nat w + 1)%nat).
  { intros x Lx. rewrite <- Lx. apply len_smooth. lia. }
  split; [now apply LS|]. split; [apply LS; unfold ssub; rewrite !length_map2; lia|]. split; [apply LS; unfold ssub; rewrite !length_map2; lia|].
  split; [lia|]. intros k Hk. rewrite <- Ld. apply (smooth_stuck _ _ j); try lia.
  unfold ddm, ssub. rewrite (nth_map2_lt _ _ _ _ _ fnan fnan) by (rewrite length_map2; lia).
  rewrite !(nth_map2_lt _ _ _ _ _ fnan fnan) by lia.
  assert (D : nan (nth j h fnan) \/ nan (nth j l fnan) \/ nan (nth j (shift 1 c) fnan)).
  { destruct G as [G|[G|(Hr & G)]]; apply cell in G; destruct G as (_ & G); auto. right. right. rewrite nth_shift1 by lia. exact G. }
  unfold npmax2, npmin2. destruct (fisnan (nth j h fnan)) eqn:Eh; [now apply sub_nan_l|].
  destruct (fisnan (nth j (shift 1 c) fnan)) eqn:Ec; [now apply sub_nan_l|].
  destruct (fisnan (nth j l fnan)) eqn:El; [now apply sub_nan_r|]. destruct D as [D|[D|D]]; congruence.
Qed.
Lemma adx_line_gap : forall n w (num trs : list F) j, (w < j < n)%nat -> length trs = (n - w + 1)%nat -> length num = (n - w + 1)%nat ->
  (forall k, (j - w <= k < n - w)%nat -> nan (nth k trs fnan)) -> missing_from j (adx_line n w num trs).
Proof.
  intros n w num trs j Hj Lt Ln H i Hi. unfold adx_line in *. rewrite app_length, repeat_length, firstn_length, skipn_length, length_map2 in Hi.
  rewrite app_nth2 by (rewrite repeat_length; lia). rewrite repeat_length.
  rewrite nth_firstn_lt by lia. rewrite nth_skipn', (nth_map2_lt _ _ _ _ _ fnan fnan) by lia. apply pct_dead, H. lia.
Qed.
Lemma di_stuck : forall w rows j, (w < Z.of_nat j)%Z -> (j < length rows)%nat -> range_gap rows j ->
  stuck_from j (fun fillna => compute (AdxPos w) fillna rows) /\ stuck_from j (fun fillna => compute (AdxNeg w) fillna rows).
Proof.
  intros w rows j Hw Hj G. cbn [compute]. unfold adx_pos, adx_neg.
  destruct (adx_run _ _ _ w) as [st|] eqn:E; cbn [bind]; [|split; split; intros; discriminate].
  destruct (adx_trs_gap w rows st j Hw Hj E G) as (L1 & L2 & L3 & H1 & N).
  assert (Rp : missing_from j (adx_line (length (map b_close rows)) (Z.to_nat w) (adx_dip st) (adx_trs st))) by (apply adx_line_gap; rewrite ?map_length; auto; lia).
  assert (Rn : missing_from j (adx_line (length (map b_close rows)) (Z.to_nat w) (adx_din st) (adx_trs st))) by (apply adx_line_gap; rewrite ?map_length; auto; lia).
  split; split; intros out Eo; apply Ok_inj in Eo; rewrite <- Eo; auto; apply fill_stuck; auto; lia.
Qed.
Lemma adx_stuck : forall w rows j, (w < Z.of_nat j)%Z -> (j < length rows)%nat -> range_gap rows j ->
  stuck_from (Nat.max j (2 * Z.to_nat w - 1)) (fun fillna => compute (Adx w) fillna rows).
Proof.
  intros w rows j Hw Hj G. cbn [compute]. unfold adx.
  destruct (adx_run _ _ _ w) as [st|] eqn:E; cbn [bind]; [|split; intros; discriminate].
  destruct (adx_trs_gap w rows st j Hw Hj E G) as (L1 & L2 & L3 & H1 & N).
  rewrite L1. set (m := (length rows - Z.to_nat w + 1)%nat) in *.
  set (di := map2 adx_dx _ _). set (W := Z.to_nat w) in *.
  destruct (Nat.leb_spec m W); [split; intros; discriminate|].
  assert (Ld : length di = m) by (unfold di; rewrite !length_map2; lia).
  assert (Nd : forall k, (j - W <= k < m - 1)%nat -> nan (nth k di fnan)).
  { intros k Hk. unfold di. rewrite (nth_map2_lt _ _ _ _ _ fnan fnan) by (rewrite length_map2; lia). apply dx_dead.
    rewrite (nth_map2_lt _ _ _ _ _ fnan fnan) by lia. apply pct_dead, N. lia. }
  set (raw := repeat (#0) (W - 1) ++ _).
  assert (R : missing_from (Nat.max j (2 * W - 1)) raw).
  { intros i Hi. unfold raw in *. set (f := npmean (firstn W di)) in *.
    rewrite !app_length, !repeat_length in Hi. cbn [length] in Hi.
    assert (Lg : forall xs p, length (adx_go (fofnat W) p xs) = length xs) by (induction xs; intros; cbn [adx_go length]; auto).
    rewrite Lg, firstn_length, skipn_length in Hi.
    rewrite app_nth2 by (rewrite repeat_length; lia). rewrite app_nth2 by (rewrite !repeat_length; lia). rewrite !repeat_length.
    destruct (Nat.lt_ge_cases (j - W) W) as [C|C].
    - assert (Nf : nan f).
      { unfold f, npmean. apply div_nan_l. apply (sum_nan _ (j - W)); [rewrite firstn_length; lia|]. rewrite nth_firstn_lt by lia. apply Nd. lia. }
      destruct (i - (W - 1) - W) as [|t]; [exact Nf|]. cbn [nth]. now apply adx_go_dead.
    - replace (i - (W - 1) - W) with (S (i - 2 * W)) by lia. cbn [nth]. apply (adx_go_from _ _ _ (j - 2 * W)); [|lia].
      rewrite nth_firstn_lt by lia. rewrite nth_skipn'. apply Nd. lia. }
  split; intros out Eo; apply Ok_inj in Eo; rewrite <- Eo; auto. apply fill_stuck; auto; lia.
Qed.

(** ** PSAR with a missing first high *)
Lemma nth_upd_same : forall (s : list F) i v, (i < length s)%nat -> nth i (upd i v s) fnan = v.
Proof. induction s; intros [|i] v H; cbn [length upd nth] in *; try lia; auto. apply IHs. lia. Qed.
Lemma nth_upd_other : forall (s : list F) i k v, i <> k -> nth k (upd i v s) fnan = nth k s fnan.
Proof. induction s; intros [|i] [|k] v H; cbn [upd nth]; auto; try lia. Qed.
Lemma len_upd : forall (s : list F) i v, length (upd i v s) = length s.
Proof. induction s; intros [|i] v; cbn [upd length]; auto. Qed.
Definition lost (n i : nat) (st : psar_state) : Prop :=
  ps_up_trend st = true /\ nan (ps_uth st) /\ length (ps_psar st) = n /\
  (forall k, (2 <= k < i)%nat -> nan (nth k (ps_psar st) fnan)) /\
  (forall k, nan (nth k (ps_up st) fnan)) /\ (forall k, nan (nth k (ps_down st) fnan)) /\
  length (ps_up st) = n /\ length (ps_down st) = n.
Lemma lost_step : forall high low step mx n i st, (2 <= i < n)%nat -> lost n i st -> lost n (S i) (psar_step high low step mx st i).
Proof.
  intros high low step mx n i st Hi (U & N & Lp & P & Up & Dn & Lu & Ld). unfold psar_step. rewrite U. set (p := nth (i - 1) (ps_psar st) fnan).
  assert (V : nan (p +. ps_af st **. (ps_uth st -. p))) by (apply add_nan_r, mul_nan_r, sub_nan_l; auto).
  set (v := p +. ps_af st **. (ps_uth st -. p)) in *.
  rewrite (ltb_nan_r (nth i low fnan) v V), (ltb_nan_l _ (nth i high fnan) N), !(ltb_nan_r _ v V). cbn [xorb].
  assert (C : nth i (upd i v (ps_psar st)) fnan = v) by (apply nth_upd_same; lia).
  repeat split; cbn [ps_up_trend ps_uth ps_psar ps_up ps_down]; auto.
  - now rewrite len_upd.
  - intros k Hk. destruct (Nat.eq_dec i k) as [<-|]; [rewrite C; exact V|]. rewrite nth_upd_other by auto. apply P. lia.
  - intros k. rewrite C. destruct (Nat.eq_dec i k) as [<-|]; [rewrite nth_upd_same by lia; exact V|]. now rewrite nth_upd_other by auto.
  - now rewrite len_upd.
Qed.
Lemma lost_run : forall high low close labels step mx st, nan (nth 0 high fnan) -> psar_run high low close labels step mx = Ok st ->
  lost (length close) (Nat.max 2 (length close)) st.
Proof.
  intros high low close labels step mx st H E. unfold psar_run in E. destruct high as [|x high]; [discriminate|]. injection E as <-.
  set (hs := x :: high) in *.
  assert (I : lost (length close) 2 (psar_init hs low close labels step)).
  { unfold psar_init. repeat split; cbn [ps_up_trend ps_uth ps_psar ps_up ps_down]; auto; try lia;
      intros; rewrite ?nth_repeat_any; rewrite ?repeat_length; auto using isnan_nan. }
  assert (G : forall m a st, (2 <= a)%nat -> (a + m <= length close \/ m = 0)%nat -> lost (length close) a st ->
    lost (length close) (a + m) (fold_left (psar_step hs low step mx) (seq a m) st)).
  { induction m; intros a s Ha Hm Hs; cbn [seq fold_left]; [now rewrite Nat.add_0_r|].
    replace (a + S m) with (S a + m) by lia. apply IHm; [lia|lia|]. apply lost_step; auto. lia. }
  replace (Nat.max 2 (length close)) with (2 + (length close - 2)) by lia. apply G; auto; lia.
Qed.
Lemma psar_stuck : forall b step mx rows, missing_cell b_high rows 0 ->
  stuck_from 2 (fun fillna => compute (Psar b step mx) fillna rows) /\
  (forall out, compute (PsarUp b step mx) false rows = Ok out -> missing_from 0 out) /\
  (forall out, compute (PsarDown b step mx) false rows = Ok out -> missing_from 0 out).
Proof.
  intros b step mx rows M. apply cell in M. destruct M as (Hn & N). cbn [compute]. unfold psar, psar_up, psar_down.
  destruct (psar_run _ _ _ _ step mx) as [st|] eqn:E; cbn [bind]; [|repeat split; intros; discriminate].
  destruct (lost_run _ _ _ _ _ _ _ N E) as (_ & _ & Lp & P & Up & Dn & Lu & Ld).
  assert (R : missing_from 2 (ps_psar st)) by (intros k Hk; apply P; lia).
  split; [|split]; [split|..]; intros out Eo; apply Ok_inj in Eo; rewrite <- Eo; auto.
  - apply fill_stuck_back; auto.
  - intros k _. apply Up.
  - intros k _. apply Dn.
Qed.

(** ** OBV counts a missing close as a rise *)
Lemma cumsum_step : forall (s : list F) acc i, (S i < length s)%nat -> fisnan (nth i s fnan) = false -> fisnan (nth (S i) s fnan) = false ->
  nth (S i) (cumsum_go acc s) fnan = nth i (cumsum_go acc s) fnan +. nth (S i) s fnan.
Proof.
  induction s as [|x s IH]; intros acc i Hi H H'; cbn [length] in *; [lia|]. destruct i as [|i].
  - destruct s as [|y s]; [cbn in Hi; lia|]. cbn [nth] in *. cbn [cumsum_go]. rewrite H. cbn [nth cumsum_go]. now rewrite H'.
  - cbn [nth] in H, H'. cbn [cumsum_go]. destruct (fisnan x); cbn [nth]; apply IH; auto; lia.
Qed.
Lemma obv_rise : forall rows out j, compute Obv false rows = Ok out -> missing_cell b_close rows j ->
  forall i, (i = j \/ i = S j) -> (1 <= i < length rows)%nat ->
  fisnan (nth (i - 1) (map b_volume rows) fnan) = false -> fisnan (nth i (map b_volume rows) fnan) = false ->
  nth i out fnan = nth (i - 1) out fnan +. nth i (map b_volume rows) fnan.
Proof.
  intros rows out j E M i Hi Hn V V'. apply cell in M. destruct M as (Hj & N). cbn [compute] in E. unfold on_balance_volume in E. apply Ok_inj in E.
  cbn [check_fillna] in E. subst out. destruct i as [|i]; [lia|]. cbn [Nat.sub] in *. rewrite Nat.sub_0_r in *.
  set (c := map b_close rows) in *. set (v := map b_volume rows) in *.
  assert (Lc : length c = length rows) by apply map_length. assert (Lv : length v = length rows) by apply map_length. assert (Ls := len_shift1 c).
  unfold cumsum. set (sg := map3 _ c (shift 1 c) v).
  assert (Lg : length sg = length rows).
  { unfold sg. assert (X : forall {B C D E} (g : B -> C -> D -> E) l m n, length m = length l -> length n = length l -> length (map3 g l m n) = length l).
    { induction l as [|x l IH]; intros [|y m] [|z n] Lm Ln; cbn in *; try discriminate; auto. }
    rewrite X; lia. }
  assert (Sg : forall k, (k < length rows)%nat -> nth k sg fnan = if nth k c fnan <.? nth k (shift 1 c) fnan then fopp (nth k v fnan) else nth k v fnan).
  { intros k Hk. unfold sg. now rewrite (nth_map3_lt _ _ _ _ _ _ fnan fnan fnan) by lia. }
  assert (U : nth (S i) sg fnan = nth (S i) v fnan).
  { rewrite Sg by lia. destruct Hi as [<-|Hi]; [now rewrite ltb_nan_l by auto|]. assert (i = j) by lia. subst i.
    rewrite ltb_nan_r; auto. rewrite nth_shift1 by lia. cbn [Nat.sub]. now rewrite Nat.sub_0_r. }
  rewrite cumsum_step; [now rewrite U|lia| |now rewrite U].
  rewrite Sg by lia. destruct (_ <.? _); rewrite ?opp_nan; auto.
Qed.

(** ** NVI never comes back from a missing value *)
Lemma nvi_dead : forall (ch vp v : list F) prev, nan prev -> forall i, nan (nth i (nvi_go prev ch vp v) fnan).
Proof.
  induction ch as [|p ch IH]; intros vp v prev H i; [destruct i; apply isnan_nan|].
  destruct vp as [|q vp], v as [|x v]; try (destruct i; apply isnan_nan). cbn [nvi_go].
  assert (N : nan (if x <.? q then prev **. (#1 +. p) else prev)) by (destruct (x <.? q); auto; now apply mul_nan_l).
  destruct i; [exact N|]. now apply IH.
Qed.
Lemma nvi_dead_from : forall (ch vp v : list F) prev j, nan (nth j (nvi_go prev ch vp v) fnan) ->
  forall i, (j <= i)%nat -> nan (nth i (nvi_go prev ch vp v) fnan).
Proof.
  induction ch as [|p ch IH]; intros vp v prev j H i Hi; [destruct i; apply isnan_nan|].
  destruct vp as [|q vp], v as [|x v]; try (destruct i; apply isnan_nan). cbn [nvi_go] in *. destruct j as [|j].
  - cbn [nth] in H. destruct i; [exact H|]. cbn [nth]. now apply nvi_dead.
  - destruct i as [|i]; [lia|]. cbn [nth] in *. apply (IH _ _ _ j); auto. lia.
Qed.
Lemma nvi_stuck : forall rows out j, compute Nvi false rows = Ok out -> fisnan (nth j out fnan) = true ->
  stuck_from j (fun fillna => compute Nvi fillna rows).
Proof.
  intros rows out j. cbn [compute]. unfold negative_volume_index. destruct (map b_close rows) as [|c0 c]; [discriminate|].
  set (s := #1000 :: _). intros E H. apply Ok_inj in E. cbn [check_fillna] in E. subst out.
  destruct j as [|j]; [unfold s in H; cbn [nth] in H; rewrite isnan_small in H by lia; discriminate|].
  assert (R : missing_from (S j) s).
  { intros i Hi. unfold s in *. destruct i as [|i]; [lia|]. cbn [nth] in *. apply (nvi_dead_from _ _ _ _ j); auto. lia. }
  split; intros out E; apply Ok_inj in E; rewrite <- E; [exact R|]. apply fill_stuck; auto; lia.
Qed.
End Stuck.

(** ** A zero price in exact arithmetic *)
From Verif Require Import SpecNum Align Rows Fill Tab Averages Flows.
Local Open Scope R_scope.
Definition notfin (x : xr) : Prop := forall r, x <> Fin r.
Lemma cumsum_lost : forall (s : list xr) acc, notfin acc -> forall i, notfin (nth i (cumsum_go acc s) NaN).
Proof.
  induction s as [|x s IH]; intros acc H i; [destruct i; intros r E; discriminate|]. cbn [cumsum_go]. destruct (fisnan x).
  - destruct i; [intros r E; discriminate|]. now apply IH.
  - assert (N : notfin (acc +. x)%F) by (intros r; destruct acc, x; cbn; try discriminate; intros E; apply (H r0 eq_refl)).
    destruct i; [exact N|]. now apply IH.
Qed.
Lemma cumsum_lost_from : forall (s : list xr) acc j, (nth j s NaN = PInf \/ nth j s NaN = NInf) ->
  forall i, (j <= i)%nat -> notfin (nth i (cumsum_go acc s) NaN).
Proof.
  induction s as [|x s IH]; intros acc j H i Hi; [destruct i; intros r E; discriminate|]. cbn [cumsum_go]. destruct j as [|j].
  - cbn [nth] in H. assert (Nx : fisnan x = false) by (destruct H as [->| ->]; reflexivity). rewrite Nx.
    assert (N : notfin (acc +. x)%F) by (intros r; destruct H as [->| ->], acc; cbn; discriminate).
    destruct i; [exact N|]. now apply cumsum_lost.
  - destruct i as [|i]; [lia|]. cbn [nth] in *. destruct (fisnan x); cbn [nth]; apply (IH _ j); auto; lia.
Qed.
Lemma pct_any : forall n c, pct_change (tab n (from 0 c)) = tab n (fromx 1 (fun i => xsub (ratio (c i) (c (i - 1)%nat)) (Fin 1))).
Proof.
  intros n c. unfold pct_change. replace (ffill (tab n (from 0 c))) with (tab n (from 0 c)) by (symmetry; apply ffill_fin).
  rewrite shift1_from, sdiv_from. unfold subs, tab. rewrite map_map. apply map_ext. intros i. unfold fromx. destruct (i <? _)%nat; reflexivity.
Qed.
Lemma vpt_zero : forall n h l c v j, (S j < n)%nat -> c j = 0 -> c (S j) <> 0 -> v (S j) <> 0 ->
  (forall out, compute (Vpt None false) false (frame n h l c v) = Ok out -> forall i, (j < i)%nat -> forall r, nth i out NaN <> Fin r) /\
  (forall out, compute (Vpt None false) true (frame n h l c v) = Ok out -> frozen_from (S j) out).
Proof.
  intros n h l c v j Hn Hc Hc' Hv. cbn [compute]. cols. unfold volume_price_trend. cbn [bind]. rewrite pct_any.
  set (s := smul _ _).
  assert (I : nth (S j) s NaN = PInf \/ nth (S j) s NaN = NInf).
  { unfold s, smul. rewrite (nth_map2_lt _ _ _ _ _ NaN NaN) by (unfold tab; rewrite map_length, seq_length; lia).
    rewrite !nth_tab by lia. unfold fromx, from. cbn [Nat.ltb Nat.leb Nat.sub fromx]. rewrite Nat.sub_0_r, Hc. unfold ratio.
    destruct (Req_EM_T 0 0); [|lra]. destruct (Rlt_dec 0 (c (S j))); [|destruct (Rlt_dec (c (S j)) 0); [|lra]]; cbn;
      unfold rsign; destruct (Rlt_dec 0 (v (S j))); [left|right|right|left]; auto; destruct (Rlt_dec (v (S j)) 0); auto; lra. }
  assert (N : forall i, (j < i)%nat -> notfin (nth i (cumsum s) NaN)) by (intros i Hi; apply (cumsum_lost_from s _ (S j)); auto).
  split; intros out E; apply Ok_inj in E; rewrite <- E; [exact N|]. apply (fill_stuck_inf (A := XR)); [lia|lia|].
  intros i Hi. unfold replace_inf in *. rewrite map_length in Hi. rewrite (nth_map_lt _ _ _ _ NaN) by lia. specialize (N i ltac:(lia)).
  destruct (nth i (cumsum s) NaN); cbn; auto. exfalso. now apply (N r).
Qed.
Definition zero_or_missing (x : xr) : Prop := x = Fin 0 \/ x = NaN.
Lemma mul_zom_l : forall x y, zero_or_missing x -> zero_or_missing (xmul x y).
Proof.
  intros x y [->| ->]; [|right; destruct y; reflexivity]. destruct y; cbn; unfold rsign; try (right; reflexivity);
    try (destruct (Rlt_dec 0 0); [lra|]; right; reflexivity). left. f_equal. lra.
Qed.
Lemma mul_zom_r : forall x y, zero_or_missing y -> zero_or_missing (xmul x y).
Proof.
  intros x y [->| ->]; [|right; destruct x; reflexivity]. destruct x; cbn; unfold rsign; try (right; reflexivity);
    try (destruct (Rlt_dec 0 0); [lra|]; right; reflexivity). left. f_equal. lra.
Qed.
Lemma nvi_zom : forall (ch vp v : list xr) prev, zero_or_missing prev -> forall i, zero_or_missing (nth i (nvi_go prev ch vp v) NaN).
Proof.
  induction ch as [|p ch IH]; intros vp v prev H i; [destruct i; right; reflexivity|].
  destruct vp as [|q vp], v as [|x v]; try (destruct i; right; reflexivity). cbn [nvi_go].
  match goal with |- context [nvi_go ?y _ _ _] => set (y0 := y) end.
  assert (N : zero_or_missing y0) by (unfold y0; destruct (_ <.? _)%F; auto; now apply mul_zom_l).
  destruct i; [exact N|]. now apply IH.
Qed.
Lemma nvi_zom_from : forall (ch vp v : list xr) prev j, (j < length v)%nat -> (j < length vp)%nat -> fltb (nth j v NaN) (nth j vp NaN) = true ->
  zero_or_missing (xadd (Fin 1) (nth j ch NaN)) -> forall i, (j <= i)%nat -> zero_or_missing (nth i (nvi_go prev ch vp v) NaN).
Proof.
  induction ch as [|p ch IH]; intros vp v prev j Hv Hp Hlt H i Hi; [destruct i; right; reflexivity|].
  destruct vp as [|q vp], v as [|x v]; try (destruct i; right; reflexivity). cbn [nvi_go length] in *. destruct j as [|j].
  - cbn [nth] in H, Hlt. rewrite Hlt. destruct i; [now apply mul_zom_r|]. cbn [nth]. apply nvi_zom. now apply mul_zom_r.
  - destruct i as [|i]; [lia|]. cbn [nth] in *. apply (IH _ _ _ j); auto; lia.
Qed.
Lemma nvi_zero : forall n h l c v j out, (1 <= j < n)%nat -> c j = 0 -> v j < v (j - 1)%nat ->
  compute Nvi false (frame n h l c v) = Ok out -> forall i, (j <= i)%nat -> zero_or_missing (nth i out NaN).
Proof.
  intros n h l c v j out Hj Hc Hv. cbn [compute]. cols. unfold negative_volume_index. rewrite pct_any.
  destruct n as [|n]; [lia|]. rewrite !seq_tl. 
  assert (E : exists r, tab (S n) (from 0 c) = Fin (c 0%nat) :: r) by (eexists; reflexivity). destruct E as (r & E). rewrite E.
  intros O i Hi. apply Ok_inj in O. cbn [check_fillna] in O. subst out. destruct j as [|j]; [lia|]. destruct i as [|i]; [lia|]. cbn [nth Nat.sub] in *. rewrite Nat.sub_0_r in *.
  apply (nvi_zom_from _ _ _ _ j); try lia; rewrite ?map_length, ?seq_length; unfold tab; rewrite ?map_length, ?seq_length; try lia.
  - rewrite !(nth_map_lt _ _ _ _ 0%nat) by (rewrite seq_length; lia). rewrite !seq_nth by lia. cbn. destruct (Rlt_dec _ _); auto.
  - rewrite !(nth_map_lt _ _ _ _ 0%nat) by (rewrite seq_length; lia). rewrite !seq_nth by lia.
    unfold fromx. cbn [Nat.add Nat.ltb Nat.leb Nat.sub]. rewrite Nat.sub_0_r, Hc. unfold ratio. destruct (Req_EM_T (c j) 0).
    + destruct (Rlt_dec 0 0); [lra|]. right. reflexivity.
    + left. cbn. f_equal. field. auto.
Qed.
