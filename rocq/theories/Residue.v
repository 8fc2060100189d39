(** * Residue: what pandas' running updates leave behind in binary64 (C93). *)
From Coq Require Import Floats.
From Verif Require Import Lists Api FloatArith Samples Align Rows Running SpecResidue.

Section Tail.
Context {F : Type} {A : Arith F}.
Lemma run_go_app : forall S put take (st : S) g1 (s1 : list F) g2 s2, length g1 = length s1 ->
  run_go put take st (g1 ++ g2) (s1 ++ s2) =
  run_go put take st g1 s1 ++ run_go put take (last (run_go put take st g1 s1) st) g2 s2.
Proof.
  intros S put take st g1. revert st. induction g1 as [|g g1 IH]; intros st [|x s1] g2 s2 L; try discriminate; [reflexivity|].
  cbn [app run_go]. rewrite IH by now injection L. cbn [app]. f_equal. f_equal. f_equal.
  destruct (run_go put take (put x (take g st)) g1 s1) as [|y r] eqn:E; [reflexivity|].
  cbn [last]. generalize y. clear. induction r as [|z r IH]; intros y; [reflexivity|]. cbn [last]. apply (IH z).
Qed.
Lemma run_go_still : forall S put take (q : S) (c : F) n, put c (take c q) = q -> run_go put take q (repeat c n) (repeat c n) = repeat q n.
Proof. intros S put take q c n H. induction n; cbn [repeat run_go]; [reflexivity|]. now rewrite H, IHn. Qed.
Lemma firstn_app_le : forall {B} (a b : list B) n, (n <= length a)%nat -> firstn n (a ++ b) = firstn n a.
Proof. intros. rewrite firstn_app. replace (n - length a)%nat with 0%nat by lia. cbn [firstn]. now rewrite app_nil_r. Qed.
Lemma repeat_plus : forall {B} (c : B) m n, repeat c (m + n) = repeat c m ++ repeat c n.
Proof. intros. apply repeat_app. Qed.
Lemma gone_tail : forall w (pre : list F) c n,
  shift (Z.of_nat w) (pre ++ repeat c (w + n)) = (repeat fnan w ++ pre) ++ repeat c n.
Proof.
  intros w pre c n. unfold shift. set (s := pre ++ repeat c (w + n)).
  assert (Ls : length s = (length pre + (w + n))%nat) by (unfold s; now rewrite app_length, repeat_length).
  apply list_eq_nth with fnan; [rewrite len_shift_fill, !app_length, !repeat_length; lia|].
  rewrite len_shift_fill, Ls. intros i Hi. destruct (Nat.lt_ge_cases i w) as [H|H].
  - rewrite nth_shift_fill_lt by lia. rewrite <- app_assoc, app_nth1 by (rewrite repeat_length; lia). symmetry. apply nth_repeat.
  - rewrite nth_shift_fill_ge by lia. rewrite Nat2Z.id, <- app_assoc, app_nth2, repeat_length by (rewrite repeat_length; lia).
    unfold s. destruct (Nat.lt_ge_cases (i - w) (length pre)).
    + now rewrite !app_nth1 by lia.
    + rewrite !app_nth2 by lia. rewrite (nth_indep (repeat c (w + n)) fnan c) by (rewrite repeat_length; lia).
      rewrite (nth_indep (repeat c n) fnan c) by (rewrite repeat_length; lia). now rewrite !nth_repeat.
Qed.
(** the state no longer changes once a constant has filled the window and the
    update with that constant leaves it alone *)
Lemma run_tail : forall S put take (st q : S) w (pre : list F) c n,
  last (run_go put take st (repeat fnan w ++ pre) (pre ++ repeat c w)) st = q -> put c (take c q) = q ->
  forall i d, (length pre + w <= i < length pre + (w + n))%nat -> nth i (run put take st w (pre ++ repeat c (w + n))) d = q.
Proof.
  intros S put take st q w pre c n E H i d Hi. unfold run. rewrite gone_tail, repeat_plus, app_assoc.
  rewrite run_go_app by (rewrite !app_length, !repeat_length; lia). rewrite E, run_go_still by exact H.
  assert (L : length (run_go put take st (repeat fnan w ++ pre) (pre ++ repeat c w)) = (length pre + w)%nat).
  { assert (G : forall g (s : list F) st, length g = length s -> length (run_go put take st g s) = length s).
    { induction g as [|x g IH]; intros [|y s] st0 L0; try discriminate; [reflexivity|]. cbn [run_go length]. f_equal. apply IH. now injection L0. }
    rewrite G; rewrite !app_length, !repeat_length; lia. }
  rewrite app_nth2 by lia. rewrite (nth_indep _ d q), nth_repeat by (rewrite repeat_length; lia). reflexivity.
Qed.
Lemma window_tail : forall w (pre : list F) c n i, (length pre + w <= S i)%nat -> (i < length pre + (w + n))%nat ->
  window_at w i (pre ++ repeat c (w + n)) = repeat c w.
Proof.
  intros w pre c n i H1 H2. unfold window_at. rewrite firstn_app, skipn_app, firstn_length.
  rewrite (skipn_all2 (firstn _ pre)) by (rewrite firstn_length; lia). cbn [app].
  replace (firstn (S i - length pre) (repeat c (w + n))) with (repeat c (S i - length pre)).
  2:{ replace (w + n)%nat with (S i - length pre + (w + n - (S i - length pre)))%nat by lia. rewrite repeat_plus.
      rewrite firstn_app_le by (rewrite repeat_length; lia). rewrite firstn_all2 by (rewrite repeat_length; lia). reflexivity. }
  replace (S i - length pre)%nat with (S i - w - Nat.min (S i) (length pre) + w)%nat at 1 by lia.
  rewrite repeat_plus, skipn_app, skipn_all2 by (rewrite repeat_length; lia). rewrite repeat_length, Nat.sub_diag. reflexivity.
Qed.
(** rolling sums, means and deviations over such a tail *)
Definition plain (l : list F) : bool := forallb (fun x => negb (fisinf x)) l.
Lemma plain_prep : forall l, plain l = true -> prep l = l.
Proof.
  induction l as [|x l IH]; intros H; [reflexivity|]. cbn in H. apply andb_prop in H as [H1 H2]. cbn [prep map].
  destruct (fisinf x); [discriminate|]. f_equal. now apply IH.
Qed.
Lemma plain_app : forall a b, plain (a ++ b) = (plain a && plain b)%bool. Proof. intros. apply forallb_app. Qed.
Lemma plain_repeat : forall c n, fisinf c = false -> plain (repeat c n) = true.
Proof. intros c n H. induction n; cbn; auto. now rewrite H. Qed.
Definition row_of (agg : aggregation) (m : nat) (o : list F) (qs : ksum) (qv : kvar) : F :=
  match agg with agg_sum => calc_sum m o qs | agg_mean => calc_mean m o qs | agg_std0 => calc_std0 m o qv | by_window g => g m o end.
Definition settled {S} (put take : F -> S -> S) (st : S) (w : nat) (pre : list F) (c : F) (q : S) : Prop :=
  last (run_go put take st (repeat fnan w ++ pre) (pre ++ repeat c w)) st = q /\ put c (take c q) = q.
Lemma obs_same : forall c n, fisnan c = false -> obs (repeat c n) = repeat c n.
Proof. intros c n H. unfold obs. induction n; cbn; auto. now rewrite H, IHn. Qed.
Lemma sum_tail : forall w pre c n q, plain pre = true -> fisinf c = false -> fisnan c = false -> settled sum_put sum_take sum_start w pre c q ->
  exists r, rolling (Z.of_nat w) (Z.of_nat w) agg_sum (pre ++ repeat c n) = Ok r /\ length r = length (pre ++ repeat c n) /\
    forall i d, (length pre + w <= i < length pre + n)%nat -> nth i r d = calc_sum w (repeat c w) q.
Proof.
  intros w pre c n q P1 P2 P3 [E1 E2]. set (s := pre ++ repeat c n).
  assert (P : prep s = s) by (apply plain_prep; unfold s; now rewrite plain_app, P1, plain_repeat).
  eexists. split; [apply rolling_ok; lia|]. assert (R := rolling_ok (Z.of_nat w) (Z.of_nat w) agg_sum s ltac:(lia)).
  split; [exact (len_rolling _ _ _ _ _ R)|]. intros i d Hi. rewrite (nth_rolling_row _ _ _ _ _ i d R) by (unfold s; rewrite app_length, repeat_length; lia).
  rewrite P, Nat2Z.id. cbn [calc_row]. unfold s. replace n with (w + (n - w))%nat by lia.
  rewrite window_tail, obs_same by (auto || lia). now rewrite (run_tail _ _ _ _ q) by (auto || lia).
Qed.
Lemma mean_tail : forall w pre c n q, plain pre = true -> fisinf c = false -> fisnan c = false -> settled sum_put sum_take sum_start w pre c q ->
  exists r, rolling (Z.of_nat w) (Z.of_nat w) agg_mean (pre ++ repeat c n) = Ok r /\ length r = length (pre ++ repeat c n) /\
    forall i d, (length pre + w <= i < length pre + n)%nat -> nth i r d = calc_mean w (repeat c w) q.
Proof.
  intros w pre c n q P1 P2 P3 [E1 E2]. set (s := pre ++ repeat c n).
  assert (P : prep s = s) by (apply plain_prep; unfold s; now rewrite plain_app, P1, plain_repeat).
  eexists. split; [apply rolling_ok; lia|]. assert (R := rolling_ok (Z.of_nat w) (Z.of_nat w) agg_mean s ltac:(lia)).
  split; [exact (len_rolling _ _ _ _ _ R)|]. intros i d Hi. rewrite (nth_rolling_row _ _ _ _ _ i d R) by (unfold s; rewrite app_length, repeat_length; lia).
  rewrite P, Nat2Z.id. cbn [calc_row]. unfold s. replace n with (w + (n - w))%nat by lia.
  rewrite window_tail, obs_same by (auto || lia). now rewrite (run_tail _ _ _ _ q) by (auto || lia).
Qed.
Lemma std_tail : forall w pre c n q, plain pre = true -> fisinf c = false -> fisnan c = false -> settled var_put var_take var_start w pre c q ->
  exists r, rolling (Z.of_nat w) (Z.of_nat w) agg_std0 (pre ++ repeat c n) = Ok r /\ length r = length (pre ++ repeat c n) /\
    forall i d, (length pre + w <= i < length pre + n)%nat -> nth i r d = calc_std0 w (repeat c w) q.
Proof.
  intros w pre c n q P1 P2 P3 [E1 E2]. set (s := pre ++ repeat c n).
  assert (P : prep s = s) by (apply plain_prep; unfold s; now rewrite plain_app, P1, plain_repeat).
  eexists. split; [apply rolling_ok; lia|]. assert (R := rolling_ok (Z.of_nat w) (Z.of_nat w) agg_std0 s ltac:(lia)).
  split; [exact (len_rolling _ _ _ _ _ R)|]. intros i d Hi. rewrite (nth_rolling_row _ _ _ _ _ i d R) by (unfold s; rewrite app_length, repeat_length; lia).
  rewrite P, Nat2Z.id. cbn [calc_row]. unfold s. replace n with (w + (n - w))%nat by lia.
  rewrite window_tail, obs_same by (auto || lia). now rewrite (run_tail _ _ _ _ q) by (auto || lia).
Qed.
End Tail.

(** ** columns of such frames *)
Lemma cols : forall l i, map b_high (bars_from i l) = map (fun r => fst (fst (fst r))) l /\ map b_low (bars_from i l) = map (fun r => snd (fst (fst r))) l /\
  map b_close (bars_from i l) = map (fun r => snd (fst r)) l /\ map b_volume (bars_from i l) = map snd l.
Proof.
  induction l as [|[[[h lo] c] v] l IH]; intros i; [repeat split|]. destruct (IH (i + 1)%Z) as (E1 & E2 & E3 & E4).
  cbn [bars_from map b_high b_low b_close b_volume fst snd]. rewrite E1, E2, E3, E4. repeat split.
Qed.
Lemma len_bars : forall l i, length (bars_from i l) = length l.
Proof. induction l as [|[[[h lo] c] v] l IH]; intros i; [reflexivity|]. cbn. now rewrite IH. Qed.
Lemma map_rep : forall {B C} (f : B -> C) b n, map f (repeat b n) = repeat (f b) n.
Proof. intros. induction n; cbn; congruence. Qed.
Lemma map2_map : forall {B C D E} (f : C -> D -> E) (g : B -> C) (h : B -> D) l, map2 f (map g l) (map h l) = map (fun x => f (g x) (h x)) l.
Proof. intros. induction l; cbn [map map2]; congruence. Qed.
Ltac column := unfold then_still, clv, fillna_const, sadd, ssub, smul, sdiv, divs, muls;
  repeat match goal with |- context [map b_high (bars_from 0 ?l)] => rewrite (proj1 (cols l 0)) | |- context [map b_low (bars_from 0 ?l)] => rewrite (proj1 (proj2 (cols l 0)))
  | |- context [map b_close (bars_from 0 ?l)] => rewrite (proj1 (proj2 (proj2 (cols l 0)))) | |- context [map b_volume (bars_from 0 ?l)] => rewrite (proj2 (proj2 (proj2 (cols l 0)))) end;
  rewrite ?map2_map, ?map_map, ?map2_map, ?map_map, ?map2_map, ?map_map, ?map2_map, ?map_map.
Lemma nth_quot : forall (a b : list float) x y i, length a = length b -> (i < length a)%nat -> nth i a nan = x -> nth i b nan = y ->
  nth i (sdiv a b) nan = (x /. y)%F.
Proof. intros a b x y i L Hi <- <-. unfold sdiv. now rewrite nth_map2 with (da := nan) (db := nan) by lia. Qed.

Definition sum_state (w : nat) (pre : list float) (c : float) : ksum := last (run_go sum_put sum_take sum_start (repeat nan w ++ pre) (pre ++ repeat c w)) sum_start.
Definition var_state (w : nat) (pre : list float) (c : float) : kvar := last (run_go var_put var_take var_start (repeat nan w ++ pre) (pre ++ repeat c w)) var_start.
Ltac by_vm := vm_compute; reflexivity.
Ltac settle := split; by_vm.

Lemma sma_residue : shows_for_ever (Sma 2) [tick 1; tick 9007199254740994] (tick 3) 4 2%float.
Proof.
  intros n. cbn [compute]. unfold sma_indicator, sma_. column. rewrite map_app, map_rep. cbn [map fst snd tick minp_of].
  destruct (mean_tail (A := FloatA) 2 [1; 9007199254740994]%float 3%float n (sum_state 2 [1; 9007199254740994]%float 3%float)
    ltac:(by_vm) ltac:(by_vm) ltac:(by_vm) ltac:(settle)) as (r & E & L & H).
  change (Z.of_nat 2) with 2%Z in E. rewrite E. cbn [check_fillna bind]. eexists. split; [reflexivity|].
  intros i Hi. rewrite len_bars, app_length, repeat_length in Hi. cbn [length] in Hi. rewrite H by (cbn [length]; lia). by_vm.
Qed.
Lemma vwap_residue : shows_for_ever (Vwap 2) [(11, 9, 10, 1); (11, 9, 10, 9007199254740994)]%float (11, 9, 10, 3)%float 4 15%float.
Proof.
  intros n. cbn [compute]. unfold volume_weighted_average_price. column. rewrite !map_app, !map_rep. cbn [map fst snd minp_of].
  match goal with |- context [rolling 2 2 agg_sum (?p ++ repeat ?c n)] =>
    destruct (sum_tail (A := FloatA) 2 p c n (sum_state 2 p c) ltac:(by_vm) ltac:(by_vm) ltac:(by_vm) ltac:(settle)) as (r1 & E1 & L1 & H1) end.
  change (Z.of_nat 2) with 2%Z in E1. rewrite E1. cbn [bind].
  match goal with |- context [rolling 2 2 agg_sum (?p ++ repeat ?c n)] =>
    destruct (sum_tail (A := FloatA) 2 p c n (sum_state 2 p c) ltac:(by_vm) ltac:(by_vm) ltac:(by_vm) ltac:(settle)) as (r2 & E2 & L2 & H2) end.
  change (Z.of_nat 2) with 2%Z in E2. rewrite E2. cbn [bind check_fillna]. eexists. split; [reflexivity|].
  intros i Hi. rewrite len_bars in Hi. rewrite app_length, repeat_length in *. cbn [length] in *.
  change (map2 fdiv r1 r2) with (sdiv r1 r2). erewrite nth_quot; [| |lia|apply H1; lia|apply H2; lia]; [|lia]. by_vm.
Qed.
Lemma cmf_residue : shows_for_ever (Cmf 2) [(11, 9, 9, 1); (11, 9, 10, 9007199254740994)]%float (11, 9, 11, 3)%float 4 1.5%float.
Proof.
  intros n. cbn [compute]. unfold chaikin_money_flow. column. rewrite !map_app, !map_rep. cbn [map fst snd minp_of].
  match goal with |- context [rolling 2 2 agg_sum (?p ++ repeat ?c n)] =>
    destruct (sum_tail (A := FloatA) 2 p c n (sum_state 2 p c) ltac:(by_vm) ltac:(by_vm) ltac:(by_vm) ltac:(settle)) as (r1 & E1 & L1 & H1) end.
  change (Z.of_nat 2) with 2%Z in E1. rewrite E1. cbn [bind].
  match goal with |- context [rolling 2 2 agg_sum (?p ++ repeat ?c n)] =>
    destruct (sum_tail (A := FloatA) 2 p c n (sum_state 2 p c) ltac:(by_vm) ltac:(by_vm) ltac:(by_vm) ltac:(settle)) as (r2 & E2 & L2 & H2) end.
  change (Z.of_nat 2) with 2%Z in E2. rewrite E2. cbn [bind check_fillna]. eexists. split; [reflexivity|].
  intros i Hi. rewrite len_bars in Hi. rewrite app_length, repeat_length in *. cbn [length] in *.
  change (map2 fdiv r1 r2) with (sdiv r1 r2). erewrite nth_quot; [| |lia|apply H1; lia|apply H2; lia]; [|lia]. by_vm.
Qed.

(** ** Bollinger bands: 20 rows at 0.016, one at 1000000, then 0.016 again *)
Lemma bands_residue : forall n, exists hi lo, compute (BbH 5 2%float) false (then_still bad_tick (tick penny) n) = Ok hi /\
  compute (BbL 5 2%float) false (then_still bad_tick (tick penny) n) = Ok lo /\
  forall i, (86 <= i < length (then_still bad_tick (tick penny) n))%nat -> nth i hi nan = band_above /\ nth i lo nan = band_below.
Proof.
  intros n. cbn [compute]. unfold bollinger_hband, bollinger_lband, bollinger_run. column. rewrite !map_app, !map_rep. cbn [minp_of].
  set (p := map (fun r => snd (fst r)) bad_tick). change (snd (fst (tick penny))) with penny.
  destruct (mean_tail (A := FloatA) 5 p penny n (sum_state 5 p penny) ltac:(by_vm) ltac:(by_vm) ltac:(by_vm) ltac:(settle)) as (r1 & E1 & L1 & H1).
  destruct (std_tail (A := FloatA) 5 p penny n (var_state 5 p penny) ltac:(by_vm) ltac:(by_vm) ltac:(by_vm) ltac:(settle)) as (r2 & E2 & L2 & H2).
  change (Z.of_nat 5) with 5%Z in E1, E2. rewrite E1, E2. cbn [bind check_fillna bb_hband bb_lband].
  do 2 eexists. split; [reflexivity|]. split; [reflexivity|].
  intros i Hi. rewrite len_bars in Hi. rewrite app_length, repeat_length in *. change (length bad_tick) with 81%nat in *. change (length p) with 81%nat in *.
  unfold sadd, ssub, scal. rewrite !nth_map2 with (da := nan) (db := nan) by (rewrite ?map_length; lia).
  assert (M : nth i (map (fun x => (2%float **. x)%F) r2) nan = (2%float **. calc_std0 5 (repeat penny 5) (var_state 5 p penny))%F).
  { rewrite nth_indep with (d' := (2%float **. nan)%F) by (rewrite map_length; lia). rewrite (map_nth (fun x => (2%float **. x)%F)). now rewrite H2 by lia. }
  rewrite M, H1 by lia. split; by_vm.
Qed.

(** ** means keep the sign of the data *)
From Coq Require Import Reals Lra.
From Verif Require Import FloatReal.
Lemma sma_sign : forall w fillna rows out, positive_prices rows -> compute (Sma w) fillna rows = Ok out ->
  Forall (fun x => PrimFloat.ltb x 0 = false) out.
Proof.
  intros w fillna rows out H E. cbn [compute] in E. unfold sma_indicator, sma_ in E. set (c := map b_close rows) in *.
  assert (Hc : forall x, In x c -> PrimFloat.is_nan x = true \/ signbit x = false).
  { intros x Hx. apply in_map_iff in Hx as (b & <- & Hb). unfold positive_prices in H. rewrite Forall_forall in H. destruct (H b Hb) as [N|P]; [now left|right].
    change (fltb (fofZ 0) (b_close b) = true) in P. unfold signbit. rewrite val_ltb in P. rewrite val_ltb, val_eqb.
    rewrite (val_small 0) in * by lia. destruct (val (b_close b)); cbn [xltb xeqb] in *; try discriminate; auto.
    destruct (Rlt_dec _ _) as [L|]; [|discriminate]. destruct (Rlt_dec _ _); [lra|]. destruct (Req_EM_T _ _); [lra|]. reflexivity. }
  apply Forall_forall. intros y Hy. apply (In_nth _ _ nan) in Hy as (i & Hi & <-). rewrite (len_rolling _ _ _ _ _ E) in Hi.
  rewrite (nth_rolling_row _ _ _ _ _ _ _ E) by exact Hi. cbn [calc_row]. unfold calc_mean. set (o := obs _).
  destruct (_ || _)%bool; [reflexivity|].
  assert (Z : filter signbit o = []).
  { assert (Ho : forall x, In x o -> signbit x = false).
    { intros x Hx. unfold o, obs in Hx. apply filter_In in Hx as [Hx Nx]. unfold window_at in Hx.
      assert (S1 : forall k (l : list float), In x (skipn k l) -> In x l) by (intros k l; rewrite <- (firstn_skipn k l) at 2; intros; apply in_or_app; auto).
      assert (S2 : forall k (l : list float), In x (firstn k l) -> In x l) by (intros k l; rewrite <- (firstn_skipn k l) at 2; intros; apply in_or_app; auto).
      apply S1, S2 in Hx. unfold prep in Hx. apply in_map_iff in Hx as (z & Ez & Hz).
      destruct (fisinf z); [subst x; discriminate Nx|]. subst z. destruct (Hc x Hz) as [N|]; auto. change (fisnan x = true) in N. now rewrite N in Nx. }
    clearbody o. induction o as [|x o IH]; [reflexivity|]. cbn [filter]. rewrite (Ho x) by now left. apply IH. intros z Hz. apply Ho. now right. }
  rewrite Z. cbn [length]. cbv zeta. change (0 =? 0)%nat with true. cbn [andb].
  match goal with |- context [if fltb ?r ?z then _ else _] => destruct (fltb r z) eqn:L; [reflexivity|]; destruct (_ && _)%bool; [reflexivity|exact L] end.
Qed.
