(** * Directional: ADX, +DI and -DI on finite data (C34, C35). *)
From Verif Require Import Lists Api SpecNum Align Rows Fill Tab CausalAdx Averages Range Oscillators Returns TrueRange Bands Channels Flows Lines.
Local Open Scope R_scope.

Lemma npmax2_fin : forall x y : R, npmax2 (Fin x) (Fin y) = Fin (Rmax x y).
Proof. intros. unfold npmax2. cbn [fisnan XR xisnan]. apply fmax2_fin. Qed.
Lemma ddm_tab : forall n h l c, adx_ddm (tab n (from 0 h)) (tab n (from 0 l)) (tab n (from 0 c)) = tab n (from 1 (dm_range h l c)).
Proof.
  intros. unfold adx_ddm. rewrite shift1_from. unfold ssub. rewrite !map2_tab. apply tab_ext. intros [|i] _; [reflexivity|].
  unfold from, fromx. change (S i <? 1)%nat with false. change (S i <? 0)%nat with false. cbv iota.
 rewrite npmax2_fin, npmin2_fin. reflexivity.
Qed.
Lemma pdm_tab : forall n h l, adx_pdm (tab n (from 0 h)) (tab n (from 0 l)) = tab n (from 1 (dm_plus h l)).
Proof.
  intros. unfold adx_pdm. rewrite !shift1_from, !ssub_from, map2_tab. apply tab_ext. intros [|i] _; [reflexivity|].
  unfold from, fromx. cbn [Nat.max]. change (S i <? 1)%nat with false. cbv iota. unfold dm_plus.
  set (u := h (S i) - h (S i - 1)%nat). set (d := l (S i - 1)%nat - l (S i)).
  cbn [fltb XR xltb fofZ fmul xmul fabs xabs]. unfold Rmax. cbv zeta.
  destruct (Rlt_dec d u), (Rlt_dec 0 u), (Rle_dec 0 u); cbn [andb xmul xabs]; f_equal; try lra;
    rewrite ?Rmult_1_l, ?Rmult_0_l, ?Rabs_R0; try lra; rewrite Rabs_pos_eq; lra.
Qed.
Lemma ndm_tab : forall n h l, adx_ndm (tab n (from 0 h)) (tab n (from 0 l)) = tab n (from 1 (dm_minus h l)).
Proof.
  intros. unfold adx_ndm. rewrite !shift1_from, !ssub_from, map2_tab. apply tab_ext. intros [|i] _; [reflexivity|].
  unfold from, fromx. cbn [Nat.max]. change (S i <? 1)%nat with false. cbv iota. unfold dm_minus.
  set (u := h (S i) - h (S i - 1)%nat). set (d := l (S i - 1)%nat - l (S i)).
  cbn [fltb XR xltb fofZ fmul xmul fabs xabs]. unfold Rmax. cbv zeta.
  destruct (Rlt_dec u d), (Rlt_dec 0 d), (Rle_dec 0 d); cbn [andb xmul xabs]; f_equal; try lra;
    rewrite ?Rmult_1_l, ?Rmult_0_l, ?Rabs_R0; try lra; rewrite Rabs_pos_eq; lra.
Qed.

Lemma smooth_go_seq : forall w g, (1 <= w)%nat -> forall m t,
  adx_smooth_go (Fin (INR w)) (Fin (wilder_sum w g t)) (map (fun i => Fin (g i)) (seq (w + S t) m)) =
  map (fun t => Fin (wilder_sum w g t)) (seq (S t) m).
Proof.
  intros w g Hw. assert (0 < INR w) by (apply lt_0_INR; lia). induction m; intros t; [reflexivity|].
  cbn [seq map adx_smooth_go]. change (@fdiv xr XR) with xdiv. rewrite xdiv_fin by lra.
  cbn [fsub fadd XR xsub xadd xopp]. cbn zeta.
  replace (wilder_sum w g t + - (wilder_sum w g t / INR w) + g (w + S t)%nat) with (wilder_sum w g (S t)) by (cbn [wilder_sum]; lra).
  f_equal. replace (S (w + S t)) with (w + S (S t))%nat by lia. apply IHm.
Qed.
Lemma skipn_tab_from : forall n k j g, (k <= j)%nat -> skipn j (tab n (from k g)) = map (fun i => Fin (g i)) (seq j (n - j)).
Proof.
  intros n k j g H. unfold tab. rewrite skipn_map, skipn_seq. cbn [Nat.add]. apply map_ext_in. intros i Hi. apply in_seq in Hi.
  unfold from, fromx. destruct (Nat.ltb_spec i k); [lia|reflexivity].
Qed.
Lemma firstn_seq : forall k a m, firstn k (seq a m) = seq a (Nat.min k m).
Proof. induction k; intros a [|m]; cbn; auto. now rewrite IHk. Qed.
Lemma smooth_tab : forall w n g, (1 <= w < n)%nat ->
  adx_smooth w (n + 1 - w) (tab n (from 1 g)) = map (fun t => Fin (wilder_sum w g t)) (seq 0 (n - w)) ++ [Fin 0].
Proof.
  intros w n g H. unfold adx_smooth. rewrite (proj2 (Nat.eqb_neq (n + 1 - w) 1)) by lia. rewrite obs_from.
  assert (E : fsum (firstn w (tab (n - 1) (fun i => Fin (g (1 + i)%nat)))) = Fin (wilder_sum w g 0)).
  { cbn [wilder_sum]. rewrite <- fsum_tab. f_equal. unfold tab. rewrite firstn_map, firstn_seq, Nat.min_l by lia.
    rewrite <- seq_shift, map_map. reflexivity. }
  rewrite E, fofnat_INR, skipn_tab_from by lia. replace (S w) with (w + 1)%nat at 1 by lia. rewrite smooth_go_seq by lia.
  replace (n - w)%nat with (S (n - S w)) by lia. reflexivity.
Qed.
Lemma map2_app : forall {B C D} (f : B -> C -> D) a b a' b', length a = length a' ->
  map2 f (a ++ b) (a' ++ b') = map2 f a a' ++ map2 f b b'.
Proof. induction a; intros b [|x a'] b' H; try discriminate; cbn; auto. injection H as H. now rewrite IHa. Qed.
Lemma map2_seq : forall {B C D} (f : B -> C -> D) g g' l, map2 f (map g l) (map g' l) = map (fun i : nat => f (g i) (g' i)) l.
Proof. induction l; cbn; auto. now rewrite IHl. Qed.
Lemma pct_fin : forall a b, adx_pct (Fin a) (Fin b) = Fin (if Req_EM_T b 0 then 0 else 100 * (a / b)).
Proof.
  intros. unfold adx_pct. cbn [feqb XR xeqb fofZ]. destruct (Req_EM_T b 0); cbn [negb]; auto.
  change (@fdiv xr XR) with xdiv. rewrite xdiv_fin by auto. reflexivity.
Qed.
Lemma dx_fin : forall p q, adx_dx (Fin p) (Fin q) = Fin (dx_value p q).
Proof.
  intros. unfold adx_dx, dx_value. cbn [feqb fadd fsub XR xadd xsub xopp xeqb fofZ]. destruct (Req_EM_T (p + q) 0); cbn [negb]; auto.
  change (@fdiv xr XR) with xdiv. rewrite xdiv_fin by auto. reflexivity.
Qed.

Definition di_at (w : nat) (x tr : nat -> R) (t : nat) : R :=
  if Req_EM_T (wilder_sum w tr t) 0 then 0 else 100 * (wilder_sum w x t / wilder_sum w tr t).
Lemma lines_tab : forall w n x tr, (1 <= w < n)%nat ->
  map2 adx_pct (adx_smooth w (n + 1 - w) (tab n (from 1 x))) (adx_smooth w (n + 1 - w) (tab n (from 1 tr))) =
  map (fun t => Fin (di_at w x tr t)) (seq 0 (n - w)) ++ [Fin 0].
Proof.
  intros w n x tr H. rewrite !smooth_tab by auto. rewrite map2_app by (now rewrite !map_length). rewrite map2_seq. cbn [map2].
  rewrite pct_fin. destruct (Req_EM_T 0 0); [|lra]. f_equal. apply map_ext. intros t. apply pct_fin.
Qed.
Lemma adx_run_frame : forall w n h l c, (1 <= w <= n)%nat ->
  adx_run (tab n (from 0 h)) (tab n (from 0 l)) (tab n (from 0 c)) (Z.of_nat w) =
  Ok {| adx_trs := adx_smooth w (n + 1 - w) (tab n (from 1 (dm_range h l c)));
        adx_dip := adx_smooth w (n + 1 - w) (tab n (from 1 (dm_plus h l)));
        adx_din := adx_smooth w (n + 1 - w) (tab n (from 1 (dm_minus h l))) |}.
Proof.
  intros w n h l c H. destruct (adx_run _ _ _ _) as [st|e] eqn:E.
  - apply adx_run_eq in E. rewrite ddm_tab, pdm_tab, ndm_tab, len_tab, Nat2Z.id in E. destruct E as [_ ->]. reflexivity.
  - exfalso. unfold adx_run in E. rewrite len_tab in E. destruct (Z.eqb_spec (Z.of_nat w) 0); [lia|]. cbn [get_min_max bind] in E.
    destruct (Z.ltb_spec (Z.of_nat w) 0); [lia|]. destruct (Z.ltb_spec (Z.of_nat n - (Z.of_nat w - 1)) 0); [lia|].
    destruct (Z.eqb_spec (Z.of_nat n - (Z.of_nat w - 1)) 0); [lia|]. discriminate.
Qed.
Lemma line_tab : forall w n x tr, (1 <= w <= n)%nat ->
  adx_line n w (adx_smooth w (n + 1 - w) (tab n (from 1 x))) (adx_smooth w (n + 1 - w) (tab n (from 1 tr))) =
  tab n (from 0 (fun i => if (i <=? w)%nat then 0 else di_value w x tr i)).
Proof.
  intros w n x tr H. unfold adx_line. destruct (Nat.eq_dec w n) as [->|Hn].
  - replace (length (adx_smooth n (n + 1 - n) (tab n (from 1 tr))) - 2)%nat with 0%nat.
    2:{ unfold adx_smooth. replace (n + 1 - n)%nat with 1%nat by lia. reflexivity. }
    cbn [firstn]. rewrite app_nil_r, Nat.min_l by lia. rewrite repeat_tab. apply tab_ext. intros i Hi.
    unfold from, fromx. change (i <? 0)%nat with false. cbv iota. destruct (Nat.leb_spec i n); [reflexivity|lia].
  - rewrite lines_tab by lia. rewrite smooth_tab by lia. rewrite app_length, map_length, seq_length. cbn [length].
    rewrite Nat.min_r by lia. replace (n - w + 1 - 2)%nat with (n - S w)%nat by lia.
    replace (n - w)%nat with (S (n - S w)) by lia. cbn [seq map app skipn].
    rewrite firstn_app, map_length, seq_length, Nat.sub_diag. cbn [firstn]. rewrite app_nil_r, firstn_all2 by (rewrite map_length, seq_length; lia).
    apply (list_tab n _ _ NaN).
    + rewrite app_length, repeat_length, map_length, seq_length. lia.
    + intros i Hi. unfold from, fromx. change (i <? 0)%nat with false. cbv iota. destruct (Nat.leb_spec i w).
      * rewrite app_nth1 by (rewrite repeat_length; lia). rewrite nth_repeat_lt by lia. reflexivity.
      * rewrite app_nth2 by (rewrite repeat_length; lia). rewrite repeat_length, nth_map_seq by lia.
        f_equal. unfold di_at, di_value. replace (1 + (i - S w))%nat with (i - w)%nat by lia. reflexivity.
Qed.
Lemma check_numbers : forall fl z n g, (z =? -1)%Z = false -> (-1000 <= z <= 1000)%Z ->
  check_fillna fl (FillInt z) (tab n (from 0 g)) = tab n (fun i => Fin (g i)).
Proof. intros. rewrite check_from by auto. apply tab_ext. intros. apply gaps_0. Qed.

(** C35: +DI / -DI *)
Lemma di_formula : forall fl w n h l c v, (1 <= w <= n)%nat ->
  compute (AdxPos (Z.of_nat w)) fl (frame n h l c v) =
    Ok (tab n (fun i => Fin (if (i <=? w)%nat then 0 else di_value w (dm_plus h l) (dm_range h l c) i))) /\
  compute (AdxNeg (Z.of_nat w)) fl (frame n h l c v) =
    Ok (tab n (fun i => Fin (if (i <=? w)%nat then 0 else di_value w (dm_minus h l) (dm_range h l c) i))).
Proof.
  intros fl w n h l c v H. split; cbn [compute]; cols; [unfold adx_pos|unfold adx_neg];
    rewrite adx_run_frame by auto; cbn [bind adx_trs adx_dip adx_din]; rewrite len_tab, Nat2Z.id, line_tab by auto;
    f_equal; apply check_numbers; auto; lia.
Qed.

Lemma seq_add : forall w m a, map (fun i => (w + i)%nat) (seq a m) = seq (w + a) m.
Proof. intros w. induction m; intros a; cbn [seq map]; auto. rewrite IHm. f_equal. f_equal. lia. Qed.
Lemma adx_go_seq : forall w dx, (1 <= w)%nat -> forall m s,
  adx_go (Fin (INR w)) (Fin (adx_at w dx s)) (map (fun i => Fin (dx i)) (seq (2 * w + s) m)) =
  map (fun s => Fin (adx_at w dx s)) (seq (S s) m).
Proof.
  intros w dx Hw. assert (0 < INR w) by (apply lt_0_INR; lia). induction m; intros s; [reflexivity|].
  cbn [seq map adx_go]. cbn [fofZ fsub fmul fadd XR xsub xadd xopp xmul]. change (@fdiv xr XR) with xdiv. rewrite xdiv_fin by lra. cbv zeta.
  replace ((adx_at w dx s * (INR w + - (1)) + dx (2 * w + s)%nat) / INR w) with (adx_at w dx (S s)).
  2:{ cbn [adx_at]. replace (2 * w - 1 + S s)%nat with (2 * w + s)%nat by lia. f_equal. }
  f_equal. replace (S (2 * w + s)) with (2 * w + S s)%nat by lia. apply IHm.
Qed.
(** C35: ADX *)
Lemma adx_formula : forall fl w n h l c v, (1 <= w)%nat -> (2 * w <= n)%nat ->
  let dx i := dx_value (di_value w (dm_plus h l) (dm_range h l c) i) (di_value w (dm_minus h l) (dm_range h l c) i) in
  compute (Adx (Z.of_nat w)) fl (frame n h l c v) =
    Ok (tab n (fun i => Fin (if (i <? 2 * w - 1)%nat then 0 else adx_at w dx (i - (2 * w - 1))))).
Proof.
  intros fl w n h l c v Hw Hn dx. cbn [compute]. cols. unfold adx. rewrite adx_run_frame by lia. cbn [bind adx_trs adx_dip adx_din].
  rewrite Nat2Z.id. rewrite !lines_tab by lia.
  replace (length (adx_smooth w (n + 1 - w) (tab n (from 1 (dm_range h l c))))) with (n + 1 - w)%nat.
  2:{ rewrite smooth_tab by lia. rewrite app_length, map_length, seq_length. cbn [length]. lia. }
  destruct (Nat.leb_spec (n + 1 - w) w); [lia|].
  rewrite map2_app by (now rewrite !map_length). rewrite map2_seq. cbn [map2]. 
  assert (E : map (fun i => adx_dx (Fin (di_at w (dm_plus h l) (dm_range h l c) i)) (Fin (di_at w (dm_minus h l) (dm_range h l c) i))) (seq 0 (n - w)) =
              map (fun i => Fin (dx i)) (seq w (n - w))).
  { replace (seq w (n - w)) with (map (fun i => (w + i)%nat) (seq 0 (n - w))).
    2:{ rewrite seq_add. f_equal. lia. }
    rewrite map_map. apply map_ext. intros i. rewrite dx_fin. unfold dx, di_value, di_at. now replace (w + i - w)%nat with i by lia. }
  rewrite E. replace (adx_dx (Fin 0) (Fin 0)) with (Fin 0).
  2:{ rewrite dx_fin. unfold dx_value. destruct (Req_EM_T (0 + 0) 0); [reflexivity|lra]. }
  f_equal. rewrite !firstn_app, map_length, seq_length. replace (w - (n - w))%nat with 0%nat by lia. cbn [firstn]. rewrite app_nil_r.
  rewrite firstn_map, firstn_seq, Nat.min_l by lia.
  rewrite skipn_app, map_length, seq_length. replace (w - (n - w))%nat with 0%nat by lia. cbn [skipn]. rewrite skipn_map, skipn_seq.
  rewrite firstn_app, map_length, seq_length. replace (n + 1 - w - 1 - w - (n - w - w))%nat with 0%nat by lia. cbn [firstn]. rewrite app_nil_r.
  rewrite firstn_all2 by (rewrite map_length, seq_length; lia).
  unfold npmean. rewrite fsum_tab, map_length, seq_length, !fofnat_INR. change (@fdiv xr XR) with xdiv.
  assert (0 < INR w) by (apply lt_0_INR; lia). rewrite xdiv_fin by lra.
  change (rsum dx w w / INR w) with (adx_at w dx 0). replace (w + w)%nat with (2 * w + 0)%nat at 1 by lia. rewrite adx_go_seq by auto.
  etransitivity; [|apply (check_numbers fl 20 n (fun i => if (i <? 2 * w - 1)%nat then 0 else adx_at w dx (i - (2 * w - 1)))); auto; lia].
  f_equal. apply (list_tab n _ _ NaN).
  - rewrite !app_length. cbn [length]. rewrite !repeat_length, map_length, seq_length. lia.
  - intros i Hi. unfold from, fromx. change (i <? 0)%nat with false. cbv iota. rewrite app_assoc, <- repeat_app.
    destruct (Nat.ltb_spec i (2 * w - 1)).
    + rewrite app_nth1 by (rewrite repeat_length; lia). rewrite nth_repeat_lt by lia. reflexivity.
    + rewrite app_nth2 by (rewrite repeat_length; lia). rewrite repeat_length.
      replace (i - (w - 1 + w))%nat with (i - (2 * w - 1))%nat by lia. destruct (i - (2 * w - 1))%nat as [|s] eqn:Es; [reflexivity|].
      cbn [nth]. rewrite nth_map_seq by lia. reflexivity.
Qed.

(** ** C34: range *)
Lemma wilder_sum_le : forall w f g n, (1 <= w)%nat -> (forall j, (1 <= j < n)%nat -> f j <= g j) ->
  forall t, (w + t < n)%nat -> wilder_sum w f t <= wilder_sum w g t.
Proof.
  intros w f g n Hw H. assert (1 <= INR w) by (change 1 with (INR 1); apply le_INR; lia).
  induction t as [|t IH]; intros Ht; cbn [wilder_sum].
  - apply rsum_le. intros j Hj. apply H. lia.
  - specialize (IH ltac:(lia)). pose proof (H (w + S t)%nat ltac:(lia)).
    assert (forall x, x - x / INR w = x * (1 - / INR w)) as -> by (intros; field; lra).
    assert (forall x, x - x / INR w = x * (1 - / INR w)) as -> by (intros; field; lra).
    assert (/ INR w <= 1) by (rewrite <- Rinv_1; apply Rinv_le_contravar; lra).
    assert (wilder_sum w f t * (1 - / INR w) <= wilder_sum w g t * (1 - / INR w)) by (apply Rmult_le_compat_r; lra). lra.
Qed.
Lemma wilder_sum_zero : forall w t, wilder_sum w (fun _ => 0) t = 0.
Proof.
  intros w. induction t as [|t IH]; cbn [wilder_sum].
  - induction w; cbn [rsum]; lra.
  - rewrite IH. unfold Rdiv. lra.
Qed.
Lemma wilder_sum_add : forall w f g t, wilder_sum w (fun i => f i + g i) t = wilder_sum w f t + wilder_sum w g t.
Proof.
  intros w f g. induction t as [|t IH]; cbn [wilder_sum].
  - generalize 1%nat as a. intros a. induction w; cbn [rsum]; lra.
  - rewrite IH. unfold Rdiv. lra.
Qed.
Lemma dm_bounds : forall n h l c j, sane n h l c -> (1 <= j < n)%nat ->
  0 <= dm_plus h l j /\ 0 <= dm_minus h l j /\ dm_plus h l j + dm_minus h l j <= dm_range h l c j.
Proof.
  intros n h l c j Hs Hj. pose proof (Hs j ltac:(lia)). pose proof (Hs (j - 1)%nat ltac:(lia)).
  unfold dm_plus, dm_minus, dm_range. cbv zeta. pose proof (Rmax_l (h j) (c (j - 1)%nat)). pose proof (Rmax_r (h j) (c (j - 1)%nat)).
  pose proof (Rmin_l (l j) (c (j - 1)%nat)). pose proof (Rmin_r (l j) (c (j - 1)%nat)).
  generalize dependent (Rmax (h j) (c (j - 1)%nat)). generalize dependent (Rmin (l j) (c (j - 1)%nat)). intros m M1 M2 M M3 M4.
  unfold Rmax. repeat destruct (Rlt_dec _ _); repeat destruct (Rle_dec _ _); lra.
Qed.
Lemma di_bounds : forall w n h l c i, (1 <= w)%nat -> sane n h l c -> (w <= i < n)%nat ->
  let p := di_value w (dm_plus h l) (dm_range h l c) i in let q := di_value w (dm_minus h l) (dm_range h l c) i in
  0 <= p /\ 0 <= q /\ p + q <= 100.
Proof.
  intros w n h l c i Hw Hs Hi. cbv zeta.
  assert (P : 0 <= wilder_sum w (dm_plus h l) (i - w)).
  { rewrite <- (wilder_sum_zero w (i - w)). apply (wilder_sum_le w _ _ n); auto; [|lia]. intros j Hj. now apply (dm_bounds n h l c j). }
  assert (Q : 0 <= wilder_sum w (dm_minus h l) (i - w)).
  { rewrite <- (wilder_sum_zero w (i - w)). apply (wilder_sum_le w _ _ n); auto; [|lia]. intros j Hj. now apply (dm_bounds n h l c j). }
  assert (T : wilder_sum w (dm_plus h l) (i - w) + wilder_sum w (dm_minus h l) (i - w) <= wilder_sum w (dm_range h l c) (i - w)).
  { rewrite <- wilder_sum_add. apply (wilder_sum_le w _ _ n); auto; [|lia]. intros j Hj. now apply (dm_bounds n h l c j). }
  unfold di_value. destruct (Req_EM_T _ 0); [lra|].
  generalize dependent (wilder_sum w (dm_plus h l) (i - w)). intros p P. generalize dependent (wilder_sum w (dm_minus h l) (i - w)). intros q Q.
  generalize dependent (wilder_sum w (dm_range h l c) (i - w)). intros t Ht T.
  assert (0 < t) by lra. assert (0 < / t) by (apply Rinv_0_lt_compat; lra). unfold Rdiv.
  assert (0 <= p * / t) by (apply Rmult_le_pos; lra). assert (0 <= q * / t) by (apply Rmult_le_pos; lra).
  assert ((p + q) * / t <= t * / t) by (apply Rmult_le_compat_r; lra). rewrite Rinv_r in H3 by lra. lra.
Qed.
Lemma dx_bounds : forall p q, 0 <= p -> 0 <= q -> 0 <= dx_value p q <= 100.
Proof.
  intros p q P Q. unfold dx_value. destruct (Req_EM_T (p + q) 0); [lra|].
  assert (0 < / (p + q)) by (apply Rinv_0_lt_compat; lra).
  assert (Rabs ((p - q) / (p + q)) <= 1).
  { apply Rabs_le. unfold Rdiv. assert ((p + q) * / (p + q) = 1) by (apply Rinv_r; lra). split.
    - assert (- (p + q) * / (p + q) <= (p - q) * / (p + q)) by (apply Rmult_le_compat_r; lra). lra.
    - assert ((p - q) * / (p + q) <= (p + q) * / (p + q)) by (apply Rmult_le_compat_r; lra). lra. }
  pose proof (Rabs_pos ((p - q) / (p + q))). lra.
Qed.
Lemma adx_at_bounds : forall w dx n, (1 <= w)%nat -> (forall i, (w <= i < n)%nat -> 0 <= dx i <= 100) ->
  forall s, (2 * w - 1 + s < n)%nat -> 0 <= adx_at w dx s <= 100.
Proof.
  intros w dx n Hw H. assert (1 <= INR w) by (change 1 with (INR 1); apply le_INR; lia). assert (0 < / INR w) by (apply Rinv_0_lt_compat; lra).
  assert (D : forall x, 0 <= x <= 100 * INR w -> 0 <= x / INR w <= 100).
  { intros x Hx. unfold Rdiv. split; [apply Rmult_le_pos; lra|]. apply Rle_trans with (100 * INR w * / INR w); [apply Rmult_le_compat_r; lra|].
    rewrite Rmult_assoc, Rinv_r; lra. }
  induction s as [|s IH]; intros Hs; cbn [adx_at]; apply D.
  - split; [apply rsum_nonneg; intros j Hj; apply H; lia|].
    assert (G : forall k, (k <= w)%nat -> rsum dx w k <= 100 * INR k).
    { induction k; intros Hk; [cbn; lra|]. cbn [rsum]. rewrite S_INR. specialize (IHk ltac:(lia)). pose proof (H (w + k)%nat ltac:(lia)). lra. }
    apply G. lia.
  - specialize (IH ltac:(lia)). pose proof (H (2 * w - 1 + S s)%nat ltac:(lia)).
    assert (0 <= adx_at w dx s * (INR w - 1)) by (apply Rmult_le_pos; lra).
    assert (adx_at w dx s * (INR w - 1) <= 100 * (INR w - 1)) by (apply Rmult_le_compat_r; lra). lra.
Qed.
Lemma di_range : forall fl w n h l c v p q, (1 <= w)%nat -> sane n h l c ->
  compute (AdxPos (Z.of_nat w)) fl (frame n h l c v) = Ok p -> compute (AdxNeg (Z.of_nat w)) fl (frame n h l c v) = Ok q ->
  forall i, (i < n)%nat -> exists a b, nth i p NaN = Fin a /\ nth i q NaN = Fin b /\ 0 <= a <= 100 /\ 0 <= b <= 100 /\ a + b <= 100.
Proof.
  intros fl w n h l c v p q Hw Hs Hp Hq i Hi.
  assert (Hn : (w <= n)%nat).
  { cbn [compute] in Hp. unfold adx_pos in Hp. destruct (adx_run _ _ _ _) as [st|] eqn:E; [|discriminate].
    apply adx_run_eq in E. rewrite Nat2Z.id in E. destruct E as [E _]. unfold frame in E. rewrite map_length, len_tab in E. lia. }
  destruct (di_formula fl w n h l c v (conj Hw Hn)) as [Ep Eq]. rewrite Ep in Hp. rewrite Eq in Hq. injection Hp as <-. injection Hq as <-.
  rewrite !nth_tab by auto. eexists. eexists. split; [reflexivity|]. split; [reflexivity|]. destruct (Nat.leb_spec i w); [lra|].
  pose proof (di_bounds w n h l c i Hw Hs ltac:(lia)) as B. cbv zeta in B. lra.
Qed.
Lemma adx_range : forall fl w n h l c v out, (1 <= w)%nat -> sane n h l c ->
  compute (Adx (Z.of_nat w)) fl (frame n h l c v) = Ok out ->
  forall i, (i < n)%nat -> exists a, nth i out NaN = Fin a /\ 0 <= a <= 100.
Proof.
  intros fl w n h l c v out Hw Hs Ho i Hi.
  assert (Hn : (2 * w <= n)%nat).
  { cbn [compute] in Ho. unfold adx in Ho. destruct (adx_run _ _ _ _) as [st|] eqn:E; [|discriminate].
    apply adx_run_eq in E. rewrite Nat2Z.id in E. unfold frame in E. rewrite map_length, len_tab in E. destruct E as [E ->].
    cbn [bind adx_trs] in Ho. rewrite Nat2Z.id in Ho.
    destruct (length _ <=? w)%nat eqn:L; [discriminate|]. apply Nat.leb_gt in L.
    revert L. fold (frame n h l c v). cols. rewrite ddm_tab. destruct (Nat.eq_dec w n) as [->|]; [|rewrite smooth_tab, app_length, map_length, seq_length by lia; cbn [length]; lia].
    unfold adx_smooth. replace (n + 1 - n)%nat with 1%nat by lia. cbn [Nat.eqb length]. lia. }
  pose proof (adx_formula fl w n h l c v Hw Hn) as E. cbv zeta in E. rewrite E in Ho. apply (f_equal (fun r => match r with Ok x => x | Raise _ => out end)) in Ho. cbv beta iota in Ho. subst out. clear E.
  rewrite nth_tab by auto. eexists. split; [reflexivity|]. destruct (Nat.ltb_spec i (2 * w - 1)); [lra|].
  apply (adx_at_bounds w _ n); auto; [|lia]. intros j Hj. pose proof (di_bounds w n h l c j Hw Hs Hj) as B. cbv zeta in B.
  apply dx_bounds; lra.
Qed.
