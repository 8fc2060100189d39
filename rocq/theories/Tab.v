(** * Tab: evaluating the model on tabulated series over exact arithmetic. *)
From Verif Require Import Lists Api SpecNum Rows Running Fill.
Local Open Scope R_scope.

(** ** tabulated lists *)
Lemma len_tab : forall {B} n (f : nat -> B), length (tab n f) = n.
Proof. intros. unfold tab. now rewrite map_length, seq_length. Qed.
Lemma nth_tab : forall {B} n (f : nat -> B) i d, (i < n)%nat -> nth i (tab n f) d = f i.
Proof.
  intros. unfold tab. rewrite nth_indep with (d' := f 0%nat) by now rewrite map_length, seq_length.
  rewrite map_nth, seq_nth by auto. reflexivity.
Qed.
Lemma nth_map_seq : forall {B} (f : nat -> B) a k i d, (i < k)%nat -> nth i (map f (seq a k)) d = f (a + i)%nat.
Proof.
  intros. rewrite nth_indep with (d' := f 0%nat) by now rewrite map_length, seq_length.
  now rewrite map_nth, seq_nth by auto.
Qed.
Lemma tab_ext : forall {B} n (f g : nat -> B), (forall i, (i < n)%nat -> f i = g i) -> tab n f = tab n g.
Proof. intros. apply map_ext_seq. intros. apply H. lia. Qed.
Lemma map_tab : forall {B C} (g : B -> C) n f, map g (tab n f) = tab n (fun i => g (f i)).
Proof. intros. unfold tab. now rewrite map_map. Qed.
Lemma map2_tab : forall {B C D} (g : B -> C -> D) n f f', map2 g (tab n f) (tab n f') = tab n (fun i => g (f i) (f' i)).
Proof. intros. apply map2_map_same. Qed.
Lemma map3_tab : forall {B C D E} (g : B -> C -> D -> E) n f f' f'',
  map3 g (tab n f) (tab n f') (tab n f'') = tab n (fun i => g (f i) (f' i) (f'' i)).
Proof. intros. apply map3_map_same. Qed.
Lemma list_tab : forall {B} n (l : list B) f d, length l = n -> (forall i, (i < n)%nat -> nth i l d = f i) -> l = tab n f.
Proof.
  intros. apply list_eq_nth with d; [now rewrite len_tab|].
  intros. rewrite nth_tab by lia. apply H0. lia.
Qed.
Lemma repeat_tab : forall {B} (x : B) n, repeat x n = tab n (fun _ => x).
Proof. intros. apply list_tab with x; [apply repeat_length|]. intros. apply nth_repeat_any. Qed.
Lemma tab_inj : forall {B} n (f g : nat -> B), tab n f = tab n g -> forall i, (i < n)%nat -> f i = g i.
Proof. intros. rewrite <- (nth_tab n f i (f 0%nat)), H, nth_tab; auto. Qed.
Lemma tab_S : forall {B} n (f : nat -> B), tab (S n) f = tab n f ++ [f n].
Proof. intros. unfold tab. now rewrite seq_S, map_app. Qed.

Lemma close_tab : forall n h l c v, map b_close (frame n h l c v) = tab n (fun i => Fin (c i)).
Proof. intros. unfold frame. now rewrite map_tab. Qed.
Lemma high_tab : forall n h l c v, map b_high (frame n h l c v) = tab n (fun i => Fin (h i)).
Proof. intros. unfold frame. now rewrite map_tab. Qed.
Lemma low_tab : forall n h l c v, map b_low (frame n h l c v) = tab n (fun i => Fin (l i)).
Proof. intros. unfold frame. now rewrite map_tab. Qed.
Lemma volume_tab : forall n h l c v, map b_volume (frame n h l c v) = tab n (fun i => Fin (v i)).
Proof. intros. unfold frame. now rewrite map_tab. Qed.
Lemma label_tab : forall n h l c v, map b_label (frame n h l c v) = tab n Z.of_nat.
Proof. intros. unfold frame. now rewrite map_tab. Qed.

Lemma shift_fill_tab : forall (k : nat) x n (f : nat -> xr),
  shift_fill (Z.of_nat k) x (tab n f) = tab n (fun i => if (i <? k)%nat then x else f (i - k)%nat).
Proof.
  intros. apply list_tab with NaN.
  - unfold shift_fill. destruct (Z.leb_spec 0 (Z.of_nat k)); [|lia].
    rewrite app_length, repeat_length, firstn_length, len_tab. lia.
  - intros i Hi. destruct (Nat.ltb_spec i k).
    + rewrite nth_shift_fill_lt; auto; rewrite ?len_tab; lia.
    + rewrite nth_shift_fill_ge by (rewrite ?len_tab; lia). rewrite Nat2Z.id, nth_tab by lia. reflexivity.
Qed.
Lemma shift_tab : forall (k : nat) n (f : nat -> xr),
  shift (Z.of_nat k) (tab n f) = tab n (fromx k (fun i => f (i - k)%nat)).
Proof. intros. apply shift_fill_tab. Qed.
Lemma shift1_tab : forall n (f : nat -> xr),
  shift 1 (tab n f) = tab n (fromx 1 (fun i => f (i - 1)%nat)).
Proof. intros. exact (shift_fill_tab 1 NaN n f). Qed.

Lemma fromx_0 : forall g i, fromx 0 g i = g i.
Proof. reflexivity. Qed.
Lemma tab_from0 : forall n (g : nat -> R), tab n (fun i => Fin (g i)) = tab n (from 0 g).
Proof. reflexivity. Qed.

(** ** windows *)
Definition xprep (x : xr) : xr := if xisinf x then NaN else x.
Lemma prep_tab : forall n f, prep (tab n f) = tab n (fun i => xprep (f i)).
Proof. intros. unfold prep. now rewrite map_tab. Qed.
Lemma window_tab : forall w i n (f : nat -> xr), (i < n)%nat ->
  window_at w i (tab n f) = map f (seq (wlo w i) (wlen w i)).
Proof.
  intros. unfold window_at, tab, wlo, wlen. rewrite firstn_map, firstn_seq, skipn_map, skipn_seq.
  f_equal. f_equal; lia.
Qed.
Lemma rolling_tab : forall w m agg n (f : nat -> xr), (m <= w)%nat ->
  rolling (Z.of_nat w) (Z.of_nat m) agg (tab n f) =
  Ok (tab n (fun i => win_agg agg m (map (fun j => xprep (f j)) (seq (wlo w i) (wlen w i))))).
Proof.
  intros. rewrite rolling_xr.
  rewrite (proj2 (Z.ltb_ge _ _)), (proj2 (Z.ltb_ge (Z.of_nat w) (Z.of_nat m))), (proj2 (Z.ltb_ge (Z.of_nat w) 0)) by lia.
  cbn [orb]. f_equal. rewrite len_tab. apply tab_ext. intros i Hi.
  rewrite !Nat2Z.id, prep_tab, window_tab by auto. reflexivity.
Qed.

Lemma obs_fin : forall l, obs (map Fin l) = map Fin l.
Proof. induction l; auto. change (Fin a :: obs (map Fin l) = Fin a :: map Fin l). now rewrite IHl. Qed.
Lemma fsum_fin_acc : forall l a, fold_left fadd (map Fin l) (Fin a) = Fin (fold_left Rplus l a).
Proof. induction l; cbn; auto. Qed.
Lemma fold_rsum : forall f a k x, fold_left Rplus (map f (seq a k)) x = x + rsum f a k.
Proof.
  induction k; intros; cbn [rsum]; [cbn; lra|]. rewrite seq_S, map_app, fold_left_app, IHk. cbn. lra.
Qed.
Lemma fsum_tab : forall g a k, fsum (map (fun j => Fin (g j)) (seq a k)) = Fin (rsum g a k).
Proof.
  intros. rewrite fsum_left, <- (map_map g Fin). cbn. rewrite fsum_fin_acc, fold_rsum. f_equal. lra.
Qed.
Lemma obs_tab : forall g a k, obs (map (fun j => Fin (g j)) (seq a k)) = map (fun j => Fin (g j)) (seq a k).
Proof. intros. rewrite <- (map_map g Fin). apply obs_fin. Qed.

(** division *)
Lemma xdiv_fin : forall a b, b <> 0 -> xdiv (Fin a) (Fin b) = Fin (a / b).
Proof. intros. cbn. destruct (Req_EM_T b 0); [contradiction|reflexivity]. Qed.
Lemma xdiv_ratio : forall a b, xdiv (Fin a) (Fin b) = ratio a b.
Proof.
  intros. cbn. unfold ratio. destruct (Req_EM_T b 0); auto. unfold rsign.
  destruct (Rlt_dec 0 a); [reflexivity|]. destruct (Rlt_dec a 0); reflexivity.
Qed.
Lemma ratio_fin : forall a b, b <> 0 -> ratio a b = Fin (a / b).
Proof. intros. unfold ratio. destruct (Req_EM_T b 0); [contradiction|reflexivity]. Qed.
Lemma fofnat_INR : forall n, fofnat n = Fin (INR n).
Proof. intros. cbn. now rewrite <- INR_IZR_INZ. Qed.

Lemma agg_mean_tab : forall m g a k, (m <= k)%nat -> (1 <= k)%nat ->
  win_agg agg_mean m (map (fun j => Fin (g j)) (seq a k)) = Fin (rsum g a k / INR k).
Proof.
  intros. cbn [win_agg agg_max agg_min]. unfold win_mean. rewrite obs_tab, map_length, seq_length.
  destruct (Nat.ltb_spec k m); [lia|]. destruct (Nat.eqb_spec k 0); [lia|]. cbn [orb].
  rewrite fsum_tab, fofnat_INR. apply xdiv_fin. apply not_0_INR. lia.
Qed.
Lemma agg_sum_tab : forall m g a k, (m <= k)%nat ->
  win_agg agg_sum m (map (fun j => Fin (g j)) (seq a k)) = Fin (rsum g a k).
Proof.
  intros. cbn [win_agg agg_max agg_min]. unfold win_sum. rewrite obs_tab, map_length, seq_length.
  destruct (Nat.ltb_spec k m); [lia|]. apply fsum_tab.
Qed.
Lemma fmax2_fin : forall a b, fmax2 (Fin a) (Fin b) = Fin (Rmax a b).
Proof.
  intros. unfold fmax2. cbn. destruct (Rlt_dec a b).
  - now rewrite Rmax_right by lra.
  - now rewrite Rmax_left by lra.
Qed.
Lemma fmin2_fin : forall a b, fmin2 (Fin a) (Fin b) = Fin (Rmin a b).
Proof.
  intros. unfold fmin2. cbn. destruct (Rlt_dec b a).
  - now rewrite Rmin_right by lra.
  - now rewrite Rmin_left by lra.
Qed.
Lemma fold_max_tab : forall g a k x,
  fold_left fmax2 (map (fun j => Fin (g j)) (seq (S a) k)) (Fin (rmax g a 0)) = x ->
  x = Fin (rmax g a k).
Proof.
  intros g a k. induction k; intros x H.
  - now rewrite <- H.
  - rewrite seq_S, map_app, fold_left_app in H. specialize (IHk _ eq_refl). rewrite IHk in H.
    cbn [map fold_left] in H. rewrite fmax2_fin in H. rewrite <- H. cbn [rmax].
    now rewrite (Nat.add_succ_r a k), (Nat.add_succ_l a k).
Qed.
Lemma fold_min_tab : forall g a k x,
  fold_left fmin2 (map (fun j => Fin (g j)) (seq (S a) k)) (Fin (rmin g a 0)) = x ->
  x = Fin (rmin g a k).
Proof.
  intros g a k. induction k; intros x H.
  - now rewrite <- H.
  - rewrite seq_S, map_app, fold_left_app in H. specialize (IHk _ eq_refl). rewrite IHk in H.
    cbn [map fold_left] in H. rewrite fmin2_fin in H. rewrite <- H. cbn [rmin].
    now rewrite (Nat.add_succ_r a k), (Nat.add_succ_l a k).
Qed.
Lemma nanmax_tab : forall g a k, (1 <= k)%nat ->
  nanmax (map (fun j => Fin (g j)) (seq a k)) = Fin (rmax g a (k - 1)).
Proof.
  intros. unfold nanmax. rewrite obs_tab. destruct k; [lia|]. cbn [seq map].
  rewrite Nat.sub_succ, Nat.sub_0_r. now apply fold_max_tab.
Qed.
Lemma nanmin_tab : forall g a k, (1 <= k)%nat ->
  nanmin (map (fun j => Fin (g j)) (seq a k)) = Fin (rmin g a (k - 1)).
Proof.
  intros. unfold nanmin. rewrite obs_tab. destruct k; [lia|]. cbn [seq map].
  rewrite Nat.sub_succ, Nat.sub_0_r. now apply fold_min_tab.
Qed.
Lemma agg_max_tab : forall m g a k, (m <= k)%nat -> (1 <= k)%nat ->
  win_agg agg_max m (map (fun j => Fin (g j)) (seq a k)) = Fin (rmax g a (k - 1)).
Proof.
  intros. cbn [win_agg agg_max agg_min]. unfold win_max. rewrite nanmax_tab, obs_tab, map_length, seq_length by auto.
  destruct (Nat.ltb_spec k m); [lia|reflexivity].
Qed.
Lemma agg_min_tab : forall m g a k, (m <= k)%nat -> (1 <= k)%nat ->
  win_agg agg_min m (map (fun j => Fin (g j)) (seq a k)) = Fin (rmin g a (k - 1)).
Proof.
  intros. cbn [win_agg agg_max agg_min]. unfold win_min. rewrite nanmin_tab, obs_tab, map_length, seq_length by auto.
  destruct (Nat.ltb_spec k m); [lia|reflexivity].
Qed.
Lemma rsum_ext : forall f g a k, (forall j, (a <= j < a + k)%nat -> f j = g j) -> rsum f a k = rsum g a k.
Proof. induction k; intros; cbn; auto. rewrite IHk, H by (intros; try apply H; lia). reflexivity. Qed.
Lemma rsum_nonneg : forall f a k, (forall j, (a <= j < a + k)%nat -> 0 <= f j) -> 0 <= rsum f a k.
Proof. induction k; intros; cbn; [lra|]. pose proof (H (a + k)%nat ltac:(lia)).
  assert (0 <= rsum f a k) by (apply IHk; intros; apply H; lia). lra. Qed.
Lemma agg_std_tab : forall m g a k, (m <= k)%nat -> (1 <= k)%nat ->
  win_agg agg_std0 m (map (fun j => Fin (g j)) (seq a k)) =
  Fin (sqrt (rsum (fun j => (g j - rsum g a k / INR k) * (g j - rsum g a k / INR k)) a k / INR k)).
Proof.
  intros. assert (K : INR k <> 0) by (apply not_0_INR; lia).
  assert (K' : 0 < INR k) by (apply lt_0_INR; lia).
  cbn [win_agg agg_max agg_min]. unfold win_std0. rewrite obs_tab, map_length, seq_length.
  destruct (Nat.ltb_spec k m); [lia|]. destruct (Nat.eqb_spec k 0); [lia|]. cbn [orb].
  rewrite fsum_tab, fofnat_INR. change (@fdiv xr XR) with xdiv. rewrite xdiv_fin by auto.
  rewrite map_map.
  change (fun x => (Fin (g x) -. Fin (rsum g a k / INR k)) **. (Fin (g x) -. Fin (rsum g a k / INR k)))%F
    with (fun x => Fin ((g x + - (rsum g a k / INR k)) * (g x + - (rsum g a k / INR k)))).
  rewrite fsum_tab. change (@fdiv xr XR) with xdiv. rewrite xdiv_fin by auto. cbn.
  destruct (Rlt_dec _ 0) as [Hn|Hn]; [exfalso|reflexivity].
  apply Rlt_not_le in Hn. apply Hn. apply Rmult_le_pos; [|left; now apply Rinv_0_lt_compat].
  apply rsum_nonneg. intros. apply Rle_0_sqr.
Qed.

(** a window that is not yet complete, or contains a missing row *)
Lemma window_few : forall w k i (g : nat -> xr), (1 <= w)%nat -> (S i < k + w)%nat ->
  (length (obs (map (fun j => xprep (fromx k g j)) (seq (wlo w i) (wlen w i)))) < w)%nat.
Proof.
  intros. set (l := map _ _). assert (Ll : length l = wlen w i) by (unfold l; now rewrite map_length, seq_length).
  pose proof (length_obs l). destruct (Nat.lt_ge_cases (S i) w) as [H2|H2].
  { unfold wlen in Ll. lia. }
  assert (length (obs l) < length l)%nat; [|unfold wlen in *; lia].
  apply obs_missing with 0%nat; [unfold wlen in Ll; lia|].
  unfold l. rewrite nth_indep with (d' := xprep (fromx k g 0%nat)) by (rewrite map_length, seq_length; unfold wlen; lia).
  change (xprep (fromx k g 0%nat)) with ((fun j => xprep (fromx k g j)) 0%nat).
  rewrite map_nth, seq_nth by (unfold wlen; lia). unfold fromx.
  destruct (Nat.ltb_spec (wlo w i + 0) k); [reflexivity|]. unfold wlo in *. lia.
Qed.

Lemma rolling_full : forall w agg n k (g : nat -> xr), agg_std agg -> (1 <= w)%nat ->
  rolling (Z.of_nat w) (Z.of_nat w) agg (tab n (fromx k g)) =
  Ok (tab n (fromx (k + w - 1) (fun i => win_agg agg w (map (fun j => xprep (g j)) (seq (wlo w i) (wlen w i)))))).
Proof.
  intros w agg n k g Ha Hw. rewrite rolling_tab by auto. f_equal. apply tab_ext. intros i Hi.
  unfold fromx at 2. destruct (Nat.ltb_spec i (k + w - 1)).
  - apply Ha. apply window_few; lia.
  - f_equal. apply map_ext_in. intros j Hj. apply in_seq in Hj. unfold fromx, wlo, wlen in *.
    destruct (Nat.ltb_spec j k); [lia|reflexivity].
Qed.

Lemma wlen_full : forall w i, (w <= S i)%nat -> wlen w i = w.
Proof. intros. unfold wlen. lia. Qed.
Lemma wlen_pos : forall w i, (1 <= w)%nat -> (1 <= wlen w i)%nat.
Proof. intros. unfold wlen. lia. Qed.

Lemma fromx_ext : forall k (g g' : nat -> xr) n, (forall i, (k <= i < n)%nat -> g i = g' i) ->
  tab n (fromx k g) = tab n (fromx k g').
Proof. intros. apply tab_ext. intros. unfold fromx. destruct (Nat.ltb_spec i k); auto. Qed.

(** the standard windows of a series that is missing on its first k rows *)
Lemma mean_full : forall w n k g, (1 <= w)%nat ->
  rolling (Z.of_nat w) (Z.of_nat w) agg_mean (tab n (from k g)) = Ok (tab n (from (k + w - 1) (wmean w g))).
Proof.
  intros. unfold from. rewrite rolling_full by auto using std_mean. f_equal. apply fromx_ext. intros i Hi.
  cbn [xprep xisinf]. apply agg_mean_tab; unfold wlen; lia.
Qed.
Lemma sum_full : forall w n k g, (1 <= w)%nat ->
  rolling (Z.of_nat w) (Z.of_nat w) agg_sum (tab n (from k g)) = Ok (tab n (from (k + w - 1) (wsum w g))).
Proof.
  intros. unfold from. rewrite rolling_full by auto using std_sum. f_equal. apply fromx_ext. intros i Hi.
  cbn [xprep xisinf]. apply agg_sum_tab; unfold wlen; lia.
Qed.
Lemma max_full : forall w n k g, (1 <= w)%nat ->
  rolling (Z.of_nat w) (Z.of_nat w) agg_max (tab n (from k g)) = Ok (tab n (from (k + w - 1) (wmax w g))).
Proof.
  intros. unfold from. rewrite rolling_full by auto using std_max. f_equal. apply fromx_ext. intros i Hi.
  cbn [xprep xisinf]. apply agg_max_tab; unfold wlen; lia.
Qed.
Lemma min_full : forall w n k g, (1 <= w)%nat ->
  rolling (Z.of_nat w) (Z.of_nat w) agg_min (tab n (from k g)) = Ok (tab n (from (k + w - 1) (wmin w g))).
Proof.
  intros. unfold from. rewrite rolling_full by auto using std_min. f_equal. apply fromx_ext. intros i Hi.
  cbn [xprep xisinf]. apply agg_min_tab; unfold wlen; lia.
Qed.
Lemma std_full : forall w n k g, (1 <= w)%nat ->
  rolling (Z.of_nat w) (Z.of_nat w) agg_std0 (tab n (from k g)) = Ok (tab n (from (k + w - 1) (wstd w g))).
Proof.
  intros. unfold from. rewrite rolling_full by auto using std_std. f_equal. apply fromx_ext. intros i Hi.
  cbn [xprep xisinf]. apply agg_std_tab; unfold wlen; lia.
Qed.
(** with min_periods 0 or 1, for series defined on every row *)
Lemma mean_part : forall w m n g, (m <= 1)%nat -> (1 <= w)%nat ->
  rolling (Z.of_nat w) (Z.of_nat m) agg_mean (tab n (from 0 g)) = Ok (tab n (from 0 (wmean w g))).
Proof.
  intros. rewrite rolling_tab by lia. f_equal. apply tab_ext. intros i Hi. apply agg_mean_tab; unfold wlen; lia.
Qed.
Lemma sum_part : forall w m n g, (m <= 1)%nat -> (1 <= w)%nat ->
  rolling (Z.of_nat w) (Z.of_nat m) agg_sum (tab n (from 0 g)) = Ok (tab n (from 0 (wsum w g))).
Proof.
  intros. rewrite rolling_tab by lia. f_equal. apply tab_ext. intros i Hi. apply agg_sum_tab; unfold wlen; lia.
Qed.
Lemma max_part : forall w m n g, (m <= 1)%nat -> (1 <= w)%nat ->
  rolling (Z.of_nat w) (Z.of_nat m) agg_max (tab n (from 0 g)) = Ok (tab n (from 0 (wmax w g))).
Proof.
  intros. rewrite rolling_tab by lia. f_equal. apply tab_ext. intros i Hi. apply agg_max_tab; unfold wlen; lia.
Qed.
Lemma min_part : forall w m n g, (m <= 1)%nat -> (1 <= w)%nat ->
  rolling (Z.of_nat w) (Z.of_nat m) agg_min (tab n (from 0 g)) = Ok (tab n (from 0 (wmin w g))).
Proof.
  intros. rewrite rolling_tab by lia. f_equal. apply tab_ext. intros i Hi. apply agg_min_tab; unfold wlen; lia.
Qed.
Lemma std_part : forall w m n g, (m <= 1)%nat -> (1 <= w)%nat ->
  rolling (Z.of_nat w) (Z.of_nat m) agg_std0 (tab n (from 0 g)) = Ok (tab n (from 0 (wstd w g))).
Proof.
  intros. rewrite rolling_tab by lia. f_equal. apply tab_ext. intros i Hi. apply agg_std_tab; unfold wlen; lia.
Qed.

(** ** exponential windows *)
Lemma ewm_go_run : forall a m n p nobs e g, 0 < a <= 1 ->
  ewm_go (Fin a) m nobs (Fin e) (Fin 1) (map (fun i => Fin (g i)) (seq (S p) n)) =
  map (fun j => if (m <=? nobs + S j)%nat
                then Fin (exp_go a (fun i => if (i =? 0)%nat then e else g (p + i)%nat) 0 (S j)) else NaN) (seq 0 n).
Proof.
  intros a m n. induction n; intros p nobs e g Ha; [reflexivity|].
  cbn [seq map ewm_go]. cbn [fisnan XR xisnan negb].
  set (e' := (1 - a) * e + a * g (S p)).
  assert (E : (if (Fin e =.? Fin (g (S p)))%F then Fin e
               else ((Fin 1 **. (#1 -. Fin a)) **. Fin e +. Fin a **. Fin (g (S p))) /. ((Fin 1 **. (#1 -. Fin a)) +. Fin a))%F = Fin e').
  { cbn. unfold e'. destruct (Req_EM_T e (g (S p))) as [->|].
    - f_equal. ring.
    - destruct (Req_EM_T _ 0) as [Hz|Hz]; [exfalso; lra|]. f_equal. field. lra. }
  rewrite E. rewrite IHn by auto.
  f_equal.
  - rewrite Nat.add_1_r. cbn [exp_go]. cbn. rewrite Nat.add_1_r. reflexivity.
  - rewrite <- seq_shift, map_map. apply map_ext. intros j.
    replace (S nobs + S j)%nat with (nobs + S (S j))%nat by lia. destruct (Nat.leb_spec m (nobs + S (S j))); auto.
    f_equal. clear - Ha. unfold e'. clear e'. induction j.
    + cbn [exp_go Nat.eqb Nat.add]. rewrite !Nat.add_1_r. replace (p + 2)%nat with (S (S p)) by lia.
      cbn. rewrite ?Nat.add_1_r. replace (p + 2)%nat with (S (S p)) by lia. reflexivity.
    + cbn [exp_go] in *. rewrite IHj. cbn [Nat.add Nat.eqb]. do 3 f_equal. lia.
Qed.
Lemma exp_go_shift : forall a g k j,
  exp_go a (fun i => if (i =? 0)%nat then g k else g (k + i)%nat) 0 j = exp_go a g k j.
Proof. induction j; cbn [exp_go Nat.add Nat.eqb]; auto. now rewrite IHj. Qed.

Lemma ewm_go_lead : forall a m k g, 0 < a <= 1 -> (1 <= m)%nat -> forall n s, (s <= k)%nat ->
  ewm_go (Fin a) m 0 NaN (Fin 1) (map (from k g) (seq s n)) =
  map (from (k + m - 1) (expavg a g k)) (seq s n).
Proof.
  intros a m k g Ha Hm. induction n; intros s Hs; [reflexivity|]. cbn [seq map].
  destruct (Nat.eq_dec s k) as [->|Hne].
  - assert (E : from k g k = Fin (g k)) by (unfold from, fromx; now rewrite Nat.ltb_irrefl).
    assert (E' : map (from k g) (seq (S k) n) = map (fun i => Fin (g i)) (seq (S k) n)).
    { apply map_ext_in. intros i Hi. apply in_seq in Hi. unfold from, fromx.
      destruct (Nat.ltb_spec i k); [lia|reflexivity]. }
    rewrite E, E'. cbn [ewm_go]. cbn [fisnan XR xisnan negb].
    rewrite ewm_go_run by auto. f_equal.
    + unfold from, fromx. destruct (Nat.leb_spec m 1), (Nat.ltb_spec k (k + m - 1)); try lia; auto.
      unfold expavg. now rewrite Nat.sub_diag.
    + rewrite <- (Nat.add_0_r (S k)). replace (seq (S k + 0) n) with (map (fun j => S k + j)%nat (seq 0 n))
        by (clear; induction n; [reflexivity|]; rewrite !seq_S, map_app, IHn; cbn; now rewrite Nat.add_0_r).
      rewrite map_map. apply map_ext. intros j. unfold from, fromx.
      destruct (Nat.leb_spec m (1 + S j)), (Nat.ltb_spec (S k + j) (k + m - 1)); try lia; auto.
      rewrite exp_go_shift. unfold expavg. do 2 f_equal. lia.
  - assert (E : from k g s = NaN) by (unfold from, fromx; destruct (Nat.ltb_spec s k); [auto|lia]).
    rewrite E. cbn [ewm_go]. cbn [fisnan XR xisnan negb]. rewrite IHn by lia. f_equal.
    unfold from, fromx. destruct (Nat.leb_spec m 0), (Nat.ltb_spec s (k + m - 1)); try lia; auto.
Qed.

Lemma prep_from : forall n k g, prep (tab n (from k g)) = tab n (from k g).
Proof. intros. rewrite prep_tab. apply tab_ext. intros. unfold from, fromx. now destruct (_ <? _)%nat. Qed.

Lemma ema_from : forall w m n k g, (1 <= w)%nat ->
  ewm_span (Z.of_nat w) (Z.of_nat m) (tab n (from k g)) =
  Ok (tab n (from (k + Nat.max m 1 - 1) (ema w g k))).
Proof.
  intros. unfold ewm_span. destruct (Z.ltb_spec (Z.of_nat w) 1); [lia|]. f_equal.
  unfold ewm_com. rewrite prep_from.
  replace (Z.to_nat (Z.max (Z.of_nat m) 1)) with (Nat.max m 1) by lia.
  assert (1 <= INR w) by (apply (le_INR 1); lia).
  replace (#1 /. (#1 +. (fofZ (Z.of_nat w) -. #1) /. #2))%F with (Fin (2 / (INR w + 1))).
  - apply ewm_go_lead; try lia. split.
    + apply Rdiv_lt_0_compat; lra.
    + apply Rmult_le_reg_r with (INR w + 1); [lra|]. unfold Rdiv. rewrite Rmult_assoc, Rinv_l; lra.
  - cbn. rewrite <- INR_IZR_INZ. destruct (Req_EM_T 2 0); [lra|]. cbn.
    destruct (Req_EM_T _ 0) as [Hz|Hz]; [exfalso; lra|]. f_equal. field. lra.
Qed.
Lemma wilder_from : forall w m n k g, (1 <= w)%nat ->
  ewm_inv_alpha (Z.of_nat w) (Z.of_nat m) (tab n (from k g)) =
  Ok (tab n (from (k + Nat.max m 1 - 1) (wilder w g k))).
Proof.
  intros. unfold ewm_inv_alpha. destruct (Z.eqb_spec (Z.of_nat w) 0); [lia|].
  destruct (Z.ltb_spec (Z.of_nat w) 0); [lia|]. f_equal.
  unfold ewm_com. rewrite prep_from.
  replace (Z.to_nat (Z.max (Z.of_nat m) 1)) with (Nat.max m 1) by lia.
  assert (1 <= INR w) by (apply (le_INR 1); lia).
  replace (#1 /. (#1 +. (#1 -. #1 /. fofZ (Z.of_nat w)) /. (#1 /. fofZ (Z.of_nat w))))%F with (Fin (1 / INR w)).
  - apply ewm_go_lead; try lia. split.
    + apply Rdiv_lt_0_compat; lra.
    + apply Rmult_le_reg_r with (INR w); [lra|]. unfold Rdiv. rewrite Rmult_assoc, Rinv_l; lra.
  - cbn. rewrite <- INR_IZR_INZ. destruct (Req_EM_T (INR w) 0); [lra|]. cbn.
    assert (0 < 1 / INR w) by (apply Rdiv_lt_0_compat; lra).
    destruct (Req_EM_T (1 / INR w) 0); [lra|]. cbn.
    assert (E : 1 + (1 + - (1 / INR w)) / (1 / INR w) = INR w) by (field; lra).
    rewrite E. destruct (Req_EM_T (INR w) 0); [lra|]. reflexivity.
Qed.

(** ** series operations on tabulated series *)
Lemma ssub_from : forall n k k' f g, ssub (tab n (from k f)) (tab n (from k' g)) =
  tab n (from (Nat.max k k') (fun i => f i - g i)).
Proof.
  intros. unfold ssub. rewrite map2_tab. apply tab_ext. intros i _. unfold from, fromx.
  destruct (Nat.ltb_spec i k), (Nat.ltb_spec i k'), (Nat.ltb_spec i (Nat.max k k')); try lia; reflexivity.
Qed.
Lemma sadd_from : forall n k k' f g, sadd (tab n (from k f)) (tab n (from k' g)) =
  tab n (from (Nat.max k k') (fun i => f i + g i)).
Proof.
  intros. unfold sadd. rewrite map2_tab. apply tab_ext. intros i _. unfold from, fromx.
  destruct (Nat.ltb_spec i k), (Nat.ltb_spec i k'), (Nat.ltb_spec i (Nat.max k k')); try lia; reflexivity.
Qed.
Lemma smul_from : forall n k k' f g, smul (tab n (from k f)) (tab n (from k' g)) =
  tab n (from (Nat.max k k') (fun i => f i * g i)).
Proof.
  intros. unfold smul. rewrite map2_tab. apply tab_ext. intros i _. unfold from, fromx.
  destruct (Nat.ltb_spec i k), (Nat.ltb_spec i k'), (Nat.ltb_spec i (Nat.max k k')); try lia; reflexivity.
Qed.
Lemma sdiv_from : forall n k k' f g, sdiv (tab n (from k f)) (tab n (from k' g)) =
  tab n (fromx (Nat.max k k') (fun i => ratio (f i) (g i))).
Proof.
  intros. unfold sdiv. rewrite map2_tab. apply tab_ext. intros i _. unfold from, fromx.
  destruct (Nat.ltb_spec i k), (Nat.ltb_spec i k'), (Nat.ltb_spec i (Nat.max k k')); try lia; try reflexivity.
  apply xdiv_ratio.
Qed.
Lemma sdiv_from_fin : forall n k k' f g, (forall i, (Nat.max k k' <= i < n)%nat -> g i <> 0) ->
  sdiv (tab n (from k f)) (tab n (from k' g)) = tab n (from (Nat.max k k') (fun i => f i / g i)).
Proof.
  intros. rewrite sdiv_from. apply fromx_ext. intros. now apply ratio_fin, H.
Qed.
Lemma map_from : forall (F : xr -> xr) (f : R -> R) n k g, F NaN = NaN -> (forall x, F (Fin x) = Fin (f x)) ->
  map F (tab n (from k g)) = tab n (from k (fun i => f (g i))).
Proof.
  intros. rewrite map_tab. apply tab_ext. intros i _. unfold from, fromx. destruct (_ <? _)%nat; auto.
Qed.
Lemma scal_from : forall a n k g, scal (Fin a) (tab n (from k g)) = tab n (from k (fun i => a * g i)).
Proof. intros. now apply (map_from _ (Rmult a)). Qed.
Lemma muls_from : forall a n k g, muls (tab n (from k g)) (Fin a) = tab n (from k (fun i => g i * a)).
Proof. intros. now apply (map_from _ (fun x => x * a)). Qed.
Lemma subs_from : forall a n k g, subs (tab n (from k g)) (Fin a) = tab n (from k (fun i => g i - a)).
Proof. intros. now apply (map_from _ (fun x => x - a)). Qed.
Lemma divs_from : forall a n k g, a <> 0 -> divs (tab n (from k g)) (Fin a) = tab n (from k (fun i => g i / a)).
Proof. intros. apply (map_from _ (fun x => x / a)); [reflexivity|]. intros. now apply xdiv_fin. Qed.
Lemma abs_from : forall n k g, map (@fabs xr XR) (tab n (from k g)) = tab n (from k (fun i => Rabs (g i))).
Proof. intros. now apply (map_from _ Rabs). Qed.
Lemma shift_from : forall (j : nat) n k g,
  shift (Z.of_nat j) (tab n (from k g)) = tab n (from (j + k) (fun i => g (i - j)%nat)).
Proof.
  intros. rewrite shift_tab. apply tab_ext. intros i _. unfold from, fromx.
  destruct (Nat.ltb_spec i j), (Nat.ltb_spec (i - j) k), (Nat.ltb_spec i (j + k)); try lia; reflexivity.
Qed.
Lemma shift1_from : forall n k g,
  shift 1 (tab n (from k g)) = tab n (from (S k) (fun i => g (i - 1)%nat)).
Proof. intros. exact (shift_from 1 n k g). Qed.
Lemma from_ext : forall n k f g, (forall i, (k <= i < n)%nat -> f i = g i) -> tab n (from k f) = tab n (from k g).
Proof. intros. apply fromx_ext. intros. now rewrite H. Qed.
Lemma diff1_from : forall n k g, diff1 (tab n (from k g)) = tab n (from (S k) (delta g)).
Proof.
  intros. unfold diff1. rewrite shift1_from, ssub_from. rewrite Nat.max_r by lia. reflexivity.
Qed.

(** ** fillna *)
Lemma xfinite_fin : forall x, @ffinite xr XR (Fin x) = true.
Proof. reflexivity. Qed.
Lemma check_from : forall fl z n k g, (z =? -1)%Z = false -> (-1000 <= z <= 1000)%Z ->
  check_fillna fl (FillInt z) (tab n (from k g)) = tab n (gaps fl z k g).
Proof.
  intros fl z n k g Hz Hr. destruct fl; [|apply tab_ext; intros; unfold from, fromx, gaps; now destruct (_ <? _)%nat].
  destruct (check_const_filled z (tab n (from k g)) Hz Hr) as [HL H]. rewrite len_tab in *.
  apply list_tab with NaN; auto. intros i Hi. induction i as [i IH] using lt_wf_ind.
  change NaN with (@fnan xr XR). rewrite H by auto. rewrite nth_tab by auto.
  unfold from at 1, gaps, fromx. destruct (Nat.ltb_spec i k) as [Hk|Hk].
  - cbn [ffinite]. destruct i as [|j]; [reflexivity|]. cbn. change (@fnan xr XR) with NaN.
    rewrite IH by lia. unfold gaps. destruct (Nat.ltb_spec j k); [reflexivity|lia].
  - cbn. unfold from, fromx. destruct (Nat.ltb_spec i k); [lia|reflexivity].
Qed.
Lemma gaps_0 : forall fl z g i, gaps fl z 0 g i = Fin (g i).
Proof. reflexivity. Qed.
Lemma gaps_false : forall z k g i, gaps false z k g i = from k g i.
Proof. intros. unfold gaps, from, fromx. now destruct (_ <? _)%nat. Qed.

(** ** moving averages *)
Lemma ema_tab : forall fl w n k g, (1 <= w)%nat ->
  ema_ (tab n (from k g)) (Z.of_nat w) fl = Ok (tab n (from (k + warm fl w) (ema w g k))).
Proof.
  intros. unfold ema_, warm. destruct fl.
  - rewrite (ema_from w 0) by auto. do 3 f_equal. lia.
  - rewrite (ema_from w w) by auto. do 3 f_equal. lia.
Qed.
Lemma mean_tab : forall fl w n g, (1 <= w)%nat ->
  rolling (Z.of_nat w) (minp_of fl (Z.of_nat w)) agg_mean (tab n (from 0 g)) = Ok (tab n (from (warm fl w) (wmean w g))).
Proof. intros. destruct fl; [apply (mean_part w 0)|apply mean_full]; lia. Qed.
Lemma sum_tab : forall fl w n g, (1 <= w)%nat ->
  rolling (Z.of_nat w) (minp_of fl (Z.of_nat w)) agg_sum (tab n (from 0 g)) = Ok (tab n (from (warm fl w) (wsum w g))).
Proof. intros. destruct fl; [apply (sum_part w 0)|apply sum_full]; lia. Qed.
Lemma max_tab : forall fl w n g, (1 <= w)%nat ->
  rolling (Z.of_nat w) (minp_of fl (Z.of_nat w)) agg_max (tab n (from 0 g)) = Ok (tab n (from (warm fl w) (wmax w g))).
Proof. intros. destruct fl; [apply (max_part w 0)|apply max_full]; lia. Qed.
Lemma min_tab : forall fl w n g, (1 <= w)%nat ->
  rolling (Z.of_nat w) (minp_of fl (Z.of_nat w)) agg_min (tab n (from 0 g)) = Ok (tab n (from (warm fl w) (wmin w g))).
Proof. intros. destruct fl; [apply (min_part w 0)|apply min_full]; lia. Qed.
Lemma std_tab : forall fl w n g, (1 <= w)%nat ->
  rolling (Z.of_nat w) (minp_of fl (Z.of_nat w)) agg_std0 (tab n (from 0 g)) = Ok (tab n (from (warm fl w) (wstd w g))).
Proof. intros. destruct fl; [apply (std_part w 0)|apply std_full]; lia. Qed.
Lemma warm_max : forall fl a b, (1 <= a)%nat -> (1 <= b)%nat ->
  Nat.max (warm fl a) (warm fl b) = warm fl (Nat.max a b).
Proof. intros. unfold warm. destruct fl; lia. Qed.
