(** * Mirror: indicators of the mirrored market (C71). *)
From Verif Require Import Lists Api Rows Running Scale ScaleOps Scaling SpecMirror.
Local Open Scope R_scope.

Notation N s := (map (@fopp xr XR) s).
(** ** values *)
Lemma opp_opposite : forall x, fopp x = opposite x. Proof. now intros [| | |x]. Qed.
Lemma n_inv : forall x : xr, fopp (fopp x) = x.
Proof. intros [| | |x]; cbn; auto. f_equal. lra. Qed.
Lemma n_isnan : forall x : xr, fisnan (fopp x) = fisnan x. Proof. now intros [| | |x]. Qed.
Lemma n_isinf : forall x : xr, fisinf (fopp x) = fisinf x. Proof. now intros [| | |x]. Qed.
Lemma n_zero : fopp (fofZ 0) = fofZ 0 :> xr. Proof. cbn. f_equal. lra. Qed.
Lemma n_ltb : forall x y : xr, fltb (fopp x) (fopp y) = fltb y x.
Proof. intros [| | |x] [| | |y]; try reflexivity. cbn. destruct (Rlt_dec (- x) (- y)), (Rlt_dec y x); auto; lra. Qed.
Lemma n_eqb : forall x y : xr, feqb (fopp x) (fopp y) = feqb x y.
Proof. intros [| | |x] [| | |y]; try reflexivity. cbn. destruct (Req_EM_T (- x) (- y)), (Req_EM_T x y); auto; lra. Qed.
Lemma eqb_sym : forall x y : xr, feqb x y = feqb y x.
Proof. intros [| | |x] [| | |y]; try reflexivity. cbn. destruct (Req_EM_T x y), (Req_EM_T y x); auto; lra. Qed.
Lemma n_add : forall x y : xr, fadd (fopp x) (fopp y) = fopp (fadd x y).
Proof. intros [| | |x] [| | |y]; cbn; auto. f_equal. lra. Qed.
Lemma n_sub : forall x y : xr, fsub (fopp x) (fopp y) = fopp (fsub x y).
Proof. intros [| | |x] [| | |y]; cbn; auto. f_equal. lra. Qed.
Lemma n_sub_swap : forall x y : xr, fsub (fopp x) (fopp y) = fsub y x.
Proof. intros [| | |x] [| | |y]; cbn; auto. f_equal. lra. Qed.
Lemma sub_swap : forall x y : xr, fopp (fsub x y) = fsub y x.
Proof. intros [| | |x] [| | |y]; cbn; auto. f_equal. lra. Qed.
Lemma n_abs : forall x : xr, fabs (fopp x) = fabs x.
Proof. intros [| | |x]; cbn; auto. f_equal. apply Rabs_Ropp. Qed.
Lemma n_sign : forall x, rsign (- x) = Z.opp (rsign x).
Proof. intros. unfold rsign. destruct (Rlt_dec 0 (- x)), (Rlt_dec 0 x), (Rlt_dec (- x) 0), (Rlt_dec x 0); auto; lra. Qed.
Lemma n_xinf : forall z, xinf (Z.opp z) = fopp (xinf z).
Proof. intros [|z|z]; reflexivity. Qed.
Lemma n_xsign : forall x, xsign (xopp x) = Z.opp (xsign x).
Proof. intros [| | |x]; try reflexivity. apply n_sign. Qed.
Lemma n_mul_r : forall x y : xr, fmul x (fopp y) = fopp (fmul x y).
Proof.
  intros [| | |x] [| | |y]; cbn [fmul fopp XR xmul xopp xsign]; try reflexivity; try (f_equal; lra); rewrite ?n_sign;
    [destruct (rsign y) as [|p|p] | destruct (rsign y) as [|p|p] | destruct (rsign x) as [|p|p] | destruct (rsign x) as [|p|p]]; reflexivity.
Qed.
Lemma n_mul_l : forall x y : xr, fmul (fopp x) y = fopp (fmul x y).
Proof. intros. rewrite xmul_comm, n_mul_r, xmul_comm. reflexivity. Qed.
Lemma n_div_l : forall x y : xr, fdiv (fopp x) y = fopp (fdiv x y).
Proof.
  intros [| | |x] [| | |y]; try reflexivity; cbn; try (f_equal; lra).
  - now destruct (Rlt_dec y 0).
  - now destruct (Rlt_dec y 0).
  - destruct (Req_EM_T y 0); [|cbn; f_equal; field; auto]. now rewrite n_sign, n_xinf.
Qed.
Lemma n_max2 : forall x y : xr, fmax2 (fopp x) (fopp y) = fopp (fmin2 x y).
Proof. intros. unfold fmax2, fmin2. rewrite n_ltb. now destruct (fltb y x). Qed.
Lemma n_min2 : forall x y : xr, fmin2 (fopp x) (fopp y) = fopp (fmax2 x y).
Proof. intros. unfold fmax2, fmin2. rewrite n_ltb. now destruct (fltb x y). Qed.
Lemma n_npmin2 : forall x y : xr, npmin2 (fopp x) (fopp y) = fopp (npmax2 x y).
Proof. intros. unfold npmin2, npmax2. rewrite !n_isnan, n_min2. destruct (fisnan x); auto. now destruct (fisnan y). Qed.
Lemma n_npmax2 : forall x y : xr, npmax2 (fopp x) (fopp y) = fopp (npmin2 x y).
Proof. intros. unfold npmin2, npmax2. rewrite !n_isnan, n_max2. destruct (fisnan x); auto. now destruct (fisnan y). Qed.

(** ** columns *)
Lemma n_repeat' : forall x n, repeat (fopp x) n = N (repeat x n).
Proof. induction n; auto. cbn [repeat map]. now rewrite IHn. Qed.
Lemma n_shift_fill : forall n x s, shift_fill n (fopp x) (N s) = N (shift_fill n x s).
Proof. intros. unfold shift_fill. destruct (0 <=? n)%Z; rewrite ?map_length, ?firstn_map, ?skipn_map, ?n_repeat', <- ?map_app; reflexivity. Qed.
Lemma n_shift : forall n s, shift n (N s) = N (shift n s).
Proof. intros. unfold shift. apply (n_shift_fill n NaN). Qed.
Lemma n_obs : forall s, obs (N s) = N (obs s).
Proof. unfold obs. induction s; auto. cbn [map filter]. rewrite n_isnan, IHs. destruct (negb (fisnan a)); auto. Qed.
Lemma n_prep : forall s, prep (N s) = N (prep s).
Proof. intros. unfold prep. rewrite !map_map. apply map_ext. intros x. rewrite n_isinf. destruct (fisinf x); auto. Qed.
Lemma n_replace_inf : forall s, replace_inf (N s) = N (replace_inf s).
Proof. intros. unfold replace_inf. rewrite !map_map. apply map_ext. intros x. rewrite n_isinf. destruct (fisinf x); auto. Qed.
Lemma n_ffill_go : forall s x, ffill_go (fopp x) (N s) = N (ffill_go x s).
Proof. induction s; intros; auto. cbn [map ffill_go]. rewrite n_isnan. destruct (fisnan a); now rewrite IHs. Qed.
Lemma n_ffill : forall s, ffill (N s) = N (ffill s).
Proof. intros. apply (n_ffill_go s NaN). Qed.
Lemma n_bfill : forall s, bfill (N s) = N (bfill s).
Proof.
  induction s; auto. cbn [map bfill]. rewrite n_isnan, IHs. f_equal. destruct (fisnan a); auto. destruct (bfill s); auto.
Qed.
Lemma n_fill0 : forall s, fillna_const (fofZ 0) (N s) = N (fillna_const (fofZ 0) s).
Proof. intros. unfold fillna_const. rewrite !map_map. apply map_ext. intros x. rewrite n_isnan. destruct (fisnan x); auto. now rewrite n_zero. Qed.
Lemma n_check0 : forall fl s, check_fillna fl (FillInt 0) (N s) = N (check_fillna fl (FillInt 0) s).
Proof. intros. unfold check_fillna. destruct fl; auto. cbn [Z.eqb]. now rewrite n_replace_inf, n_ffill, n_fill0. Qed.
Lemma n_check_back : forall fl s, check_fillna fl (FillInt (-1)) (N s) = N (check_fillna fl (FillInt (-1)) s).
Proof. intros. unfold check_fillna. destruct fl; auto. cbn [Z.eqb]. now rewrite n_replace_inf, n_ffill, n_bfill. Qed.
Lemma n_check_series : forall fl v s, check_fillna fl (FillSeries (N v)) (N s) = N (check_fillna fl (FillSeries v) s).
Proof.
  intros. unfold check_fillna. destruct fl; auto. rewrite n_replace_inf, n_ffill. unfold fillna_series.
  rewrite map2_map, map_map2. apply map2_ext2. intros. rewrite n_isnan. now destruct (fisnan x).
Qed.
Lemma n_np_roll : forall k s, np_roll k (N s) = N (np_roll k s).
Proof.
  intros. unfold np_roll. destruct s as [|x s]; auto. change (N (x :: s)) with (fopp x :: N s) at 1.
  cbn iota beta. change (fopp x :: N s) with (N (x :: s)). rewrite map_length, skipn_map, firstn_map, map_app. reflexivity.
Qed.
Lemma n_fsum : forall s, fsum (N s) = fopp (fsum s).
Proof.
  intros. rewrite !fsum_left. rewrite <- n_zero at 1. generalize (fofZ 0 : xr). induction s; intros x; auto. cbn [map fold_left].
  now rewrite n_add, IHs.
Qed.
Lemma n_smean : forall s, smean (N s) = fopp (smean s).
Proof.
  intros. rewrite !smean_obs, n_obs. destruct (obs s) as [|x o]; [reflexivity|].
  change (N (x :: o)) with (fopp x :: N o) at 1. cbv iota zeta. change (fopp x :: N o) with (N (x :: o)).
  now rewrite map_length, n_fsum, n_div_l.
Qed.
Lemma n_nanmax : forall s, nanmax (N s) = fopp (nanmin s).
Proof.
  intros. unfold nanmax, nanmin. rewrite n_obs. destruct (obs s) as [|x o]; [reflexivity|]. cbn [map].
  revert x. induction o; intros x; auto. cbn [map fold_left]. now rewrite n_max2, IHo.
Qed.
Lemma n_nanmin : forall s, nanmin (N s) = fopp (nanmax s).
Proof.
  intros. unfold nanmax, nanmin. rewrite n_obs. destruct (obs s) as [|x o]; [reflexivity|]. cbn [map].
  revert x. induction o; intros x; auto. cbn [map fold_left]. now rewrite n_min2, IHo.
Qed.
Lemma n_rolling_gen : forall (u : xr -> xr) w mp agg agg' s, (forall k win, win_agg agg k (N win) = u (win_agg agg' k win)) ->
  rolling w mp agg (N s) = rmap (map u) (rolling w mp agg' s).
Proof.
  intros u w mp agg agg' s H. rewrite !rolling_xr. destruct ((_ <? 0)%Z || _ || _)%bool; auto. cbn [rmap]. f_equal.
  rewrite map_length, map_map. apply map_ext. intros i. rewrite n_prep. unfold window_at. now rewrite firstn_map, skipn_map, H.
Qed.
Lemma n_rolling_max : forall w mp s, rolling w mp agg_max (N s) = rmap (map fopp) (rolling w mp agg_min s).
Proof. intros. apply n_rolling_gen. intros. cbn [win_agg agg_max agg_min]. unfold win_max, win_min. rewrite n_obs, map_length, n_nanmax. now destruct (_ <? k)%nat. Qed.
Lemma n_rolling_min : forall w mp s, rolling w mp agg_min (N s) = rmap (map fopp) (rolling w mp agg_max s).
Proof. intros. apply n_rolling_gen. intros. cbn [win_agg agg_max agg_min]. unfold win_max, win_min. rewrite n_obs, map_length, n_nanmin. now destruct (_ <? k)%nat. Qed.
Lemma n_rolling_sum : forall w mp s, rolling w mp agg_sum (N s) = rmap (map fopp) (rolling w mp agg_sum s).
Proof. intros. apply n_rolling_gen. intros. cbn [win_agg agg_apply]. unfold win_sum. rewrite n_obs, map_length, n_fsum. now destruct (_ <? k)%nat. Qed.
Lemma n_rolling_mean : forall w mp s, rolling w mp agg_mean (N s) = rmap (map fopp) (rolling w mp agg_mean s).
Proof. intros. apply n_rolling_gen. intros. cbn [win_agg agg_apply]. unfold win_mean. rewrite n_obs, map_length, n_fsum, n_div_l. now destruct (_ || _)%bool. Qed.
Lemma rmap_id : forall m : result (list xr), rmap (map (fun x => x)) m = m.
Proof. intros [s|]; cbn; now rewrite ?map_id. Qed.
Lemma n_dev : forall (f : xr -> xr) s x, (forall y, f (fopp y) = f y) ->
  map (fun v => f (fsub v (fopp x))) (N s) = map (fun v => f (fsub v x)) s.
Proof. intros f s x E. rewrite map_map. apply map_ext. intros v. now rewrite n_sub, E. Qed.
Lemma n_rolling_std : forall w mp s, rolling w mp agg_std0 (N s) = rolling w mp agg_std0 s.
Proof.
  intros. rewrite <- (rmap_id (rolling w mp agg_std0 s)). apply n_rolling_gen. intros. cbn [win_agg agg_apply]. unfold win_std0.
  rewrite n_obs, map_length, n_fsum, n_div_l. destruct (_ || _)%bool; auto. do 3 f_equal.
  apply (n_dev (fun y => fmul y y)). intros. now rewrite n_mul_l, n_mul_r, n_inv.
Qed.
Lemma n_mad : forall s, mad_ (N s) = mad_ s.
Proof.
  intros. unfold mad_, npmean. rewrite !map_length, n_fsum, n_div_l. do 2 f_equal. apply (n_dev fabs). apply n_abs.
Qed.
Lemma n_rolling_mad : forall w mp s, rolling w mp (agg_apply mad_) (N s) = rolling w mp (agg_apply mad_) s.
Proof.
  intros. rewrite <- (rmap_id (rolling w mp (agg_apply mad_) s)). apply n_rolling_gen. intros. cbn [win_agg agg_apply]. unfold win_apply.
  now rewrite n_obs, map_length, n_mad.
Qed.
Lemma n_ewm_go : forall al mp s n avg ow, ewm_go al mp n (fopp avg) ow (N s) = N (ewm_go al mp n avg ow s).
Proof.
  induction s; intros; auto. cbn [map ewm_go]. rewrite !n_isnan, n_eqb.
  assert (B : (if feqb avg a then fopp avg else fdiv (fadd (fmul (fmul ow (fsub (fofZ 1) al)) (fopp avg)) (fmul al (fopp a))) (fadd (fmul ow (fsub (fofZ 1) al)) al))
    = fopp (if feqb avg a then avg else fdiv (fadd (fmul (fmul ow (fsub (fofZ 1) al)) avg) (fmul al a)) (fadd (fmul ow (fsub (fofZ 1) al)) al))).
  { destruct (feqb avg a); auto. now rewrite !n_mul_r, n_add, n_div_l. }
  destruct (fisnan avg), (fisnan a); cbn [negb]; cbv zeta iota beta; rewrite ?B, IHs; destruct (mp <=? _)%nat; reflexivity.
Qed.
Lemma n_ewm_span : forall w mp s, ewm_span w mp (N s) = rmap (map fopp) (ewm_span w mp s).
Proof. intros. unfold ewm_span. destruct (w <? 1)%Z; auto. cbn [rmap]. f_equal. unfold ewm_com. rewrite n_prep. apply (n_ewm_go _ _ _ _ NaN). Qed.
Lemma n_ema : forall s w fl, ema_ (N s) w fl = rmap (map fopp) (ema_ s w fl).
Proof. intros. apply n_ewm_span. Qed.
Lemma n_sma : forall s w fl, sma_ (N s) w fl = rmap (map fopp) (sma_ s w fl).
Proof. intros. apply n_rolling_mean. Qed.
Lemma n_ssub : forall s u, ssub (N s) (N u) = N (ssub s u).
Proof. intros. apply map2_through, n_sub. Qed.
Lemma n_sadd : forall s u, sadd (N s) (N u) = N (sadd s u).
Proof. intros. apply map2_through, n_add. Qed.
Lemma n_ssub_swap : forall s u, N (ssub s u) = ssub u s.
Proof.
  intros. unfold ssub. rewrite map_map2. revert u. induction s; intros [|y u]; auto. cbn [map2]. now rewrite sub_swap, IHs.
Qed.
Lemma n_scal : forall c s, scal c (N s) = N (scal c s).
Proof. intros. unfold scal. rewrite !map_map. apply map_ext. intros. apply n_mul_r. Qed.
Lemma n_divs : forall c s, divs (N s) c = N (divs s c).
Proof. intros. unfold divs. rewrite !map_map. apply map_ext. intros. apply n_div_l. Qed.
Lemma n_muls : forall c s, muls (N s) c = N (muls s c).
Proof. intros. unfold muls. rewrite !map_map. apply map_ext. intros. apply n_mul_l. Qed.
Lemma n_sdiv_l : forall s u, sdiv (N s) u = N (sdiv s u).
Proof. intros. apply map2_l. apply n_div_l. Qed.
Lemma n_smul_l : forall s u, smul (N s) u = N (smul s u).
Proof. intros. apply map2_l. apply n_mul_l. Qed.
Lemma n_sabs : forall s, map fabs (N s) = map fabs s.
Proof. intros. rewrite map_map. apply map_ext, n_abs. Qed.
Lemma n_diff1 : forall s, diff1 (N s) = N (diff1 s).
Proof. intros. unfold diff1. now rewrite n_shift, n_ssub. Qed.
Lemma n_cumsum : forall s, cumsum (N s) = N (cumsum s).
Proof.
  intros. unfold cumsum. rewrite <- n_zero at 1. generalize (fofZ 0 : xr). induction s; intros x; auto.
  cbn [map cumsum_go]. rewrite n_isnan, n_add. destruct (fisnan a); now rewrite IHs.
Qed.
Lemma sadd_comm : forall s u : list xr, sadd s u = sadd u s.
Proof.
  induction s; intros [|y u]; auto. unfold sadd in *. cbn [map2]. rewrite IHs. f_equal.
  destruct a as [| | |x], y as [| | |y]; cbn; auto. f_equal. lra.
Qed.
Lemma sadd_assoc_swap : forall s u w : list xr, sadd (sadd s u) w = sadd (sadd u s) w.
Proof. intros. now rewrite (sadd_comm s u). Qed.
(** the three ranges come in another order *)
Lemma nanmax_swap : forall a b c : xr, nanmax [a; b; c] = nanmax [a; c; b].
Proof.
  intros [| | |a] [| | |b] [| | |c]; cbn; try reflexivity; unfold fmax2; cbn;
    repeat (match goal with |- context [Rlt_dec ?x ?y] => destruct (Rlt_dec x y) end; cbn); try reflexivity;
    try (f_equal; lra); try (exfalso; lra).
Qed.
Lemma n_true_range : forall h l c, true_range (N l) (N h) (N c) = true_range h l c.
Proof.
  intros. unfold true_range. rewrite !n_ssub, !n_sabs, n_ssub_swap.
  generalize (ssub h l), (map fabs (ssub h c)), (map fabs (ssub l c)). intros x.
  induction x; intros [|y s] [|z u]; cbn [map3]; auto. now rewrite IHx, nanmax_swap.
Qed.

(** ** through results *)
Lemma rmap_rmap : forall {B C D} (g : C -> D) (f : B -> C) m, rmap g (rmap f m) = rmap (fun x => g (f x)) m.
Proof. now intros B C D g f [x|]. Qed.
Lemma bind_rmap : forall {B C D} (f : B -> C) (k : C -> result D) m, bind (rmap f m) k = bind m (fun x => k (f x)).
Proof. now intros B C D f k [x|]. Qed.
Lemma rmap_bind : forall {B C D} (f : C -> D) (k : B -> result C) m, rmap f (bind m k) = bind m (fun x => rmap f (k x)).
Proof. now intros B C D f k [x|]. Qed.
Lemma bind_ext : forall {B C} (k k' : B -> result C) m, (forall x, k x = k' x) -> bind m k = bind m k'.
Proof. intros B C k k' [x|] H; cbn; auto. Qed.
Lemma bind_swap : forall {B C D} (m : result B) (m' : result C) (k : B -> C -> result D),
  (forall e e', m = Raise e -> m' = Raise e' -> e = e') ->
  bind m (fun x => bind m' (fun y => k x y)) = bind m' (fun y => bind m (fun x => k x y)).
Proof. intros B C D [x|e] [y|e'] k H; cbn; auto. now rewrite (H e e'). Qed.
Lemma rolling_raise : forall w mp agg (s : list xr) e, rolling w mp agg s = Raise e -> e = ValueError.
Proof. intros w mp agg s e. unfold rolling. destruct (_ || _)%bool; congruence. Qed.
Lemma roll_swap : forall {D} w mp agg s w' mp' agg' s' (k : list xr -> list xr -> result D),
  bind (rolling w mp agg s) (fun x => bind (rolling w' mp' agg' s') (fun y => k x y)) =
  bind (rolling w' mp' agg' s') (fun y => bind (rolling w mp agg s) (fun x => k x y)).
Proof. intros. apply bind_swap. intros e e' E E'. rewrite (rolling_raise _ _ _ _ _ E), (rolling_raise _ _ _ _ _ E'). auto. Qed.
