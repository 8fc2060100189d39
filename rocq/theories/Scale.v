(** * Scale: how the operations behave when all values are multiplied by a
    positive factor or shifted by a constant (C60, C61). *)
From Verif Require Import Lists Api Rows Running.
Local Open Scope R_scope.

Record pos := mkpos { pv :> R; pv_pos : 0 < pv }.
(** multiply by a positive factor / add a constant; NaN and infinities stay *)
Inductive trans := Sc (k : pos) | Sh (a : R).
Definition act (t : trans) (x : xr) : xr :=
  match x, t with Fin r, Sc k => Fin (k * r) | Fin r, Sh a => Fin (r + a) | _, _ => x end.
Definition pmul (p q : pos) : pos := mkpos (p * q) (Rmult_lt_0_compat _ _ (pv_pos p) (pv_pos q)).
Definition pinv (p : pos) : pos := mkpos (/ p) (Rinv_0_lt_compat _ (pv_pos p)).

Lemma act_nan : forall t, act t NaN = NaN. Proof. now destruct t. Qed.
Lemma act_isnan : forall t x, fisnan (act t x) = fisnan x. Proof. now destruct t, x. Qed.
Lemma act_isinf : forall t x, fisinf (act t x) = fisinf x. Proof. now destruct t, x. Qed.
Lemma act_ltb : forall t x y, fltb (act t x) (act t y) = fltb x y.
Proof.
  intros. destruct x as [| | |x], y as [| | |y], t as [k|a]; try reflexivity; cbn.
  - pose proof (pv_pos k). destruct (Rlt_dec (k * x) (k * y)), (Rlt_dec x y); auto; exfalso; nra.
  - destruct (Rlt_dec (x + a) (y + a)), (Rlt_dec x y); auto; exfalso; lra.
Qed.
Lemma act_eqb : forall t x y, feqb (act t x) (act t y) = feqb x y.
Proof.
  intros. destruct x as [| | |x], y as [| | |y], t as [k|a]; try reflexivity; cbn.
  - pose proof (pv_pos k). destruct (Req_EM_T (k * x) (k * y)), (Req_EM_T x y); auto; exfalso; nra.
  - destruct (Req_EM_T (x + a) (y + a)), (Req_EM_T x y); auto; exfalso; lra.
Qed.

(** ** single operations, scaling *)
Section One.
Variables k q : pos.
Notation s := (act (Sc k)).
Lemma sc_zero : s (fofZ 0) = fofZ 0. Proof. cbn. f_equal. lra. Qed.
Lemma sc_add : forall x y, fadd (s x) (s y) = s (fadd x y).
Proof. intros [| | |x] [| | |y]; cbn; try reflexivity. f_equal. lra. Qed.
Lemma sc_opp : forall x, fopp (s x) = s (fopp x).
Proof. intros [| | |x]; cbn; try reflexivity. f_equal. lra. Qed.
Lemma sc_sub : forall x y, fsub (s x) (s y) = s (fsub x y).
Proof. intros [| | |x] [| | |y]; cbn; try reflexivity. f_equal. lra. Qed.
Lemma sc_sign : forall x, rsign (k * x) = rsign x.
Proof.
  intros. pose proof (pv_pos k). unfold rsign.
  destruct (Rlt_dec 0 (k * x)), (Rlt_dec 0 x); auto; try (exfalso; nra).
  destruct (Rlt_dec (k * x) 0), (Rlt_dec x 0); auto; exfalso; nra.
Qed.
Lemma xinf_act : forall z, s (xinf z) = xinf z.
Proof. intros. unfold xinf. destruct (z =? 0)%Z; auto. destruct (0 <? z)%Z; auto. Qed.
Lemma sc_mul_l : forall x y, fmul (s x) y = s (fmul x y).
Proof.
  intros [| | |x] [| | |y]; cbn [fmul XR act xmul xsign]; rewrite ?xinf_act, ?sc_sign; try reflexivity.
  cbn. f_equal. ring.
Qed.
Lemma xmul_comm : forall x y, fmul x y = fmul y x.
Proof.
  intros [| | |x] [| | |y]; cbn [fmul XR xmul xsign]; try reflexivity; try (f_equal; lia).
  f_equal. ring.
Qed.
Lemma sc_mul_r : forall x y, fmul x (s y) = s (fmul x y).
Proof. intros. rewrite xmul_comm, sc_mul_l. f_equal. apply xmul_comm. Qed.
Lemma sc_div_l : forall x y, fdiv (s x) y = s (fdiv x y).
Proof.
  pose proof (pv_pos k).
  intros [| | |x] [| | |y]; cbn [fdiv XR act xdiv xsign]; try reflexivity; cbn; try (f_equal; lra).
  - destruct (Rlt_dec y 0); reflexivity.
  - destruct (Rlt_dec y 0); reflexivity.
  - destruct (Req_EM_T y 0); [now rewrite sc_sign, xinf_act|]. cbn. f_equal. field. auto.
Qed.
Lemma sc_div : forall x y, fdiv (s x) (s y) = fdiv x y.
Proof.
  pose proof (pv_pos k).
  intros [| | |x] [| | |y]; cbn [fdiv XR act xdiv xsign]; try reflexivity; cbn.
  - destruct (Rlt_dec (k * y) 0), (Rlt_dec y 0); auto; exfalso; nra.
  - destruct (Rlt_dec (k * y) 0), (Rlt_dec y 0); auto; exfalso; nra.
  - destruct (Req_EM_T (k * y) 0), (Req_EM_T y 0); try (exfalso; nra); [now rewrite sc_sign|]. f_equal. field. split; lra.
Qed.
Lemma sc_abs : forall x, fabs (s x) = s (fabs x).
Proof.
  pose proof (pv_pos k). intros [| | |x]; cbn; try reflexivity. f_equal. rewrite Rabs_mult, (Rabs_pos_eq k); lra.
Qed.
End One.
Lemma sc_sc : forall p q x, act (Sc p) (act (Sc q) x) = act (Sc (pmul p q)) x.
Proof. intros p q [| | |x]; cbn; try reflexivity. f_equal. ring. Qed.
Lemma sc_inv : forall p x y, fdiv x (act (Sc p) y) = act (Sc (pinv p)) (fdiv x y).
Proof.
  intros p. pose proof (pv_pos p) as P.
  intros [| | |x] [| | |y]; cbn [fdiv XR act xdiv xsign]; try reflexivity; cbn; try (f_equal; lra).
  - destruct (Rlt_dec (p * y) 0), (Rlt_dec y 0); auto; exfalso; nra.
  - destruct (Rlt_dec (p * y) 0), (Rlt_dec y 0); auto; exfalso; nra.
  - destruct (Req_EM_T (p * y) 0), (Req_EM_T y 0); try (exfalso; nra).
    + unfold xinf. destruct (_ =? 0)%Z; auto. destruct (0 <? _)%Z; auto.
    + cbn. f_equal. field. split; lra.
Qed.
Lemma sc_sqrt : forall p x, fsqrt (act (Sc (pmul p p)) x) = act (Sc p) (fsqrt x).
Proof.
  intros p [| | |x]; cbn; try reflexivity. pose proof (pv_pos p). assert (0 < p * p) by nra.
  destruct (Rlt_dec (p * p * x) 0), (Rlt_dec x 0); cbn; try reflexivity; try (exfalso; nra).
  f_equal. rewrite sqrt_mult_alt by nra. rewrite sqrt_square by lra. reflexivity.
Qed.
(** ** single operations, translation *)
Section Two.
Variable a : R.
Notation s := (act (Sh a)).
Lemma sh_sub : forall x y, fsub (s x) (s y) = fsub x y.
Proof. intros [| | |x] [| | |y]; cbn; try reflexivity. f_equal. lra. Qed.
Lemma sh_sub_l : forall x y, fsub (s x) y = s (fsub x y).
Proof. intros [| | |x] [| | |y]; cbn; try reflexivity. f_equal. lra. Qed.
Lemma sh_add_l : forall x y, fadd (s x) y = s (fadd x y).
Proof. intros [| | |x] [| | |y]; cbn; try reflexivity. f_equal. lra. Qed.
Lemma sh_add : forall b x y, fadd (s x) (act (Sh b) y) = act (Sh (a + b)) (fadd x y).
Proof. intros b [| | |x] [| | |y]; cbn; try reflexivity. f_equal. lra. Qed.
Lemma sh_scale : forall c x, fmul (Fin c) (s x) = act (Sh (c * a)) (fmul (Fin c) x).
Proof.
  intros c [| | |x]; cbn [fmul XR xmul act xsign]; try reflexivity; try (f_equal; ring);
   unfold xinf; destruct (_ =? 0)%Z; auto; destruct (0 <? _)%Z; auto.
Qed.
Lemma sh_divide : forall c x, c <> 0 -> fdiv (s x) (Fin c) = act (Sh (a / c)) (fdiv x (Fin c)).
Proof.
  intros c [| | |x] H; cbn [fdiv XR xdiv act xsign]; try reflexivity; try (destruct (Rlt_dec c 0); reflexivity).
  destruct (Req_EM_T c 0); [contradiction|]. cbn. f_equal. field. auto.
Qed.
End Two.
Lemma sh_0 : forall x, act (Sh 0) x = x.
Proof. intros [| | |x]; cbn; try reflexivity. f_equal. lra. Qed.

(** ** lists *)
Lemma map2_map : forall {B C D B' C'} (f : B' -> C' -> D) (g : B -> B') (h : C -> C') s t,
  map2 f (map g s) (map h t) = map2 (fun x y => f (g x) (h y)) s t.
Proof. induction s; intros [|]; cbn; auto. now rewrite IHs. Qed.
Lemma map2_ext2 : forall {B C D} (f g : B -> C -> D) s t, (forall x y, f x y = g x y) -> map2 f s t = map2 g s t.
Proof. induction s; intros [|] H; cbn; auto. rewrite H. f_equal. auto. Qed.
Lemma map_map2 : forall {B C D E} (g : D -> E) (f : B -> C -> D) s t,
  map g (map2 f s t) = map2 (fun x y => g (f x y)) s t.
Proof. induction s; intros [|]; cbn; auto. now rewrite IHs. Qed.
Lemma map3_map : forall {B C D E B' C' D'} (f : B' -> C' -> D' -> E) (g : B -> B') (h : C -> C') (i : D -> D') s t u,
  map3 f (map g s) (map h t) (map i u) = map3 (fun x y z => f (g x) (h y) (i z)) s t u.
Proof. induction s; intros [|] [|]; cbn; auto. now rewrite IHs. Qed.
Lemma map3_ext3 : forall {B C D E} (f g : B -> C -> D -> E) s t u, (forall x y z, f x y z = g x y z) -> map3 f s t u = map3 g s t u.
Proof. induction s; intros [|] [|] H; cbn; auto. rewrite H. f_equal. auto. Qed.
Lemma map_map3 : forall {B C D E G} (g : E -> G) (f : B -> C -> D -> E) s t u,
  map g (map3 f s t u) = map3 (fun x y z => g (f x y z)) s t u.
Proof. induction s; intros [|] [|]; cbn; auto. now rewrite IHs. Qed.
(** map2 of transformed columns *)
Lemma map2_through : forall (f f' : xr -> xr -> xr) g h k s t, (forall x y, f (g x) (h y) = k (f' x y)) ->
  map2 f (map g s) (map h t) = map k (map2 f' s t).
Proof. intros. rewrite map2_map, map_map2. now apply map2_ext2. Qed.
Lemma map2_same : forall {B} (f f' : xr -> xr -> B) g h s t, (forall x y, f (g x) (h y) = f' x y) ->
  map2 f (map g s) (map h t) = map2 f' s t.
Proof. intros. rewrite map2_map. now apply map2_ext2. Qed.

Section Lists.
Variable t : trans.
Notation m := (map (act t)).
Lemma t_repeat : forall n, m (repeat NaN n) = repeat NaN n.
Proof. induction n; cbn; auto. now f_equal. Qed.
Lemma t_repeat' : forall x n, repeat (act t x) n = m (repeat x n).
Proof. induction n; cbn; auto. now f_equal. Qed.
Lemma t_firstn : forall n s, firstn n (m s) = m (firstn n s). Proof. intros. apply firstn_map. Qed.
Lemma t_skipn : forall n s, skipn n (m s) = m (skipn n s). Proof. intros. apply skipn_map. Qed.
Lemma t_length : forall s, length (m s) = length s. Proof. intros. apply map_length. Qed.
Lemma t_nth : forall i s, nth i (m s) NaN = act t (nth i s NaN).
Proof. intros. change NaN with (act t NaN) at 1. apply map_nth. Qed.
Lemma t_shift_fill : forall n x s, shift_fill n (act t x) (m s) = m (shift_fill n x s).
Proof.
  intros. unfold shift_fill. destruct (0 <=? n)%Z; rewrite ?t_length, ?t_firstn, ?t_skipn, ?t_repeat', <- ?map_app; reflexivity.
Qed.
Lemma t_shift : forall n s, shift n (m s) = m (shift n s).
Proof. intros. unfold shift. rewrite <- t_shift_fill. reflexivity. Qed.
Lemma t_obs : forall s, obs (m s) = m (obs s).
Proof.
  unfold obs. induction s; auto. cbn [map filter]. rewrite act_isnan, IHs. destruct (negb (fisnan a)); auto.
Qed.
Lemma t_prep : forall s, prep (m s) = m (prep s).
Proof.
  intros. unfold prep. rewrite !map_map. apply map_ext. intros x. rewrite act_isinf. destruct (fisinf x); auto.
Qed.
Lemma t_replace_inf : forall s, replace_inf (m s) = m (replace_inf s). Proof. exact t_prep. Qed.
Lemma t_max2 : forall x y, fmax2 (act t x) (act t y) = act t (fmax2 x y).
Proof. intros. unfold fmax2. rewrite act_ltb. now destruct (fltb x y). Qed.
Lemma t_min2 : forall x y, fmin2 (act t x) (act t y) = act t (fmin2 x y).
Proof. intros. unfold fmin2. rewrite act_ltb. now destruct (fltb y x). Qed.
Lemma t_npmax2 : forall x y, npmax2 (act t x) (act t y) = act t (npmax2 x y).
Proof. intros. unfold npmax2. rewrite !act_isnan, t_max2. destruct (fisnan x), (fisnan y); auto. Qed.
Lemma t_npmin2 : forall x y, npmin2 (act t x) (act t y) = act t (npmin2 x y).
Proof. intros. unfold npmin2. rewrite !act_isnan, t_min2. destruct (fisnan x), (fisnan y); auto. Qed.
Lemma t_fold : forall f, (forall x y, f (act t x) (act t y) = act t (f x y)) ->
  forall s x, fold_left f (m s) (act t x) = act t (fold_left f s x).
Proof. intros f H. induction s; intros; cbn; auto. now rewrite H, IHs. Qed.
Lemma t_nanmax : forall s, nanmax (m s) = act t (nanmax s).
Proof.
  intros. unfold nanmax. rewrite t_obs. destruct (obs s); cbn [map]; [reflexivity|]. apply t_fold, t_max2.
Qed.
Lemma t_nanmin : forall s, nanmin (m s) = act t (nanmin s).
Proof.
  intros. unfold nanmin. rewrite t_obs. destruct (obs s); cbn [map]; [reflexivity|]. apply t_fold, t_min2.
Qed.
Lemma t_ffill_go : forall s x, ffill_go (act t x) (m s) = m (ffill_go x s).
Proof. induction s; intros; auto. cbn [map ffill_go]. rewrite act_isnan. destruct (fisnan a); now rewrite IHs. Qed.
Lemma t_ffill : forall s, ffill (m s) = m (ffill s).
Proof. intros. unfold ffill. rewrite <- t_ffill_go. reflexivity. Qed.
Lemma t_bfill : forall s, bfill (m s) = m (bfill s).
Proof.
  induction s; auto. cbn [map bfill]. rewrite act_isnan, IHs. f_equal. destruct (fisnan a); auto.
  destruct (bfill s); cbn; auto.
Qed.
Lemma t_fillna_const : forall z s, act t z = z -> fillna_const z (m s) = m (fillna_const z s).
Proof.
  intros. unfold fillna_const. rewrite !map_map. apply map_ext. intros x. rewrite act_isnan. now destruct (fisnan x).
Qed.
Lemma t_fillna_series : forall v s, fillna_series (m v) (m s) = m (fillna_series v s).
Proof. intros. unfold fillna_series. apply map2_through. intros. rewrite act_isnan. now destruct (fisnan x). Qed.
Lemma t_check_back : forall fl s, check_fillna fl (FillInt (-1)) (m s) = m (check_fillna fl (FillInt (-1)) s).
Proof. intros. unfold check_fillna. destruct fl; auto. cbn. now rewrite t_replace_inf, t_ffill, t_bfill. Qed.
Lemma t_check_series : forall fl v s, check_fillna fl (FillSeries (m v)) (m s) = m (check_fillna fl (FillSeries v) s).
Proof. intros. unfold check_fillna. destruct fl; auto. now rewrite t_replace_inf, t_ffill, t_fillna_series. Qed.
Lemma t_np_roll : forall k s, np_roll k (m s) = m (np_roll k s).
Proof.
  intros. unfold np_roll. destruct s as [|x s]; auto. change (m (x :: s)) with (act t x :: m s) at 1.
  cbn iota beta. change (act t x :: m s) with (m (x :: s)). rewrite t_length, t_skipn, t_firstn, map_app. reflexivity.
Qed.
Lemma t_rolling : forall (u : xr -> xr) w mp agg s, (forall k win, win_agg agg k (m win) = u (win_agg agg k win)) ->
  rolling w mp agg (m s) = rmap (map u) (rolling w mp agg s).
Proof.
  intros u w mp agg s H. rewrite !rolling_xr. destruct ((_ <? 0)%Z || _ || _); auto. cbn [rmap]. f_equal.
  rewrite t_length, map_map. apply map_ext. intros i. rewrite t_prep. unfold window_at. now rewrite t_firstn, t_skipn, H.
Qed.
Lemma t_agg_max : forall k win, win_max k (m win) = act t (win_max k win).
Proof. intros. unfold win_max. rewrite t_obs, t_length, t_nanmax. destruct (_ <? k)%nat; auto. Qed.
Lemma t_agg_min : forall k win, win_min k (m win) = act t (win_min k win).
Proof. intros. unfold win_min. rewrite t_obs, t_length, t_nanmin. destruct (_ <? k)%nat; auto. Qed.
Lemma t_rolling_max : forall w mp s, rolling w mp agg_max (m s) = rmap m (rolling w mp agg_max s).
Proof. intros. apply t_rolling, t_agg_max. Qed.
Lemma t_rolling_min : forall w mp s, rolling w mp agg_min (m s) = rmap m (rolling w mp agg_min s).
Proof. intros. apply t_rolling, t_agg_min. Qed.
Lemma t_agg_apply : forall u g k win, (forall x, g (m x) = u (g x)) -> u NaN = NaN ->
  win_apply g k (m win) = u (win_apply g k win).
Proof. intros. unfold win_apply. rewrite t_obs, t_length. destruct (k <=? _)%nat; auto. Qed.
Lemma t_argbest : forall better, (forall x y, better (act t x) (act t y) = better x y) ->
  forall s i bi b, argbest_go better i bi (act t b) (m s) = argbest_go better i bi b s.
Proof.
  intros better H. induction s; intros; auto. cbn [map argbest_go]. rewrite !act_isnan, H. destruct (fisnan b); auto. destruct (fisnan a); auto.
  destruct (better a b); auto.
Qed.
Lemma t_argmax : forall s, np_argmax (m s) = np_argmax s.
Proof. intros [|x s]; auto. apply t_argbest. intros. apply act_ltb. Qed.
Lemma t_argmin : forall s, np_argmin (m s) = np_argmin s.
Proof. intros [|x s]; auto. apply t_argbest. intros. apply act_ltb. Qed.
Lemma t_hd : forall s, hd NaN (m s) = act t (hd NaN s).
Proof. destruct s; cbn; auto. Qed.
Lemma t_upd : forall i x s, upd i (act t x) (m s) = m (upd i x s).
Proof. induction i; intros x [|y s]; cbn; auto. now rewrite IHi. Qed.
End Lists.

(** ** sums and means *)
Lemma fsum_sc : forall k s, fsum (map (act (Sc k)) s) = act (Sc k) (fsum s).
Proof. intros. rewrite !fsum_left. rewrite <- (sc_zero k) at 1. apply t_fold. intros. apply sc_add. Qed.
Lemma fsum_sh_go : forall a s x b, fold_left fadd (map (act (Sh a)) s) (act (Sh b) x) = act (Sh (b + INR (length s) * a)) (fold_left fadd s x).
Proof.
  induction s; intros.
  - cbn. replace (b + 0 * a) with b by lra. reflexivity.
  - cbn [map fold_left length]. rewrite sh_add, IHs, S_INR. do 2 f_equal. lra.
Qed.
Lemma fsum_sh : forall a s, fsum (map (act (Sh a)) s) = act (Sh (INR (length s) * a)) (fsum s).
Proof.
  intros. rewrite !fsum_left. rewrite <- (sh_0 (fofZ 0)) at 1. rewrite fsum_sh_go. f_equal. f_equal. lra.
Qed.
Lemma fofnat_fin : forall n, fofnat n = Fin (INR n).
Proof. intros. unfold fofnat. cbn. now rewrite <- INR_IZR_INZ. Qed.
Lemma t_mean : forall t s, (length s <> 0)%nat ->
  fdiv (fsum (map (act t) s)) (fofnat (length s)) = act t (fdiv (fsum s) (fofnat (length s))).
Proof.
  intros [k|a] s H.
  - now rewrite fsum_sc, sc_div_l.
  - rewrite fsum_sh, fofnat_fin. assert (INR (length s) <> 0) by now apply not_0_INR.
    rewrite sh_divide by auto. f_equal. f_equal. field. auto.
Qed.
Lemma t_smean : forall t s, smean (map (act t) s) = act t (smean s).
Proof.
  intros. rewrite !smean_obs, t_obs. destruct (obs s) as [|x o] eqn:E; [reflexivity|].
  change (map (act t) (x :: o)) with (act t x :: map (act t) o) at 1. cbv iota zeta.
  change (act t x :: map (act t) o) with (map (act t) (x :: o)). rewrite map_length. apply t_mean. cbn. lia.
Qed.
Lemma t_agg_mean : forall t k win, win_mean k (map (act t) win) = act t (win_mean k win).
Proof.
  intros. unfold win_mean. rewrite t_obs, map_length. destruct (Nat.eqb_spec (length (obs win)) 0).
  - now rewrite orb_true_r.
  - rewrite orb_false_r. destruct (_ <? k)%nat; auto. now apply t_mean.
Qed.
Lemma t_rolling_mean : forall t w mp s, rolling w mp agg_mean (map (act t) s) = rmap (map (act t)) (rolling w mp agg_mean s).
Proof. intros. apply t_rolling, t_agg_mean. Qed.
Lemma sc_agg_sum : forall p k win, win_sum k (map (act (Sc p)) win) = act (Sc p) (win_sum k win).
Proof. intros. unfold win_sum. rewrite t_obs, map_length, fsum_sc. now destruct (_ <? k)%nat. Qed.
Lemma sc_rolling_sum : forall p w mp s, rolling w mp agg_sum (map (act (Sc p)) s) = rmap (map (act (Sc p))) (rolling w mp agg_sum s).
Proof. intros. apply t_rolling, sc_agg_sum. Qed.
(** what the standard deviation does: scaled by a factor, unmoved by a shift *)
Definition spread (t : trans) : xr -> xr := match t with Sc k => act (Sc k) | Sh _ => fun x => x end.
Lemma t_dev : forall t s x, map (fun v => fsub v (act t x)) (map (act t) s) = map (spread t) (map (fun v => fsub v x) s).
Proof. intros. rewrite !map_map. apply map_ext. intros y. destruct t; cbn [spread]; [apply sc_sub|apply sh_sub]. Qed.
Lemma t_agg_std : forall t k win, win_std0 k (map (act t) win) = spread t (win_std0 k win).
Proof.
  intros. unfold win_std0. rewrite t_obs, map_length. destruct (Nat.eqb_spec (length (obs win)) 0).
  - rewrite orb_true_r. now destruct t.
  - rewrite orb_false_r. destruct (_ <? k)%nat; [now destruct t|]. rewrite t_mean by auto.
    set (x := fdiv (fsum (obs win)) (fofnat (length (obs win)))). rewrite map_map.
    destruct t as [p|a]; cbn [spread].
    + rewrite <- sc_sqrt, <- sc_div_l, <- fsum_sc, map_map. do 3 f_equal. apply map_ext. intros y.
      rewrite sc_sub, sc_mul_l, sc_mul_r, sc_sc. reflexivity.
    + do 3 f_equal. apply map_ext. intros y. now rewrite sh_sub.
Qed.
Lemma t_rolling_std : forall t w mp s, rolling w mp agg_std0 (map (act t) s) = rmap (map (spread t)) (rolling w mp agg_std0 s).
Proof. intros. apply t_rolling, t_agg_std. Qed.
Lemma t_npmean : forall t s, npmean (map (act t) s) = act t (npmean s) \/ s = [].
Proof.
  intros. destruct s as [|x s]; [now right|left]. unfold npmean. rewrite map_length. apply t_mean. cbn. lia.
Qed.
Lemma mad_nil : mad_ ([] : list xr) = NaN.
Proof.
  unfold mad_, npmean. rewrite !fsum_left. cbn. destruct (Req_EM_T 0 0); [|lra]. unfold rsign. destruct (Rlt_dec 0 0); [lra|]. reflexivity.
Qed.
Lemma t_mad : forall t s, mad_ (map (act t) s) = spread t (mad_ s).
Proof.
  intros. destruct s as [|x s]; [cbn [map]; rewrite mad_nil; now destruct t|].
  set (l := x :: s). unfold mad_. destruct (t_npmean t l) as [-> | E]; [|discriminate].
  unfold npmean at 1 3. rewrite !map_length. set (m := npmean l). rewrite map_map.
  destruct t as [p|a]; cbn [spread].
  - rewrite <- sc_div_l, <- fsum_sc, map_map. do 2 f_equal. apply map_ext. intros y. now rewrite sc_sub, sc_abs.
  - do 2 f_equal. apply map_ext. intros y. now rewrite sh_sub.
Qed.
Lemma spread_nan : forall t, spread t NaN = NaN. Proof. now destruct t. Qed.
Lemma t_rolling_mad : forall t w mp s, rolling w mp (agg_apply mad_) (map (act t) s) = rmap (map (spread t)) (rolling w mp (agg_apply mad_) s).
Proof. intros. apply t_rolling. intros. apply t_agg_apply; [apply t_mad|apply spread_nan]. Qed.

(** ** exponential averages *)
Lemma sc_ewm_go : forall p al mp s n avg ow,
  ewm_go al mp n (act (Sc p) avg) ow (map (act (Sc p)) s) = map (act (Sc p)) (ewm_go al mp n avg ow s).
Proof.
  induction s; intros; auto. cbn [map ewm_go]. rewrite !act_isnan, act_eqb.
  destruct (fisnan avg), (fisnan a); cbn [negb]; rewrite ?IHs.
  - f_equal. now destruct (_ <=? _)%nat.
  - f_equal. now destruct (_ <=? _)%nat.
  - f_equal. now destruct (_ <=? _)%nat.
  - destruct (feqb avg a); rewrite ?sc_mul_r, ?sc_add, ?sc_div_l, IHs; f_equal; now destruct (_ <=? _)%nat.
Qed.
Lemma sh_ewm_go : forall b al, 0 < al <= 1 -> forall mp s n avg o, 0 <= o -> fisinf avg = false -> Forall (fun x => fisinf x = false) s ->
  ewm_go (Fin al) mp n (act (Sh b) avg) (Fin o) (map (act (Sh b)) s) = map (act (Sh b)) (ewm_go (Fin al) mp n avg (Fin o) s).
Proof.
  intros b al Hal mp. induction s; intros n avg o Ho Ha Hs; auto. apply Forall_cons_iff in Hs. destruct Hs as [Hx Hs].
  cbn [map ewm_go]. rewrite !act_isnan, act_eqb.
  destruct (fisnan avg) eqn:N1, (fisnan a) eqn:N2; cbn [negb].
  - rewrite IHs by auto. f_equal. now destruct (_ <=? _)%nat.
  - rewrite IHs by auto. f_equal. now destruct (_ <=? _)%nat.
  - change (fmul (Fin o) (fsub (fofZ 1) (Fin al))) with (Fin (o * (1 + - al))). rewrite IHs; auto; [|nra].
    f_equal. now destruct (_ <=? _)%nat.
  - destruct avg as [| | |u]; try discriminate. destruct a as [| | |x]; try discriminate.
    destruct (feqb (Fin u) (Fin x)).
    + change (fofZ 1) with (Fin 1). rewrite IHs; auto; [|lra]. f_equal. now destruct (_ <=? _)%nat.
    + change (fmul (Fin o) (fsub (fofZ 1) (Fin al))) with (Fin (o * (1 + - al))).
      set (w := o * (1 + - al)). assert (0 <= w) by (unfold w; nra).
      assert (E : forall y z, fdiv (fadd (fmul (Fin w) (Fin y)) (fmul (Fin al) (Fin z))) (fadd (Fin w) (Fin al)) = Fin ((w * y + al * z) / (w + al))).
      { intros. cbn. destruct (Req_EM_T (w + al) 0); [lra|reflexivity]. }
      cbn [act]. rewrite !E. replace (Fin ((w * (u + b) + al * (x + b)) / (w + al))) with (act (Sh b) (Fin ((w * u + al * x) / (w + al)))).
      2:{ cbn. f_equal. field. lra. }
      change (fofZ 1) with (Fin 1). rewrite IHs; auto; [|lra]. f_equal. now destruct (_ <=? _)%nat.
Qed.
Lemma prep_no_inf : forall s : list xr, Forall (fun x => fisinf x = false) (prep s).
Proof. induction s; constructor; auto. destruct a; reflexivity. Qed.
Lemma t_ewm_span : forall t w mp s, ewm_span w mp (map (act t) s) = rmap (map (act t)) (ewm_span w mp s).
Proof.
  intros. unfold ewm_span. destruct (Z.ltb_spec w 1); auto. cbn [rmap]. f_equal. unfold ewm_com. rewrite t_prep.
  destruct t as [p|a].
  - apply (sc_ewm_go p _ _ _ _ NaN).
  - assert (E : exists al, 0 < al <= 1 /\ fdiv (fofZ 1) (fadd (fofZ 1) (fdiv (fsub (fofZ w) (fofZ 1)) (fofZ 2))) = Fin al).
    { assert (1 <= IZR w) by (apply IZR_le; lia). exists (1 / (1 + (IZR w + - 1) / 2)).
      split.
      - split; [apply Rdiv_lt_0_compat; lra|]. apply Rmult_le_reg_r with (1 + (IZR w + - 1) / 2); [lra|]. unfold Rdiv at 1. rewrite Rmult_assoc, Rinv_l by lra. lra.
      - cbn. destruct (Req_EM_T 2 0); [lra|]. cbn. destruct (Req_EM_T _ 0); [lra|]. reflexivity. }
    destruct E as (al & Hal & ->). apply (sh_ewm_go a al Hal _ _ _ NaN); [lra|reflexivity|apply prep_no_inf].
Qed.
Lemma sc_ewm_inv : forall p w mp s, ewm_inv_alpha w mp (map (act (Sc p)) s) = rmap (map (act (Sc p))) (ewm_inv_alpha w mp s).
Proof.
  intros. unfold ewm_inv_alpha. destruct (w =? 0)%Z; auto. destruct (w <? 0)%Z; auto. cbn [rmap]. f_equal.
  unfold ewm_com. rewrite t_prep. apply (sc_ewm_go p _ _ _ _ NaN).
Qed.
Lemma t_sma : forall t s w fl, sma_ (map (act t) s) w fl = rmap (map (act t)) (sma_ s w fl).
Proof. intros. apply t_rolling_mean. Qed.
Lemma t_ema : forall t s w fl, ema_ (map (act t) s) w fl = rmap (map (act t)) (ema_ s w fl).
Proof. intros. apply t_ewm_span. Qed.
