(** * FloatExact: series that binary64 computes exactly, or with one rounding. *)
From Flocq Require Import Core PrimFloat.
From Coq Require Import Reals Lra Floats Permutation.
From Flocq Require Import BinarySingleNaN.
From Verif Require Import Lists Align Rows Running Arith FloatArith FloatReal Order FloatOrder Api FloatPct FloatEma SpecTracking.
Local Open Scope R_scope.
#[local] Existing Instance Hprec.
#[local] Existing Instance Hmax.
#[local] Existing Instance fexp_ok.

(** ** comparisons and gaps go through [val] *)
Notation m := (map val).
Lemma v_isnan : forall x : float, fisnan (val x) = fisnan x.
Proof. intros. rewrite val_nan. cbn. now destruct (val x). Qed.
Lemma v_isinf : forall x : float, fisinf (val x) = fisinf x.
Proof. intros. rewrite val_inf. cbn. now destruct (val x). Qed.
Lemma v_ltb : forall x y : float, fltb (val x) (val y) = fltb x y.
Proof. intros. rewrite val_ltb. reflexivity. Qed.
Lemma v_firstn : forall k s, firstn k (m s) = m (firstn k s). Proof. intros. apply firstn_map. Qed.
Lemma v_skipn : forall k s, skipn k (m s) = m (skipn k s). Proof. intros. apply skipn_map. Qed.
Lemma v_repeat : forall k x, m (repeat x k) = repeat (val x) k. Proof. induction k; intros; cbn; auto. now rewrite IHk. Qed.
Lemma v_shift : forall k s, shift k (m s) = m (shift k s).
Proof.
  intros. unfold shift, shift_fill. rewrite map_length. destruct (0 <=? k)%Z; rewrite map_app, v_repeat, val_fnan.
  - now rewrite v_firstn.
  - now rewrite v_skipn.
Qed.
Lemma v_prep : forall s, prep (m s) = m (prep s).
Proof.
  intros. unfold prep. rewrite !map_map. apply map_ext. intros x. rewrite v_isinf. destruct (fisinf x); auto; symmetry; exact val_fnan.
Qed.
Lemma v_obs : forall s, obs (m s) = m (obs s).
Proof. induction s; auto. unfold obs in *. cbn [map filter]. rewrite v_isnan. destruct (fisnan a); cbn [negb map]; now rewrite IHs. Qed.
Lemma v_ffill : forall s x, ffill_go (val x) (m s) = m (ffill_go x s).
Proof. induction s; intros; auto. cbn [map ffill_go]. rewrite v_isnan. destruct (fisnan a); now rewrite IHs. Qed.
Lemma v_bfill : forall s, bfill (m s) = m (bfill s).
Proof.
  induction s; auto. cbn [map bfill]. rewrite v_isnan, IHs. f_equal. destruct (fisnan a); auto.
  destruct (bfill s); cbn [map hd]; auto; symmetry; exact val_fnan.
Qed.
Lemma v_check : forall b z s, (-1 <= z <= 1000)%Z -> check_fillna b (FillInt z) (m s) = m (check_fillna b (FillInt z) s).
Proof.
  intros b z s Hz. unfold check_fillna. destruct b; auto. change (replace_inf (m s)) with (prep (m s)). change (replace_inf s) with (prep s).
  rewrite v_prep. unfold ffill.
  replace (@fnan xr XR) with (val fnan) by exact val_fnan. rewrite v_ffill. destruct (z =? -1)%Z; [apply v_bfill|].
  unfold fillna_const. rewrite !map_map. apply map_ext. intros x. rewrite v_isnan. destruct (fisnan x); auto. rewrite val_small by lia. reflexivity.
Qed.
Lemma v_rolling_all : forall agg agg', (forall k (s : list float), agg' k (m s) = val (agg k s)) ->
  forall w mp s, rolling w mp (by_window agg') (m s) = rmap m (rolling w mp (by_window agg) s).
Proof.
  intros agg agg' H w mp s. unfold rolling. destruct ((_ <? 0)%Z || _ || _); auto. cbn [rmap roll_rows]. f_equal.
  rewrite !len_prep, map_length, map_map. apply map_ext. intros i. rewrite v_prep. unfold window_at in *. now rewrite v_firstn, v_skipn, H.
Qed.
Lemma v_max2 : forall a b, fmax2 (val a) (val b) = val (fmax2 a b).
Proof. intros. unfold fmax2. rewrite v_ltb. now destruct (fltb a b). Qed.
Lemma v_min2 : forall a b, fmin2 (val a) (val b) = val (fmin2 a b).
Proof. intros. unfold fmin2. rewrite v_ltb. now destruct (fltb b a). Qed.
Lemma v_fold : forall f f', (forall a b, f' (val a) (val b) = val (f a b)) -> forall s x, fold_left f' (m s) (val x) = val (fold_left f s x).
Proof. intros f f' H. induction s; intros; auto. cbn [map fold_left]. now rewrite H, IHs. Qed.
Lemma v_nanmax : forall s, nanmax (m s) = val (nanmax s).
Proof. intros. unfold nanmax. rewrite v_obs. destruct (obs s); cbn [map]; [symmetry; apply val_fnan|]. apply v_fold, v_max2. Qed.
Lemma v_nanmin : forall s, nanmin (m s) = val (nanmin s).
Proof. intros. unfold nanmin. rewrite v_obs. destruct (obs s); cbn [map]; [symmetry; apply val_fnan|]. apply v_fold, v_min2. Qed.
Lemma v_agg_max : forall k s, win_max k (m s) = val (win_max k s).
Proof. intros. unfold win_max. rewrite v_obs, map_length, v_nanmax. destruct (_ <? k)%nat; auto; symmetry; apply val_fnan. Qed.
Lemma v_agg_min : forall k s, win_min k (m s) = val (win_min k s).
Proof. intros. unfold win_min. rewrite v_obs, map_length, v_nanmin. destruct (_ <? k)%nat; auto; symmetry; apply val_fnan. Qed.

Lemma rows_val : forall rows, map b_high (map real_bar rows) = m (map b_high rows) /\ map b_low (map real_bar rows) = m (map b_low rows) /\
  map b_close (map real_bar rows) = m (map b_close rows) /\ map b_volume (map real_bar rows) = m (map b_volume rows).
Proof. intros. rewrite !map_map. auto. Qed.
Theorem donchian_exact : forall w o fillna rows,
  compute (DcH w o) fillna (map real_bar rows) = rmap (map val) (compute (DcH w o) fillna rows) /\
  compute (DcL w o) fillna (map real_bar rows) = rmap (map val) (compute (DcL w o) fillna rows).
Proof.
  intros w o fillna rows. destruct (rows_val rows) as (E1 & E2 & _). cbn [compute]. rewrite E1, E2.
  unfold donchian_channel_hband, donchian_channel_lband, donchian_run.
  rewrite (v_rolling_all win_max win_max v_agg_max : forall w mp s, rolling w mp agg_max (m s) = _), (v_rolling_all win_min win_min v_agg_min : forall w mp s, rolling w mp agg_min (m s) = _).
  change (@by_window float win_max) with (@agg_max float _). change (@by_window float win_min) with (@agg_min float _).
  assert (O : forall s, donchian_offset o (m s) = m (donchian_offset o s)) by (intros; unfold donchian_offset; destruct (negb _); auto; apply v_shift).
  destruct (rolling _ _ agg_max _); cbn [bind rmap]; [|easy]. destruct (rolling _ _ agg_min _); cbn [bind rmap]; [|easy].
  rewrite !v_check, !O by lia. auto.
Qed.

(** ** sums on a grid *)
Fixpoint zsum (ks : list Z) : Z := match ks with nil => 0%Z | k :: r => (k + zsum r)%Z end.
Lemma zsum_app : forall a b, zsum (a ++ b) = (zsum a + zsum b)%Z. Proof. induction a; intros; cbn [zsum app]; auto. rewrite IHa. lia. Qed.
Lemma zsum_total : forall ks, (Z.abs (zsum ks) <= total ks)%Z. Proof. induction ks; cbn [zsum total]; lia. Qed.
Section Grid.
Variable e : Z.
Hypothesis e1 : (-1074 <= e)%Z.
Hypothesis e2 : (e <= 900)%Z.
Let g := bpow radix2 e.
Lemma repr_grid : forall k, (Z.abs k <= 2 ^ 53)%Z -> repr (IZR k * g).
Proof.
  intros k H. destruct (Z.eq_dec (Z.abs k) (2 ^ 53)) as [E|E].
  - assert (K : k = (2 ^ 53)%Z \/ k = (- 2 ^ 53)%Z) by lia.
    assert (P : IZR (2 ^ 53) * g = bpow radix2 (53 + e)) by (rewrite bpow_plus; reflexivity).
    destruct K as [-> | ->].
    + rewrite P. apply repr_bpow; lia.
    + replace (IZR (- 2 ^ 53) * g) with (- bpow radix2 (53 + e)) by (rewrite opp_IZR, <- P; ring). apply generic_format_opp. apply repr_bpow; lia.
  - change (generic_format radix2 (FLT_exp (3 - emax - prec) prec) (IZR k * g)). apply generic_format_FLT.
    exists (Float radix2 k e); [reflexivity| |exact e1]. cbn [Fnum]. change (radix2 ^ prec)%Z with (2 ^ 53)%Z. lia.
Qed.
Lemma grid_small : forall k, (Z.abs k <= 2 ^ 53)%Z -> Rabs (IZR k * g) <= bpow radix2 1020.
Proof.
  intros k H. rewrite Rabs_mult, <- abs_IZR, (Rabs_pos_eq g) by apply bpow_ge_0.
  apply Rle_trans with (bpow radix2 (53 + e)); [|apply bpow_le; lia]. rewrite bpow_plus. apply Rmult_le_compat_r; [apply bpow_ge_0|].
  change (bpow radix2 53) with (IZR (2 ^ 53)). now apply IZR_le.
Qed.
Lemma grid_add : forall j k x y, on_grid e j x -> on_grid e k y -> (Z.abs (j + k) <= 2 ^ 53)%Z ->
  on_grid e (j + k) (fadd x y) /\ xadd (val x) (val y) = val (fadd x y).
Proof.
  intros j k x y Hx Hy H. unfold on_grid in *. fold g in Hx, Hy |- *. rewrite val_add, Hx, Hy. cbn [xadd].
  replace (IZR j * g + IZR k * g) with (IZR (j + k) * g) by (rewrite plus_IZR; ring).
  rewrite rx_small by now apply grid_small. rewrite rnd_id by now apply repr_grid. auto.
Qed.
Lemma grid_zero : on_grid e 0 (fofZ 0).
Proof. unfold on_grid. rewrite val_small by lia. f_equal. ring. Qed.
Lemma total_nn : forall ks, (0 <= total ks)%Z. Proof. induction ks; cbn [total]; lia. Qed.

(** *** simple moving average: one rounding *)
Variables (w : nat) (N : Z).
Hypothesis N1 : (1 <= N)%Z.
Hypothesis wN : (Z.of_nat w * N <= 2 ^ 53)%Z.
Lemma in_prep : forall x s, Forall (quoted e N) s -> In x (prep s) -> fisnan x = false -> exists k, on_grid e k x /\ (Z.abs k <= N)%Z.
Proof.
  intros x s H I Nx. unfold prep in I. apply in_map_iff in I as (y & E & I). destruct (fisinf y) eqn:Iy.
  - subst x. discriminate.
  - subst y. rewrite Forall_forall in H. destruct (H x I) as [Q|[Q|Q]]; auto; [change (fisnan x = true) in Q|change (fisinf x = true) in Q]; congruence.
Qed.
Lemma grid_list : forall s : list float, (forall x, In x s -> exists k, on_grid e k x /\ (Z.abs k <= N)%Z) ->
  exists ks, Forall2 (on_grid e) ks s /\ (total ks <= Z.of_nat (length s) * N)%Z.
Proof.
  induction s as [|x s IH]; intros H; [exists nil; split; [constructor|cbn; lia]|].
  destruct (H x (or_introl eq_refl)) as (k & G & B). destruct IH as (ks & I1 & I2); [intros; apply H; now right|].
  exists (k :: ks). split; [now constructor|]. cbn [total length]. lia.
Qed.
Lemma obs_len : forall (s : list float), (length (obs s) <= length s)%nat.
Proof. unfold obs. induction s; cbn [filter length]; auto. destruct (negb _); cbn [length]; lia. Qed.
(** the running sum is exact, and its compensations stay 0 *)
Lemma grid_sub : forall j k x y, on_grid e j x -> on_grid e k y -> (Z.abs (j - k) <= 2 ^ 53)%Z -> on_grid e (j - k) (fsub x y).
Proof.
  intros j k x y Hx Hy H. unfold on_grid in *. fold g in Hx, Hy |- *. rewrite val_sub, Hx, Hy. unfold xsub. cbn [xadd xopp].
  replace (IZR j * g + - (IZR k * g)) with (IZR (j - k) * g) by (rewrite minus_IZR; ring).
  rewrite rx_small by now apply grid_small. now rewrite rnd_id by now apply repr_grid.
Qed.
Lemma grid_opp : forall k x, on_grid e k x -> on_grid e (- k) (fopp x).
Proof. intros k x H. unfold on_grid in *. rewrite val_opp, H. cbn [xopp]. f_equal. rewrite opp_IZR. ring. Qed.
Definition tick (x : float) : Prop := fisnan x = true \/ exists k, on_grid e k x /\ (Z.abs k <= N)%Z.
Definition summed (l : list float) (q : ksum) : Prop := exists ks, Forall2 (on_grid e) ks (obs l) /\ Forall (fun k => (Z.abs k <= N)%Z) ks /\
  on_grid e (zsum ks) (k_sum q) /\ on_grid e 0 (k_add q) /\ on_grid e 0 (k_rem q).
Lemma total_le : forall ks, Forall (fun k => (Z.abs k <= N)%Z) ks -> (total ks <= Z.of_nat (length ks) * N)%Z.
Proof. induction 1; cbn [total length]; lia. Qed.
Lemma obs_app : forall a b : list float, obs (a ++ b) = obs a ++ obs b. Proof. intros. unfold obs. apply filter_app. Qed.
Lemma forall2_len : forall A B (R : A -> B -> Prop) a b, Forall2 R a b -> length a = length b. Proof. induction 1; cbn; auto. Qed.
Lemma N53 : (1 <= w)%nat -> (N <= 2 ^ 53)%Z. Proof. nia. Qed.
Lemma summed_put : forall l q x, (length l < w)%nat -> tick x -> summed l q -> summed (l ++ [x]) (sum_put x q).
Proof.
  intros l q x L X (ks & G & B & Gs & Ga & Gr). pose proof (N53 ltac:(lia)) as B53. unfold sum_put.
  destruct (fisnan x) eqn:Nx.
  { exists ks. rewrite obs_app. unfold obs at 2. cbn [filter]. rewrite Nx. cbn [negb]. rewrite !app_nil_r. auto. }
  destruct X as [X|(k & Gk & Bk)]; [congruence|].
  assert (Lk : (length ks <= length l)%nat) by (rewrite (forall2_len _ _ _ _ _ G); apply obs_len).
  pose proof (total_le ks B) as T. pose proof (zsum_total ks) as Z.
  assert (Y : on_grid e k (fsub x (k_add q))) by (replace k with (k - 0)%Z by lia; apply grid_sub; auto; lia).
  assert (S : (Z.abs (zsum ks + k) <= 2 ^ 53)%Z) by nia.
  assert (TT : on_grid e (zsum ks + k) (fadd (k_sum q) (fsub x (k_add q)))) by (apply grid_add; auto).
  exists (ks ++ [k]). cbn [k_sum k_add k_rem]. split; [|split; [|split; [|split]]]; auto.
  - rewrite obs_app. apply Forall2_app; auto. unfold obs. cbn [filter]. rewrite Nx. cbn [negb]. auto.
  - apply Forall_app. split; auto.
  - rewrite zsum_app. cbn [zsum]. now rewrite Z.add_0_r.
  - replace 0%Z with (k - k)%Z by lia. apply grid_sub; auto; [|lia].
    replace k with (zsum ks + k - zsum ks)%Z at 1 by lia. apply grid_sub; auto. lia.
Qed.
Lemma summed_take : forall l q x, (length l < w)%nat -> tick x -> summed (x :: l) q -> summed l (sum_take x q).
Proof.
  intros l q x L X (ks & G & B & Gs & Ga & Gr). pose proof (N53 ltac:(lia)) as B53. unfold sum_take.
  unfold obs in G. cbn [filter] in G. destruct (fisnan x) eqn:Nx; cbn [negb] in G; [exists ks; auto|].
  inversion G as [|k ? ks' ? Gk G' E1 E2]; subst. inversion B as [|? ? Bk B']; subst. cbn [zsum] in Gs.
  assert (Lk : (length ks' <= length l)%nat) by (rewrite (forall2_len _ _ _ _ _ G'); apply obs_len).
  pose proof (total_le ks' B') as T. pose proof (zsum_total ks') as Z.
  assert (Y : on_grid e (- k) (fsub (fopp x) (k_rem q))).
  { replace (- k)%Z with (- k - 0)%Z by lia. apply grid_sub; auto using grid_opp. lia. }
  assert (S : (Z.abs (k + zsum ks' + - k) <= 2 ^ 53)%Z) by nia.
  assert (TT : on_grid e (k + zsum ks' + - k) (fadd (k_sum q) (fsub (fopp x) (k_rem q)))) by (apply grid_add; auto).
  exists ks'. cbn [k_sum k_add k_rem]. split; [|split; [|split; [|split]]]; auto.
  - now replace (zsum ks') with (k + zsum ks' + - k)%Z by lia.
  - replace 0%Z with (- k - - k)%Z by lia. apply grid_sub; auto; [|lia].
    replace (- k)%Z with (k + zsum ks' + - k - (k + zsum ks'))%Z at 1 by lia. apply grid_sub; auto. nia.
Qed.
Lemma ticks : forall s, Forall (quoted e N) s -> Forall tick (prep s).
Proof.
  intros s H. apply Forall_forall. intros x I. destruct (fisnan x) eqn:Nx; [now left|right]. eapply in_prep; eauto.
Qed.
Lemma run_summed : forall i s, (1 <= w)%nat -> Forall (quoted e N) s -> (i < length s)%nat ->
  summed (window_at w i (prep s)) (nth i (run sum_put sum_take sum_start w (prep s)) sum_start).
Proof.
  intros i s W H Hi. apply (run_follows _ sum_put sum_take sum_start tick summed); auto using ticks, summed_put, summed_take.
  - exists nil. repeat split; try constructor; apply grid_zero.
  - now rewrite len_prep.
Qed.
Lemma fold_grid : forall s ks, Forall2 (on_grid e) ks s -> forall j, fold_left fadd (m s) (Fin (IZR j * g)) = Fin (IZR (j + zsum ks) * g).
Proof.
  induction 1 as [|k x ks s H _ IH]; intros j; cbn [zsum map fold_left]; [now rewrite Z.add_0_r|].
  unfold on_grid in H. fold g in H. rewrite H. cbn [fadd XR xadd]. replace (IZR j * g + IZR k * g) with (IZR (j + k) * g) by (rewrite plus_IZR; ring).
  rewrite IH. now rewrite Z.add_assoc.
Qed.
Lemma gpos : 0 < g. Proof. apply bpow_gt_0. Qed.
Lemma grid_ltb : forall k x, on_grid e k x -> fltb x (fofZ 0) = (k <? 0)%Z /\ fltb (fofZ 0) x = (0 <? k)%Z.
Proof.
  intros k x H. unfold on_grid in H. fold g in H. rewrite !val_ltb, H, (val_small 0) by lia. cbn [xltb]. pose proof gpos.
  split; destruct (Rlt_dec _ _) as [L|L]; symmetry.
  - apply Z.ltb_lt, lt_IZR. nra.
  - apply Z.ltb_ge, le_IZR. nra.
  - apply Z.ltb_lt, lt_IZR. nra.
  - apply Z.ltb_ge, le_IZR. nra.
Qed.
Lemma signs : forall o ks, Forall2 (on_grid e) ks o ->
  (length (filter signbit o) = 0%nat -> (0 <= zsum ks)%Z) /\ (length (filter signbit o) = length o -> (zsum ks <= 0)%Z).
Proof.
  induction 1 as [|k x ks o H _ [IH1 IH2]]; cbn [filter length zsum]; [lia|].
  destruct (grid_ltb k x H) as [L1 L2].
  assert (Le : (length (filter signbit o) <= length o)%nat).
  { clear. induction o; cbn [filter length]; auto. destruct (signbit a); cbn [length]; lia. }
  destruct (signbit x) eqn:S; cbn [length].
  - split; [lia|]. intros E. injection E as E. specialize (IH2 E). cut (k <= 0)%Z; [lia|].
    unfold signbit in S. rewrite L1 in S. destruct (Z.ltb_spec k 0); [lia|]. cbn [orb] in S. apply andb_prop in S as [S _].
    rewrite val_eqb in S. unfold on_grid in H. rewrite H, (val_small 0) in S by lia. cbn [xeqb] in S. fold g in S.
    destruct Req_EM_T as [E0|]; [|discriminate]. pose proof gpos. destruct (Z.le_gt_cases k 0) as [|K]; auto. apply IZR_lt in K. nra.
  - split; [|lia]. intros E. specialize (IH1 E). unfold signbit in S. rewrite L1 in S. destruct (Z.ltb_spec k 0); [discriminate|lia].
Qed.
Lemma rx_div_nn : forall a b, 0 <= a -> 0 < b -> a / b <= bpow radix2 1020 -> exists r, rx (Fin (a / b)) = Fin r /\ 0 <= r.
Proof.
  intros a b Ha Hb B. assert (0 <= a / b) by (apply Rmult_le_pos; [auto|left; now apply Rinv_0_lt_compat]).
  rewrite rx_small by now rewrite Rabs_pos_eq. exists (rnd (a / b)). split; auto. rewrite <- rnd_0. now apply rnd_le.
Qed.
Lemma rx_div_np : forall a b, a <= 0 -> 0 < b -> - (a / b) <= bpow radix2 1020 -> exists r, rx (Fin (a / b)) = Fin r /\ r <= 0.
Proof.
  intros a b Ha Hb B. assert (a / b <= 0).
  { unfold Rdiv. replace 0 with (a * 0) by ring. apply Rmult_le_compat_neg_l; auto. left. now apply Rinv_0_lt_compat. }
  rewrite rx_small by now rewrite Rabs_left1. exists (rnd (a / b)). split; auto. rewrite <- rnd_0. now apply rnd_le.
Qed.
Lemma mean_rounds : forall k i s, Forall (quoted e N) s -> (i < length s)%nat ->
  val (calc_row agg_mean w k i (prep s)) = rx (win_mean k (m (window_at w i (prep s)))).
Proof.
  intros k i s H Hi. cbn [calc_row]. unfold calc_mean, win_mean. rewrite v_obs, map_length. set (o := obs (window_at w i (prep s))).
  destruct ((_ <? k)%nat || (_ =? 0)%nat) eqn:Q; [exact val_fnan|]. apply orb_false_iff in Q as [_ Q]. apply Nat.eqb_neq in Q.
  assert (Len : (length o <= w)%nat).
  { eapply Nat.le_trans; [apply obs_len|]. unfold window_at. rewrite skipn_length, firstn_length. lia. }
  destruct (run_summed i s ltac:(lia) H Hi) as (ks & G & B & Gs & _). fold o in G.
  set (S := k_sum (nth i _ _)) in *. clearbody S.
  pose proof (total_le ks B) as T. pose proof (zsum_total ks) as Zt. rewrite (forall2_len _ _ _ _ _ G) in T.
  assert (L53 : (Z.abs (Z.of_nat (length o)) <= 2 ^ 53)%Z) by nia.
  assert (E : fsum (m o) = Fin (IZR (zsum ks) * g)).
  { rewrite fsum_left. change (fofZ 0) with (Fin (IZR 0)). replace (IZR 0) with (IZR 0 * g) by ring. exact (fold_grid _ _ G 0%Z). }
  assert (D : val (fdiv S (fofnat (length o))) = rx (fdiv (fsum (m o)) (fofnat (length o)))).
  { unfold fofnat. rewrite val_div; rewrite (val_small _ L53); [|intros Z0; injection Z0 as Z0; apply (eq_IZR _ 0) in Z0; lia].
    unfold on_grid in Gs. fold g in Gs. now rewrite Gs, E. }
  destruct (signs o ks G) as [S1 S2]. cbv zeta.
  assert (P : 0 < INR (length o)) by (apply lt_0_INR; lia).
  assert (B20 : Rabs (IZR (zsum ks) * g / INR (length o)) <= bpow radix2 1020).
  { unfold Rdiv. rewrite Rabs_mult, (Rabs_pos_eq (/ INR _)) by (left; now apply Rinv_0_lt_compat).
    apply Rle_trans with (Rabs (IZR (zsum ks) * g) * 1); [|rewrite Rmult_1_r; apply grid_small; nia].
    apply Rmult_le_compat_l; [apply Rabs_pos|]. rewrite <- Rinv_1. apply Rinv_le_contravar; [lra|]. apply (le_INR 1). lia. }
  assert (Dx : val (fdiv S (fofnat (length o))) = rx (Fin (IZR (zsum ks) * g / INR (length o)))).
  { rewrite D, E. unfold fofnat. cbn [fofZ XR]. rewrite <- INR_IZR_INZ. cbn [fdiv XR xdiv]. destruct Req_EM_T as [E0|]; [lra|reflexivity]. }
  pose proof gpos as Gp.
  destruct ((length (filter signbit o) =? 0)%nat && _) eqn:C1.
  { exfalso. apply andb_prop in C1 as [C1 C2]. apply Nat.eqb_eq in C1. specialize (S1 C1). apply IZR_le in S1.
    rewrite val_ltb, Dx, (val_small 0) in C2 by lia.
    destruct (rx_div_nn (IZR (zsum ks) * g) (INR (length o))) as (r & Er & Hr); auto; [nra|eapply Rle_trans; [apply Rle_abs|exact B20]|].
    rewrite Er in C2. cbn [xltb] in C2. destruct Rlt_dec; [lra|discriminate]. }
  destruct ((length (filter signbit o) =? length o)%nat && _) eqn:C3; [|exact D].
  exfalso. apply andb_prop in C3 as [C3 C2]. apply Nat.eqb_eq in C3. specialize (S2 C3). apply IZR_le in S2.
  rewrite val_ltb, Dx, (val_small 0) in C2 by lia.
  destruct (rx_div_np (IZR (zsum ks) * g) (INR (length o))) as (r & Er & Hr); auto; [nra|eapply Rle_trans; [|exact B20]; rewrite <- Rabs_Ropp; apply Rle_abs|].
  rewrite Er in C2. cbn [xltb] in C2. destruct Rlt_dec; [lra|discriminate].
Qed.
Theorem sma_one_rounding : forall fillna rows, Forall (fun b => quoted e N (b_close b)) rows ->
  rmap (map rx) (compute (Sma (Z.of_nat w)) fillna (map real_bar rows)) = rmap (map val) (compute (Sma (Z.of_nat w)) fillna rows).
Proof.
  intros fillna rows H. destruct (rows_val rows) as (_ & _ & E & _). cbn [compute]. rewrite E. unfold sma_indicator, sma_.
  assert (Hs : Forall (quoted e N) (map b_close rows)) by (rewrite Forall_map; exact H).
  set (c := map b_close rows) in *. clearbody c. rewrite rolling_xr.
  destruct (rolling _ _ agg_mean c) as [r|] eqn:R.
  - pose proof (len_rolling _ _ _ _ _ R) as Lr. pose proof R as R'. unfold rolling in R'. destruct (_ || _); [discriminate|]. clear R'.
    cbn [rmap]. f_equal. apply list_eq_nth with (d := NaN); [now rewrite !map_length, seq_length|].
    rewrite map_map, map_length, seq_length, map_length. intros i Hi.
    rewrite nth_indep with (d' := val fnan) (l := m r) by (rewrite map_length; lia). rewrite map_nth.
    rewrite (nth_rolling_row _ _ _ _ _ _ _ R) by auto. rewrite Nat2Z.id, mean_rounds by auto.
    match goal with |- nth i (map ?f _) _ = _ => rewrite nth_indep with (d' := f 0%nat) by (rewrite map_length, seq_length; auto); rewrite (map_nth f) end.
    rewrite seq_nth by auto. cbn [win_agg plus]. rewrite v_prep. unfold window_at. now rewrite v_firstn, v_skipn.
  - unfold rolling in R. destruct (_ || _); [|discriminate]. injection R as <-. reflexivity.
Qed.
End Grid.

(** *** on-balance volume: exact *)
Section Obv.
Variable e : Z.
Hypothesis e1 : (-1074 <= e)%Z.
Hypothesis e2 : (e <= 900)%Z.
Lemma cumsum_exact : forall s ks, Forall2 (lot e) ks s -> forall j acc, on_grid e j acc -> (Z.abs j + total ks <= 2 ^ 53)%Z ->
  cumsum_go (val acc) (m s) = m (cumsum_go acc s).
Proof.
  induction 1 as [|k x ks s H _ IH]; intros j acc Ha T; cbn [total] in T; [reflexivity|]. pose proof (total_nn ks).
  cbn [map cumsum_go]. rewrite v_isnan. destruct (fisnan x) eqn:Nx.
  - cbn [map]. rewrite val_fnan. f_equal. apply IH with j; auto. lia.
  - destruct H as [H|H]; [change (fisnan x = true) in H; congruence|]. destruct (grid_add e e1 e2 j k acc x Ha H) as [G E]; [lia|]. cbn [fadd XR]. rewrite E. cbn [map]. f_equal.
    apply IH with (j := (j + k)%Z); auto. lia.
Qed.
Theorem obv_exact : forall fillna rows ks, Forall2 (lot e) ks (map b_volume rows) -> (total ks <= 2 ^ 53)%Z ->
  compute Obv fillna (map real_bar rows) = rmap (map val) (compute Obv fillna rows).
Proof.
  intros fillna rows ks H T. destruct (rows_val rows) as (_ & _ & E3 & E4). cbn [compute]. rewrite E3, E4. unfold on_balance_volume. cbn [rmap].
  f_equal. rewrite <- v_check by lia. f_equal. rewrite v_shift. set (p := shift 1 (map b_close rows)). clearbody p. set (c := map b_close rows). clearbody c.
  assert (G : forall c p v ks, Forall2 (lot e) ks v ->
    map3 (fun x y z : xr => if fltb x y then fopp z else z) (m c) (m p) (m v) = m (map3 (fun x y z : float => if fltb x y then fopp z else z) c p v) /\
    exists ks', Forall2 (lot e) ks' (map3 (fun x y z : float => if fltb x y then fopp z else z) c p v) /\ (total ks' <= total ks)%Z).
  { clear. induction c as [|a c IH]; intros p v ks H; [split; auto; exists nil; split; [constructor|apply total_nn]|].
    destruct p as [|b p]; [split; auto; exists nil; split; [constructor|apply total_nn]|].
    destruct H as [|k x ks v H Hv]; [split; auto; exists nil; split; [constructor|apply total_nn]|].
    destruct (IH p v ks Hv) as [I1 (ks' & I2 & I3)]. cbn [map map3]. rewrite I1, v_ltb. split.
    - f_equal. destruct (fltb a b); auto. now rewrite val_opp.
    - exists ((if fltb a b then - k else k)%Z :: ks'). split.
      + constructor; auto. destruct (fltb a b); auto. destruct H as [H|H].
        * left. change (fisnan x = true) in H. change (fisnan (fopp x) = true). rewrite val_nan in *. rewrite val_opp. now destruct (val x).
        * right. unfold on_grid in *. rewrite val_opp, H. cbn [xopp]. f_equal. rewrite opp_IZR. ring.
      + cbn [total]. destruct (fltb a b); lia. }
  destruct (G c p (map b_volume rows) ks H) as [G1 (ks' & G2 & G3)]. rewrite G1. unfold cumsum.
  replace (@fofZ xr XR 0) with (val (fofZ 0)) by (rewrite val_small by lia; reflexivity).
  eapply cumsum_exact; eauto; [apply grid_zero|lia].
Qed.
End Obv.

(** *** the order of additions does not matter on a grid *)
Section Order.
Variable e : Z.
Hypothesis e1 : (-1074 <= e)%Z.
Hypothesis e2 : (e <= 900)%Z.
Lemma total_app : forall a b, total (a ++ b) = (total a + total b)%Z. Proof. induction a; intros; cbn [total app]; auto. rewrite IHa. lia. Qed.
Lemma added_exact : forall t ks, Forall2 (on_grid e) ks (terms t) -> (total ks <= 2 ^ 53)%Z -> on_grid e (zsum ks) (added t).
Proof.
  induction t as [x|s IHs t IHt]; intros ks H T; cbn [terms added] in *.
  - inversion H as [|k ? ks' ? K Hk]; subst. inversion Hk; subst. cbn [zsum]. now rewrite Z.add_0_r.
  - apply Forall2_app_inv_r in H as (k1 & k2 & H1 & H2 & ->). rewrite total_app in T. pose proof (total_nn k1). pose proof (total_nn k2).
    rewrite zsum_app. apply (grid_add e e1 e2); [apply IHs; auto; lia|apply IHt; auto; lia|].
    pose proof (zsum_total k1). pose proof (zsum_total k2). lia.
Qed.
Lemma grid_perm : forall a b, Permutation a b -> forall ks, Forall2 (on_grid e) ks a ->
  exists ks', Forall2 (on_grid e) ks' b /\ zsum ks' = zsum ks /\ total ks' = total ks.
Proof.
  induction 1 as [|x a b P IH|x y a|a b c P1 IH1 P2 IH2]; intros ks H.
  - inversion H; subst. exists nil. auto.
  - inversion H as [|k ? ks' ? K Hk]; subst. destruct (IH _ Hk) as (q & I1 & I2 & I3). exists (k :: q). cbn [zsum total]. split; [now constructor|lia].
  - inversion H as [|k ? ks' ? K Hk]; subst. inversion Hk as [|j ? ks'' ? J Hj]; subst. exists (j :: k :: ks''). cbn [zsum total]. split; [auto|lia].
  - destruct (IH1 _ H) as (q & I1 & I2 & I3). destruct (IH2 _ I1) as (q' & J1 & J2 & J3). exists q'. split; auto. lia.
Qed.
Theorem adding_order : forall s t ks, Forall2 (on_grid e) ks (terms s) -> (total ks <= 2 ^ 53)%Z -> Permutation (terms s) (terms t) ->
  PrimFloat.eqb (added s) (added t) = true.
Proof.
  intros s t ks H T P. destruct (grid_perm _ _ P _ H) as (q & I1 & I2 & I3). pose proof (added_exact s ks H T) as A.
  pose proof (added_exact t q I1 ltac:(lia)) as B. unfold on_grid in A, B. rewrite I2 in B.
  change (feqb (added s) (added t) = true). rewrite val_eqb, A, B. cbn. destruct Req_EM_T; auto.
Qed.
End Order.
