(** * Kama: KAMA on finite data (C28). *)
From Verif Require Import Lists Api SpecNum Align Rows Fill Tab Averages Range Oscillators.
Local Open Scope R_scope.

Lemma nth_map_lt : forall {A B} (g : A -> B) l i d d', (i < length l)%nat -> nth i (map g l) d = g (nth i l d').
Proof. intros. rewrite nth_indep with (d' := g d') by (rewrite map_length; lia). apply map_nth. Qed.
Lemma np_roll_tab : forall (w n : nat) (f : nat -> xr), (w <= n)%nat -> (1 <= n)%nat ->
  np_roll (Z.of_nat w) (tab n f) = tab n (fun i => if (i <? w)%nat then f (i + n - w)%nat else f (i - w)%nat).
Proof.
  intros w n f Hw Hn. unfold np_roll.
  assert (E : forall r : list xr, match tab n f with [] => [] | _ => r end = r) by (destruct n; [lia|reflexivity]).
  rewrite E. rewrite len_tab. clear E. set (m := Z.to_nat _).
  assert (Hm : m = (if (w =? n)%nat then 0 else w)%nat).
  { unfold m. destruct (Nat.eqb_spec w n) as [->|].
    - rewrite Z.mod_same by lia. reflexivity.
    - rewrite Z.mod_small by lia. apply Nat2Z.id. }
  apply list_tab with NaN.
  - rewrite app_length, skipn_length, firstn_length, len_tab. destruct (w =? n)%nat; lia.
  - intros i Hi. destruct (Nat.eqb_spec w n) as [->|N].
    + rewrite Hm. rewrite Nat.sub_0_r, skipn_all2 by (rewrite len_tab; lia).
      rewrite firstn_all2 by (rewrite len_tab; lia). cbn [app]. rewrite nth_tab by auto.
      destruct (Nat.ltb_spec i n); [|lia]. f_equal. lia.
    + rewrite Hm. destruct (Nat.ltb_spec i w).
      * rewrite app_nth1 by (rewrite skipn_length, len_tab; lia). rewrite nth_skipn', nth_tab by lia. f_equal. lia.
      * rewrite app_nth2 by (rewrite skipn_length, len_tab; lia).
        rewrite skipn_length, len_tab, nth_firstn_lt, nth_tab by lia. f_equal. lia.
Qed.
Lemma path_triangle : forall (g : nat -> R) a k,
  Rabs (g (a + k)%nat - g a) <= rsum (fun j => Rabs (delta g j)) (S a) k.
Proof.
  induction k; cbn [rsum].
  - rewrite Nat.add_0_r, Rminus_diag_eq, Rabs_R0 by auto. lra.
  - rewrite Nat.add_succ_r. unfold delta at 2. replace (S a + k - 1)%nat with (a + k)%nat by lia.
    replace (S a + k)%nat with (S (a + k)) by lia.
    eapply Rle_trans with (Rabs (g (S (a + k)) - g (a + k)%nat) + Rabs (g (a + k)%nat - g a)).
    + replace (g (S (a + k)) - g a) with ((g (S (a + k)) - g (a + k)%nat) + (g (a + k)%nat - g a)) by ring. apply Rabs_triang.
    + lra.
Qed.
Lemma efficiency_range : forall w c i, (1 <= w <= i)%nat -> 0 <= efficiency w c i <= 1.
Proof.
  intros w c i Hi. unfold efficiency.
  pose proof (path_triangle c (i - w) w). replace (i - w + w)%nat with i in H by lia.
  replace (S (i - w)) with (S i - w)%nat in H by lia.
  pose proof (Rabs_pos (c i - c (i - w)%nat)).
  destruct (Req_EM_T _ 0); [lra|]. split.
  - apply Rmult_le_pos; auto. apply Rlt_le, Rinv_0_lt_compat. lra.
  - apply Rmult_le_reg_r with (rsum (fun j => Rabs (delta c j)) (S i - w) w); [lra|].
    unfold Rdiv. rewrite Rmult_assoc, Rinv_l; lra.
Qed.

(** The smoothing constant: NaN before row w-1, some number at row w-1 (it
    sees the wrapped-around last close, but is not used), then the formula. *)
Lemma kama_sc_rows : forall w p q n c, (1 <= w)%nat -> (0 <= p)%Z -> (0 <= q)%Z ->
  exists s, kama_sc (tab n (from 0 c)) (Z.of_nat w) p q false = Ok (tab n (from (w - 1) s)) /\
    forall i, (w <= i < n)%nat -> s i = kama_sc_value (2 / IZR (p + 1)) (2 / IZR (q + 1)) (efficiency w c i).
Proof.
  intros w p q n c Hw Hp Hq.
  assert (P0 : IZR (p + 1) <> 0) by (apply not_0_IZR; lia).
  assert (Q0 : IZR (q + 1) <> 0) by (apply not_0_IZR; lia).
  assert (D : (n = 0 \/ 1 <= n)%nat) by lia. destruct D as [->|Hn].
  { exists c. split; [|intros; lia]. unfold kama_sc. cbn [minp_of].
    pose proof (sum_full w 0 0 c Hw) as S. cbn [tab map seq] in *. change (np_roll 1 []) with (@nil xr). cbn [ssub map2 map]. rewrite S. cbn [bind].
    destruct (Z.eqb_spec p (-1)); [lia|]. destruct (Z.eqb_spec q (-1)); [lia|]. reflexivity. }
  set (v := fun i => Rabs (c i - (if (i <? 1)%nat then c (i + n - 1)%nat else c (i - 1)%nat))).
  set (m := fun i => Rabs (c i - (if (i <? w)%nat then c (i + n - w)%nat else c (i - w)%nat))).
  set (s := fun i => kama_sc_value (2 / IZR (p + 1)) (2 / IZR (q + 1))
                       (if Req_EM_T (wsum w v i) 0 then 0 else m i / wsum w v i)).
  exists s. split.
  - unfold kama_sc.
    assert (V : map fabs (ssub (tab n (from 0 c)) (np_roll 1 (tab n (from 0 c)))) = tab n (from 0 v)).
    { change 1%Z with (Z.of_nat 1). rewrite (np_roll_tab 1 n) by lia. unfold ssub. rewrite map2_tab, map_tab. apply tab_ext. intros i Hi.
      unfold from, fromx, v. cbn [Nat.ltb Nat.leb]. destruct i; reflexivity. }
    rewrite V. change (minp_of false (Z.of_nat w)) with (Z.of_nat w). rewrite sum_full by auto. cbn [bind Nat.add].
    destruct (Z.eqb_spec p (-1)); [lia|]. destruct (Z.eqb_spec q (-1)); [lia|]. cbn [orb]. f_equal.
    assert (D : (n < w \/ w <= n)%nat) by lia. destruct D as [D|D].
    + apply list_tab with NaN.
      { rewrite map_length, length_map2, map_length. unfold ssub. rewrite length_map2, len_np_roll, !len_tab. lia. }
      intros i Hi. unfold from at 4, fromx. destruct (Nat.ltb_spec i (w - 1)); [|lia].
      set (l := map2 _ _ _). assert (L : length l = n).
      { unfold l. rewrite length_map2, map_length. unfold ssub. rewrite length_map2, len_np_roll, !len_tab. lia. }
      rewrite nth_map_lt with (d' := NaN) by lia.
      replace (nth i l NaN) with NaN; [reflexivity|].
      unfold l. rewrite nth_map2 with (da := NaN) (db := NaN) by (rewrite ?map_length; unfold ssub; rewrite ?length_map2, ?len_np_roll, ?len_tab; lia).
      rewrite nth_tab by auto. unfold from, fromx. destruct (Nat.ltb_spec i (w - 1)); [|lia].
      cbn. destruct (nth i _ NaN); reflexivity.
    + rewrite np_roll_tab by lia. unfold ssub. rewrite map2_tab, map_tab, map2_tab, map_tab. apply tab_ext. intros i Hi.
      unfold from, fromx, s, m. destruct (Nat.ltb_spec i (w - 1)).
      * destruct (i <? w)%nat; reflexivity.
      * set (X := if (i <? w)%nat then c (i + n - w)%nat else c (i - w)%nat).
        replace (if (i <? w)%nat then if (i + n - w <? 0)%nat then NaN else Fin (c (i + n - w)%nat)
                 else if (i - w <? 0)%nat then NaN else Fin (c (i - w)%nat)) with (Fin X) by (unfold X; destruct (i <? w)%nat; reflexivity).
        cbn [Nat.ltb Nat.leb]. cbn [fsub fabs fofZ XR].
        destruct (Req_EM_T (wsum w v i) 0) as [->|N].
        -- cbn. destruct (Req_EM_T 0 0); [|lra]. cbn. destruct (Req_EM_T (IZR (p + 1)) 0); [lra|]. destruct (Req_EM_T (IZR (q + 1)) 0); [lra|]. cbn. unfold kama_sc_value, Rsqr. f_equal; try ring.
        -- cbn. destruct (Req_EM_T (wsum w v i) 0); [lra|]. cbn. 
           destruct (Req_EM_T (wsum w v i) 0); [lra|].
           destruct (Req_EM_T (IZR (p + 1)) 0); [lra|]. destruct (Req_EM_T (IZR (q + 1)) 0); [lra|].
           cbn. unfold kama_sc_value, Rsqr. f_equal; try ring.
  - intros i Hi. unfold s, m, efficiency.
    assert (E : wsum w v i = rsum (fun j => Rabs (delta c j)) (S i - w) w).
    { unfold wsum. rewrite wlen_full by lia. apply rsum_ext. unfold wlo. intros j Hj. unfold v, delta.
      destruct (Nat.ltb_spec j 1); [lia|]. reflexivity. }
    rewrite E. destruct (Nat.ltb_spec i w); [lia|]. reflexivity.
Qed.

Lemma kama_run_rows : forall s c k n, kama_go (tab n (from k s)) (tab n (from 0 c)) true (Fin 0) =
  tab n (from k (fun i => kama_val s c k (i - k))).
Proof.
  intros.
  assert (G2 : forall m a p, (k < a)%nat -> p = kama_val s c k (a - 1 - k) ->
    kama_go (map (from k s) (seq a m)) (map (from 0 c) (seq a m)) false (Fin p) =
    map (from k (fun i => kama_val s c k (i - k))) (seq a m)).
  { induction m; intros a p Ha Hp; [reflexivity|]. cbn [seq map]. 
    unfold from at 1 3 5, fromx at 1 2 3. destruct (Nat.ltb_spec a k); [lia|]. cbn [Nat.ltb Nat.leb kama_go fisnan XR xisnan fadd fmul fsub xadd xmul xsub xopp].
    assert (V : p + s a * (c a + - p) = kama_val s c k (a - k)).
    { replace (a - k)%nat with (S (a - 1 - k)) by lia. cbn [kama_val]. replace (k + S (a - 1 - k))%nat with a by lia.
      rewrite <- Hp. ring. }
    rewrite V. f_equal. apply IHm; [lia|]. do 2 f_equal. lia. }
  assert (G1 : forall m a p, (a <= k)%nat ->
    kama_go (map (from k s) (seq a m)) (map (from 0 c) (seq a m)) true p =
    map (from k (fun i => kama_val s c k (i - k))) (seq a m)).
  { induction m; intros a p Ha; [reflexivity|]. cbn [seq map].
    unfold from at 1 3 5, fromx at 1 2 3. destruct (Nat.ltb_spec a k); cbn [kama_go fisnan XR xisnan fnan Nat.ltb Nat.leb].
    - f_equal. apply IHm. lia.
    - assert (a = k) by lia. subst a. rewrite Nat.sub_diag. cbn [kama_val]. f_equal. apply G2; [lia|].
      replace (S k - 1 - k)%nat with 0%nat by lia. reflexivity. }
  unfold tab. apply G1. lia.
Qed.
Lemma kama_val_ext : forall s s' c k j, (forall i, (k < i <= k + j)%nat -> s i = s' i) -> kama_val s c k j = kama_val s' c k j.
Proof. induction j; intros H; cbn [kama_val]; auto. rewrite IHj, H by (intros; try apply H; lia). reflexivity. Qed.
Lemma kama_formula : forall w p q n h l c v, (1 <= w)%nat -> (0 <= p)%Z -> (0 <= q)%Z ->
  compute (Kama (Z.of_nat w) p q) false (frame n h l c v) =
  Ok (tab n (from (w - 1) (fun i =>
    kama_val (fun j => kama_sc_value (2 / IZR (p + 1)) (2 / IZR (q + 1)) (efficiency w c j)) c (w - 1) (i - (w - 1))))).
Proof.
  intros w p q n h l c v Hw Hp Hq. cbn [compute]. cols. unfold kama, kama_run.
  destruct (kama_sc_rows w p q n c Hw Hp Hq) as (s & E & H). rewrite E. cbn [bind rmap check_fillna]. f_equal.
  change (#0)%F with (Fin 0). rewrite kama_run_rows. apply fromx_ext. intros i Hi. f_equal. apply kama_val_ext.
  intros j Hj. apply H. lia.
Qed.
Lemma kama_val_range : forall s c k j m M, (forall i, (k < i <= k + j)%nat -> 0 <= s i <= 1) ->
  (forall i, (i <= k + j)%nat -> m <= c i <= M) -> m <= kama_val s c k j <= M.
Proof.
  induction j; intros m M Hs Hc; cbn [kama_val]; [apply Hc; lia|].
  assert (B : m <= kama_val s c k j <= M) by (apply IHj; intros; [apply Hs|apply Hc]; lia).
  specialize (Hs (k + S j)%nat ltac:(lia)). specialize (Hc (k + S j)%nat ltac:(lia)). nra.
Qed.
Lemma unit_power : forall p, (1 <= p)%Z -> 0 <= 2 / IZR (p + 1) <= 1.
Proof.
  intros. assert (2 <= IZR (p + 1)) by (apply IZR_le; lia). split.
  - apply Rmult_le_pos; [lra|]. apply Rlt_le, Rinv_0_lt_compat. lra.
  - apply Rmult_le_reg_r with (IZR (p + 1)); [lra|]. unfold Rdiv. rewrite Rmult_assoc, Rinv_l; lra.
Qed.
Lemma kama_range : forall w p q n h l c v i x out, (1 <= w)%nat -> (1 <= p)%Z -> (1 <= q)%Z ->
  compute (Kama (Z.of_nat w) p q) false (frame n h l c v) = Ok out -> (i < n)%nat -> nth i out NaN = x ->
  within (rmin c 0 i) (rmax c 0 i) x.
Proof.
  intros w p q n h l c v i x out Hw Hp Hq H Hi E. rewrite kama_formula in H by lia. injection H as <-.
  rewrite nth_tab in E by auto. subst x. unfold from, fromx. destruct (Nat.ltb_spec i (w - 1)); [exact I|].
  cbn [within]. apply kama_val_range.
  - intros j Hj. pose proof (efficiency_range w c j ltac:(lia)). pose proof (unit_power p Hp). pose proof (unit_power q Hq).
    set (f := 2 / IZR (p + 1)) in *. set (g := 2 / IZR (q + 1)) in *. set (e := efficiency w c j) in *.
    assert (0 <= e * (f - g) + g <= 1) by nra. unfold kama_sc_value, Rsqr. nra.
  - intros j Hj. split; [apply rmin_le with (a := 0%nat)|apply rmax_ge with (a := 0%nat)]; lia.
Qed.
