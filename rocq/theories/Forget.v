(** * Forget: lemmas for C73 (exponential averages never forget) and C74 (how
    fast they do) *)
From Coq Require Import Reals Lra.
From Verif Require Import Lists Api SpecNum Tab Averages Bands SpecMemory SpecForget.
Local Open Scope R_scope.

Lemma exp_forget : forall a f g k d, (forall t, (k < t)%nat -> f t = g t) ->
  exp_go a f 0 (k + d) - exp_go a g 0 (k + d) = (1 - a) ^ d * (exp_go a f 0 k - exp_go a g 0 k).
Proof.
  intros a f g k d H. induction d; [rewrite Nat.add_0_r; cbn; ring|].
  rewrite Nat.add_succ_r. cbn [exp_go pow]. rewrite (H (0 + S (k + d))%nat) by lia.
  transitivity ((1 - a) * (exp_go a f 0 (k + d) - exp_go a g 0 (k + d))); [ring|]. rewrite IHd. ring.
Qed.
Lemma exp_close : forall a f g j D, 0 < a <= 1 -> (forall t, (t <= j)%nat -> Rabs (f t - g t) <= D) ->
  Rabs (exp_go a f 0 j - exp_go a g 0 j) <= D.
Proof.
  intros a f g j D Ha. induction j; intros H; cbn [exp_go]; [apply H; lia|].
  assert (G := IHj ltac:(intros; apply H; lia)). specialize (H (0 + S j)%nat ltac:(lia)).
  replace ((1 - a) * exp_go a f 0 j + a * f (0 + S j)%nat - ((1 - a) * exp_go a g 0 j + a * g (0 + S j)%nat))
    with ((1 - a) * (exp_go a f 0 j - exp_go a g 0 j) + a * (f (0 + S j)%nat - g (0 + S j)%nat)) by ring.
  eapply Rle_trans; [apply Rabs_triang|]. rewrite !Rabs_mult, (Rabs_pos_eq a), (Rabs_pos_eq (1 - a)) by lra. nra.
Qed.

(** ** True range and ATR *)
Lemma max3 : forall a b c a' b' c' D, Rabs (a - a') <= D -> Rabs (b - b') <= D -> Rabs (c - c') <= D ->
  Rabs (Rmax a (Rmax b c) - Rmax a' (Rmax b' c')) <= D.
Proof.
  intros a b c a' b' c' D H1 H2 H3. unfold Rmax.
  repeat (destruct Rle_dec); unfold Rabs in *; repeat (destruct Rcase_abs); lra.
Qed.
Lemma abs_close : forall x y x' y' D, Rabs (x - x') <= D -> Rabs (y - y') <= D ->
  Rabs (Rabs (x - y) - Rabs (x' - y')) <= 2 * D.
Proof. intros. unfold Rabs in *; repeat (destruct Rcase_abs); lra. Qed.
Lemma sub_close : forall x y x' y' D, Rabs (x - x') <= D -> Rabs (y - y') <= D -> Rabs (x - y - (x' - y')) <= 2 * D.
Proof. intros. unfold Rabs in *; repeat (destruct Rcase_abs); lra. Qed.
Lemma trange_close : forall h l c h' l' c' D i,
  (forall j, (j <= i)%nat -> Rabs (h j - h' j) <= D /\ Rabs (l j - l' j) <= D /\ Rabs (c j - c' j) <= D) ->
  Rabs (trange h l c i - trange h' l' c' i) <= 2 * D.
Proof.
  intros h l c h' l' c' D i H. destruct i as [|j]; cbn [trange].
  - destruct (H 0%nat (Nat.le_refl _)) as (A & B & _). now apply sub_close.
  - destruct (H (S j) (Nat.le_refl _)) as (A & B & _). destruct (H j ltac:(lia)) as (_ & _ & C).
    apply max3; [apply sub_close|apply abs_close|apply abs_close]; auto.
Qed.
Lemma trange_same : forall h l c h' l' c' k, 
  (forall j, (k <= j)%nat -> h j = h' j /\ l j = l' j /\ c j = c' j) ->
  forall i, (k < i)%nat -> trange h l c i = trange h' l' c' i.
Proof.
  intros h l c h' l' c' k H i Hi. destruct i as [|j]; [lia|]. cbn [trange].
  destruct (H (S j) ltac:(lia)) as (-> & -> & _). destruct (H j ltac:(lia)) as (_ & _ & ->). reflexivity.
Qed.

Lemma rsum_close : forall f g D n k, (forall t, (k <= t < k + n)%nat -> Rabs (f t - g t) <= D) ->
  Rabs (rsum f k n - rsum g k n) <= INR n * D.
Proof.
  intros f g D n. induction n; intros k H.
  - cbn. rewrite Rminus_diag_eq, Rabs_R0 by reflexivity. lra.
  - cbn [rsum]. rewrite S_INR. assert (G := IHn k ltac:(intros; apply H; lia)). specialize (H (k + n)%nat ltac:(lia)).
    unfold Rabs in *; repeat (destruct Rcase_abs); lra.
Qed.
Lemma atr_close : forall w f g D j, (1 <= w)%nat -> (forall t, (t <= w - 1 + j)%nat -> Rabs (f t - g t) <= D) ->
  Rabs (atr_at w f j - atr_at w g j) <= D.
Proof.
  intros w f g D j Hw H.
  assert (W : 1 <= INR w) by (apply (le_INR 1) in Hw; cbn in Hw; lra).
  induction j; cbn [atr_at].
  - assert (G := rsum_close f g D w 0 ltac:(intros; apply H; lia)).
    replace (rsum f 0 w / INR w - rsum g 0 w / INR w) with ((rsum f 0 w - rsum g 0 w) / INR w) by (field; lra).
    unfold Rdiv. rewrite Rabs_mult, (Rabs_pos_eq (/ INR w)) by (left; apply Rinv_0_lt_compat; lra).
    apply Rmult_le_reg_r with (INR w); [lra|]. rewrite Rmult_assoc, Rinv_l by lra. lra.
  - assert (G := IHj ltac:(intros; apply H; lia)). specialize (H (w - 1 + S j)%nat ltac:(lia)).
    match goal with |- Rabs (?x / _ - ?y / _) <= _ => replace (x / INR w - y / INR w) with ((x - y) / INR w) by (field; lra) end.
    unfold Rdiv. rewrite Rabs_mult, (Rabs_pos_eq (/ INR w)) by (left; apply Rinv_0_lt_compat; lra).
    apply Rmult_le_reg_r with (INR w); [lra|]. rewrite Rmult_assoc, Rinv_l by lra.
    match goal with |- Rabs (?p * ?a + ?x - (?q * ?a + ?y)) * _ <= _ =>
      replace (p * a + x - (q * a + y)) with ((p - q) * a + (x - y)) by ring end.
    rewrite Rmult_1_r. eapply Rle_trans; [apply Rabs_triang|]. rewrite Rabs_mult, (Rabs_pos_eq (INR w - 1)) by lra. nra.
Qed.
Lemma atr_forget : forall w f g j d, (1 <= w)%nat -> (forall t, (w - 1 + j < t)%nat -> f t = g t) ->
  atr_at w f (j + d) - atr_at w g (j + d) = (1 - 1 / INR w) ^ d * (atr_at w f j - atr_at w g j).
Proof.
  intros w f g j d Hw H.
  assert (W : 1 <= INR w) by (apply (le_INR 1) in Hw; cbn in Hw; lra).
  induction d; [rewrite Nat.add_0_r; cbn; ring|].
  rewrite Nat.add_succ_r. cbn [atr_at pow]. rewrite (H (w - 1 + S (j + d))%nat) by lia.
  transitivity ((1 - 1 / INR w) * (atr_at w f (j + d) - atr_at w g (j + d))); [field; lra|]. rewrite IHd. ring.
Qed.

(** ** C74 *)
Lemma pow_le1 : forall q d D, 0 <= q -> forall x y, Rabs x <= D -> y = q ^ d * x -> Rabs y <= q ^ d * D.
Proof.
  intros q d D Hq x y Hx ->. rewrite Rabs_mult, (Rabs_pos_eq (q ^ d)) by now apply pow_le.
  apply Rmult_le_compat_l; auto. now apply pow_le.
Qed.
Lemma span : forall w, (1 <= w)%nat -> 0 < 2 / (INR w + 1) <= 1.
Proof.
  intros w Hw. apply (le_INR 1) in Hw. cbn in Hw. split.
  - apply Rdiv_lt_0_compat; lra.
  - apply Rmult_le_reg_r with (INR w + 1); [lra|]. field_simplify; lra.
Qed.
Lemma ema_forgets_value : forall w c c' k D i, (1 <= w)%nat -> (1 <= k)%nat -> closes_within D k c c' -> (k <= i)%nat ->
  Rabs (ema w c 0 i - ema w c' 0 i) <= (1 - 2 / (INR w + 1)) ^ (S i - k) * D.
Proof.
  intros w c c' k D i Hw Hk [H1 H2] Hi. assert (S0 := span w Hw). unfold ema, expavg. rewrite Nat.sub_0_r.
  destruct k as [|k]; [lia|]. replace i with (k + (S i - S k))%nat at 1 2 by lia.
  eapply pow_le1; [lra|apply (exp_close _ c c' k D S0); intros; apply H1; lia|].
  apply exp_forget. intros. apply H2. lia.
Qed.
Lemma ema_forgets : forall fl w n h l c v h' l' c' v' k D, (1 <= w)%nat -> (1 <= k)%nat -> closes_within D k c c' ->
  differ_at_most (fun i => (1 - 2 / (INR w + 1)) ^ (S i - k) * D) (Nat.max k (warm fl w)) n
    (compute (Ema (Z.of_nat w)) fl (frame n h l c v)) (compute (Ema (Z.of_nat w)) fl (frame n h' l' c' v')).
Proof.
  intros fl w n h l c v h' l' c' v' k D Hw Hk H. rewrite !ema_formula by auto.
  do 2 eexists. split; [reflexivity|]. split; [reflexivity|]. intros i Hi. rewrite !nth_tab by lia.
  unfold from, fromx. destruct (Nat.ltb_spec i (warm fl w)); [lia|].
  do 2 eexists. split; [reflexivity|]. split; [reflexivity|]. apply ema_forgets_value; auto; lia.
Qed.
Lemma atr_forgets : forall fl w n h l c v h' l' c' v' k D, (1 <= w)%nat -> (w <= n)%nat -> (1 <= k)%nat ->
  closes_within D k h h' -> closes_within D k l l' -> closes_within D k c c' ->
  differ_at_most (fun i => (1 - 1 / INR w) ^ (i - Nat.max k (w - 1)) * (2 * D)) (Nat.max k (w - 1)) n
    (compute (Atr (Z.of_nat w)) fl (frame n h l c v)) (compute (Atr (Z.of_nat w)) fl (frame n h' l' c' v')).
Proof.
  intros fl w n h l c v h' l' c' v' k D Hw Hn Hk Hh Hl Hc. rewrite !atr_formula by auto.
  do 2 eexists. split; [reflexivity|]. split; [reflexivity|]. intros i Hi. rewrite !nth_tab by lia.
  unfold from, fromx. destruct (Nat.ltb_spec i 0); [lia|].
  do 2 eexists. split; [reflexivity|]. split; [reflexivity|].
  unfold atr_value. destruct (Nat.ltb_spec i (w - 1)); [lia|].
  set (j := (Nat.max k (w - 1) - (w - 1))%nat).
  replace (i - (w - 1))%nat with (j + (i - Nat.max k (w - 1)))%nat by lia.
  assert (W : 1 <= INR w) by (apply (le_INR 1) in Hw; cbn in Hw; lra).
  assert (Q : 0 <= 1 - 1 / INR w).
  { apply Rmult_le_reg_r with (INR w); [lra|]. field_simplify; lra. }
  assert (P : 0 <= D) by (eapply Rle_trans; [apply Rabs_pos|apply (proj1 Hc 0%nat); lia]).
  assert (Z : forall f f', closes_within D k f f' -> forall t, Rabs (f t - f' t) <= D).
  { intros f f' [A B] t. destruct (le_lt_dec k t); [|now apply A]. rewrite B by auto.
    rewrite Rminus_diag_eq, Rabs_R0; auto. }
  eapply pow_le1; [exact Q|apply (atr_close w (trange h l c) (trange h' l' c'))|].
  - auto.
  - intros. apply trange_close. intros. auto.
  - apply atr_forget; auto. intros t Ht. apply trange_same with k; [|lia].
    intros x Hx. repeat split; [apply Hh|apply Hl|apply Hc]; auto.
Qed.

(** MACD line, and the difference of any two EMAs of the closes *)
Lemma macd_forgets : forall fl s f g n h l c v h' l' c' v' k D, (1 <= s)%nat -> (1 <= f)%nat -> (1 <= g)%nat -> (1 <= k)%nat ->
  closes_within D k c c' ->
  differ_at_most (fun i => ((1 - 2 / (INR f + 1)) ^ (S i - k) + (1 - 2 / (INR s + 1)) ^ (S i - k)) * D)
    (Nat.max k (warm fl (Nat.max f s))) n
    (compute (Macd (Z.of_nat s) (Z.of_nat f) (Z.of_nat g)) fl (frame n h l c v))
    (compute (Macd (Z.of_nat s) (Z.of_nat f) (Z.of_nat g)) fl (frame n h' l' c' v')).
Proof.
  intros fl s f g n h l c v h' l' c' v' k D Hs Hf Hg Hk H. 
  rewrite (proj1 (macd_formula fl s f g n h l c v Hs Hf Hg)), (proj1 (macd_formula fl s f g n h' l' c' v' Hs Hf Hg)).
  do 2 eexists. split; [reflexivity|]. split; [reflexivity|]. intros i Hi. rewrite !nth_tab by lia.
  unfold gaps. destruct (Nat.ltb_spec i (warm fl (Nat.max f s))); [lia|].
  do 2 eexists. split; [reflexivity|]. split; [reflexivity|].
  assert (A := ema_forgets_value f c c' k D i Hf Hk H ltac:(lia)).
  assert (B := ema_forgets_value s c c' k D i Hs Hk H ltac:(lia)).
  rewrite Rmult_plus_distr_r. unfold Rabs in *; repeat destruct Rcase_abs; lra.
Qed.

(** ** C73: the EMA has no finite memory *)
Lemma ema_no_memory : forall w m, (2 <= w)%nat -> ~ finite_memory m (compute (Ema (Z.of_nat w)) false).
Proof.
  intros w m Hw H.
  pose (c := fun i => match i with O => 1 | _ => 0 end).
  pose (n := (m + w)%nat).
  specialize (H [mkbar 0 (Fin 1) (Fin 1) (Fin 1) (Fin 0)] (frame n (fun _ => 0) (fun _ => 0) (fun _ => 0) (fun _ => 0))).
  rewrite ema_formula in H by lia. specialize (H _ (tab (S n) (from (warm false w) (ema w c 0))) eq_refl).
  assert (E : skipn (1 + m) (tab (S n) (from (warm false w) (ema w c 0))) = skipn m (tab n (from (warm false w) (ema w (fun _ => 0) 0)))).
  { apply H. rewrite <- (ema_formula false w (S n) c c c c) by lia. cbn [compute]. f_equal. rewrite map_app, !close_tab.
    unfold tab. rewrite <- cons_seq. cbn [map app]. rewrite <- seq_shift, map_map. reflexivity. }
  clear H. apply (f_equal (fun l => nth (w - 1) l NaN)) in E. rewrite !nth_skipn', !nth_tab in E by lia.
  unfold from, fromx, warm in E. destruct (Nat.ltb_spec (1 + m + (w - 1)) (w - 1)); [lia|].
  destruct (Nat.ltb_spec (m + (w - 1)) (w - 1)); [lia|].
  assert (E' : ema w c 0 (1 + m + (w - 1)) = ema w (fun _ => 0) 0 (m + (w - 1))) by congruence. clear E. unfold ema, expavg in E'.
  rewrite (exp_const _ (fun _ => 0) 0 _ 0) in E' by reflexivity.
  assert (G : forall a j, exp_go a c 0 j = (1 - a) ^ j).
  { intros a j. induction j; [reflexivity|]. cbn [exp_go pow Nat.add]. rewrite IHj. cbn. ring. }
  rewrite G in E'. revert E'. apply pow_nonzero. apply (le_INR 2) in Hw. cbn in Hw.
  intros Z. assert (2 / (INR w + 1) = 1) by lra. apply (f_equal (fun x => x * (INR w + 1))) in H1. field_simplify in H1; lra.
Qed.
