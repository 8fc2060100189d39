(** * Steady: the series in a steady trend (C91). *)
From Coq Require Import Lra.
From Verif Require Import Lists Api SpecNum SpecSteady Rows Running Fill Tab Averages Memory Align Sar Halt
  Oscillators Returns Lines Trend Directional Cycles Bands Channels Flows Momentum StochRsi TrueRange Raises.
Local Open Scope R_scope.

Lemma rsum_id : forall a k, rsum INR a k = INR k * INR a + INR k * (INR k - 1) / 2.
Proof. intros a. induction k; [cbn; field|]. cbn [rsum]. rewrite IHk, plus_INR, S_INR. field. Qed.
Lemma rsum_sq : forall y a k, rsum (fun j => (INR j - y) * (INR j - y)) a k =
  INR k * ((INR a - y) * (INR a - y)) + (INR a - y) * (INR k * (INR k - 1)) + INR k * (INR k - 1) * (2 * INR k - 1) / 6.
Proof. intros y a. induction k; [cbn; field|]. cbn [rsum]. rewrite IHk, plus_INR, S_INR. field. Qed.
Lemma rsum_aff : forall f a k p q, rsum (fun j => p + q * f j) a k = INR k * p + q * rsum f a k.
Proof. intros f a k p q. induction k; [cbn; ring|]. cbn [rsum]. rewrite IHk, S_INR. ring. Qed.
Lemma rsum_scl : forall f a k q, rsum (fun j => q * f j) a k = q * rsum f a k.
Proof. intros f a k q. induction k; [cbn; ring|]. cbn [rsum]. rewrite IHk. ring. Qed.
Lemma wlo_full : forall w i, (w - 1 <= i)%nat -> (1 <= w)%nat -> INR (wlo w i) = INR i + 1 - INR w.
Proof. intros. unfold wlo. rewrite minus_INR, S_INR by lia. ring. Qed.
Lemma wl_full : forall w i, (w - 1 <= i)%nat -> wlen w i = w.
Proof. intros. unfold wlen. lia. Qed.
Lemma wmean_lin : forall w i p q, (1 <= w)%nat -> (w - 1 <= i)%nat ->
  wmean w (fun j => p + q * INR j) i = p + q * INR i - q * (INR w - 1) / 2.
Proof.
  intros w i p q Hw Hi. unfold wmean, wsum. rewrite (rsum_aff INR), rsum_id, wl_full, wlo_full by auto.
  assert (INR w <> 0) by (apply not_0_INR; lia). field. auto.
Qed.
Lemma wmean_lin' : forall w f i p q, (1 <= w)%nat -> (w - 1 <= i)%nat -> (forall j, f j = p + q * INR j) ->
  wmean w f i = p + q * INR i - q * (INR w - 1) / 2.
Proof. intros. rewrite <- wmean_lin by auto. apply wmean_ext. auto. Qed.
Lemma wstd_lin : forall w i p q, (1 <= w)%nat -> (w - 1 <= i)%nat -> wstd w (fun j => p + q * INR j) i = Rabs q * dev (INR w).
Proof.
  intros w i p q Hw Hi. unfold wstd. rewrite wmean_lin by auto. set (y := INR i - (INR w - 1) / 2).
  rewrite (wmean_ext w _ (fun j => (q * q) * ((INR j - y) * (INR j - y)))) by (intros; unfold y; field).
  unfold wmean, wsum. rewrite rsum_scl, rsum_sq, wl_full, wlo_full by auto. unfold dev.
  rewrite <- sqrt_Rsqr_abs, <- sqrt_mult_alt by apply Rle_0_sqr. f_equal. unfold Rsqr, y.
  assert (INR w <> 0) by (apply not_0_INR; lia). field. auto.
Qed.
Lemma rsum_first : forall f a k, rsum f a (S k) = f a + rsum f (S a) k.
Proof.
  intros f a. induction k; [cbn; rewrite Nat.add_0_r; ring|]. cbn [rsum] in *. rewrite IHk.
  replace (a + S k)%nat with (S a + k)%nat by lia. ring.
Qed.
Lemma abs_sum : forall w y a, rsum (fun j => Rabs (INR j - y)) a w = (INR (w * w) - INR (w mod 2)) / 4 \/ y <> INR a + (INR w - 1) / 2.
Proof.
  intros w. induction w as [w IH] using lt_wf_ind. intros y a. destruct (Req_EM_T y (INR a + (INR w - 1) / 2)) as [Y|Y]; [|right; exact Y]. left.
  destruct w as [|[|w]].
  - cbn. field.
  - cbn [rsum]. rewrite Nat.add_0_r, Y. cbn -[INR]. replace (INR 1) with 1 by reflexivity.
    replace (INR a - (INR a + (1 - 1) / 2)) with 0 by field. rewrite Rabs_R0. field.
  - rewrite rsum_first. cbn [rsum].
    destruct (IH w ltac:(lia) y (S a)) as [->|N]; [|exfalso; apply N; rewrite Y, !S_INR; field].
    replace (S (S w) mod 2)%nat with (w mod 2)%nat by (replace (S (S w)) with (w + 1 * 2)%nat by lia; now rewrite Nat.mod_add).
    replace (S a + w)%nat with (a + S w)%nat by lia. rewrite Y, plus_INR, !mult_INR, !S_INR.
    assert (0 <= INR w) by apply pos_INR.
    rewrite (Rabs_left1 (INR a - _)) by lra. rewrite Rabs_pos_eq by lra. field.
Qed.
Lemma mad_INR : forall w, (1 <= w)%nat -> mad (Z.of_nat w) = (INR (w * w) - INR (w mod 2)) / (4 * INR w).
Proof. intros. unfold mad. change 2%Z with (Z.of_nat 2). rewrite <- Nat2Z.inj_mul, <- Nat2Z.inj_mod, <- !INR_IZR_INZ. reflexivity. Qed.
Lemma wmad_lin : forall w f i p q, (1 <= w)%nat -> (w - 1 <= i)%nat -> (forall j, f j = p + q * INR j) -> wmad w f i = Rabs q * mad (Z.of_nat w).
Proof.
  intros w f i p q Hw Hi E. unfold wmad. rewrite (wmean_lin' w f i p q) by auto. set (y := INR i - (INR w - 1) / 2).
  rewrite (wmean_ext w _ (fun j => Rabs q * Rabs (INR j - y))) by (intros; rewrite E, <- Rabs_mult; f_equal; unfold y; field).
  unfold wmean, wsum. rewrite rsum_scl, wl_full by auto. assert (INR w <> 0) by (apply not_0_INR; lia).
  destruct (abs_sum w y (wlo w i)) as [->|N].
  - rewrite mad_INR by auto. field. auto.
  - exfalso. apply N. rewrite wlo_full by auto. unfold y. field.
Qed.
Lemma lin_le : forall q j i, (j <= i)%nat -> q * INR j <= q * INR i + Rmax 0 (- q) * (INR i - INR j) /\ q * INR i - Rmax 0 q * (INR i - INR j) <= q * INR j.
Proof.
  intros q j i H. apply le_INR in H. pose proof (Rmax_r 0 (- q)). pose proof (Rmax_r 0 q). pose proof (Rmax_l 0 (- q)). pose proof (Rmax_l 0 q).
  split; nra.
Qed.
Lemma wmax_lin : forall w i p q, (1 <= w)%nat -> (w - 1 <= i)%nat -> wmax w (fun j => p + q * INR j) i = p + q * INR i + Rmax 0 (- q) * (INR w - 1).
Proof.
  intros w i p q Hw Hi. destruct (wmax_is w (fun j => p + q * INR j) i Hw) as [(j & Hj & E) B]. apply Rle_antisym.
  - rewrite E. destruct (lin_le q j i ltac:(lia)) as [L _].
    assert (INR i - INR j <= INR w - 1). { destruct Hj as [Hj _]. apply le_INR in Hj. rewrite wlo_full in Hj by auto. lra. }
    pose proof (Rmax_l 0 (- q)). nra.
  - destruct (Rle_dec 0 q).
    + rewrite Rmax_left by lra. specialize (B i ltac:(unfold wlo; lia)). lra.
    + rewrite Rmax_right by lra. specialize (B (wlo w i) ltac:(unfold wlo; lia)). rewrite wlo_full in B by auto. lra.
Qed.
Lemma wmin_lin : forall w i p q, (1 <= w)%nat -> (w - 1 <= i)%nat -> wmin w (fun j => p + q * INR j) i = p + q * INR i - Rmax 0 q * (INR w - 1).
Proof.
  intros w i p q Hw Hi. destruct (wmin_is w (fun j => p + q * INR j) i Hw) as [(j & Hj & E) B]. apply Rle_antisym.
  - destruct (Rle_dec 0 q).
    + rewrite Rmax_right by lra. specialize (B (wlo w i) ltac:(unfold wlo; lia)). rewrite wlo_full in B by auto. lra.
    + rewrite Rmax_left by lra. specialize (B i ltac:(unfold wlo; lia)). lra.
  - rewrite E. destruct (lin_le q j i ltac:(lia)) as [_ L].
    assert (INR i - INR j <= INR w - 1). { destruct Hj as [Hj _]. apply le_INR in Hj. rewrite wlo_full in Hj by auto. lra. }
    pose proof (Rmax_l 0 q). nra.
Qed.
Lemma rmax_ext : forall f g a k, (forall j, f j = g j) -> rmax f a k = rmax g a k.
Proof. intros. induction k; cbn [rmax]; rewrite ?IHk, H; auto. Qed.
Lemma rmin_ext : forall f g a k, (forall j, f j = g j) -> rmin f a k = rmin g a k.
Proof. intros. induction k; cbn [rmin]; rewrite ?IHk, H; auto. Qed.
Lemma wmax_lin' : forall w f i p q, (1 <= w)%nat -> (w - 1 <= i)%nat -> (forall j, f j = p + q * INR j) -> wmax w f i = p + q * INR i + Rmax 0 (- q) * (INR w - 1).
Proof. intros. rewrite <- wmax_lin by auto. unfold wmax. now apply rmax_ext. Qed.
Lemma wmin_lin' : forall w f i p q, (1 <= w)%nat -> (w - 1 <= i)%nat -> (forall j, f j = p + q * INR j) -> wmin w f i = p + q * INR i - Rmax 0 q * (INR w - 1).
Proof. intros. rewrite <- wmin_lin by auto. unfold wmin. now apply rmin_ext. Qed.
Lemma wma_lin : forall w f i p q, (1 <= w)%nat -> (w - 1 <= i)%nat -> (forall j, f j = p + q * INR j) -> wma_value w f i = p + q * INR i - q * (INR w - 1) / 3.
Proof.
  intros w f i p q Hw Hi E. unfold wma_value. rewrite (rsum_ext _ (fun j => INR (S j) * (p + q * (INR i + 1 - INR w + INR j)))).
  2:{ intros j Hj. rewrite E, plus_INR. f_equal. f_equal. rewrite minus_INR, S_INR by lia. reflexivity. }
  assert (S : forall y k, rsum (fun j => INR (S j) * (p + q * (y + INR j))) 0 k = (p + q * y) * (INR k * (INR k + 1) / 2) + q * (INR k * (INR k + 1) * (INR k - 1) / 3)).
  { intros y. induction k; [cbn; field|]. cbn [rsum]. rewrite IHk, Nat.add_0_l, !S_INR. field. }
  rewrite S. assert (0 < INR w) by (apply lt_0_INR; lia). field. nra.
Qed.
Lemma first_max_up : forall f a k, (forall i j, (i < j)%nat -> f i < f j) -> first_max f a k = (a + k)%nat.
Proof. intros f a k H. induction k; cbn [first_max]; [lia|]. rewrite IHk. destruct (Rlt_dec _ _) as [|N]; auto. exfalso. apply N, H. lia. Qed.
Lemma first_max_down : forall f a k, (forall i j, (i < j)%nat -> f j < f i) -> first_max f a k = a.
Proof. intros f a k H. induction k; cbn [first_max]; auto. rewrite IHk. destruct (Rlt_dec _ _) as [Q|N]; auto. pose proof (H a (a + S k)%nat ltac:(lia)). lra. Qed.

(** the call succeeds and row i of its n rows is x *)
Definition row_is (n i : nat) (r : result (list xr)) (x : xr) : Prop := exists out, r = Ok out /\ length out = n /\ nth i out NaN = x.
Lemma ri_tab : forall n i g x r, r = Ok (tab n g) -> (i < n)%nat -> g i = x -> row_is n i r x.
Proof. intros n i g x r E Hi H. eexists. split; [exact E|]. split; [apply len_tab|]. now rewrite nth_tab. Qed.
Lemma ri_shows : forall n i g x z r, shows false z (tab n g) r -> (i < n)%nat -> g i = x -> row_is n i r x.
Proof. intros n i g x z r (out & E & ->) Hi H. eapply ri_tab; eauto. Qed.

Section Steady.
Variables (n : nat) (a b u d : R) (v : nat -> R).
Hypothesis Hu : 0 <= u.
Hypothesis Hd : 0 <= d.
Hypothesis Hv : forall j, 0 < v j.
Let h := fun j => a + b * INR j + u.
Let l := fun j => a + b * INR j - d.
Let c := fun j => a + b * INR j.
Let rows := frame n h l c v.
Let hl : forall j, h j = (a + u) + b * INR j. Proof. intros. unfold h. ring. Qed.
Let ll : forall j, l j = (a - d) + b * INR j. Proof. intros. unfold l. ring. Qed.
Let cl : forall j, c j = a + b * INR j. Proof. reflexivity. Qed.
Let tl : forall j, typical h l c j = (a + (u - d) / 3) + b * INR j. Proof. intros. unfold typical, h, l, c. field. Qed.
Let sane_lin : sane n h l c. Proof. intros j _. unfold h, l, c. lra. Qed.
Ltac rw := rewrite ?(wmean_lin' _ c _ _ _ ltac:(eassumption) ltac:(eassumption) cl).
Variable i : nat.
Hypothesis Hi : (i < n)%nat.
Let row := fun ind x => row_is n i (compute ind false rows) x.

Lemma g_sma : forall w, (1 <= w)%nat -> (w - 1 <= i)%nat -> row (Sma (Z.of_nat w)) (Fin (c i - b * (INR w - 1) / 2)).
Proof. intros. eapply ri_tab; [apply sma_formula; auto|auto|]. apply from_ge; [unfold warm; lia|]. now apply wmean_lin'. Qed.
Lemma g_wma : forall w, (1 <= w)%nat -> (w - 1 <= i)%nat -> row (Wma (Z.of_nat w)) (Fin (c i - b * (INR w - 1) / 3)).
Proof. intros. eapply ri_tab; [apply wma_formula; auto|auto|]. apply gaps_ge; [lia|]. now apply wma_lin. Qed.
Lemma mid_lin : forall w, (1 <= w)%nat -> (w - 1 <= i)%nat -> midrange w h l i = c i + (u - d) / 2 - b * (INR w - 1) / 2.
Proof.
  intros. unfold midrange. rewrite (wmax_lin' w h i _ _ H H0 hl), (wmin_lin' w l i _ _ H H0 ll). unfold c.
  replace (Rmax 0 b) with (Rmax 0 (- b) + b); [field|]. unfold Rmax. destruct (Rle_dec 0 (- b)), (Rle_dec 0 b); lra.
Qed.
Lemma g_ichi : forall w1 w2 w3 vis, (1 <= w1)%nat -> (1 <= w2)%nat -> (1 <= w3)%nat ->
  ((w1 - 1 <= i)%nat -> row (IchiConv (Z.of_nat w1) (Z.of_nat w2) (Z.of_nat w3) vis) (Fin (c i + (u - d) / 2 - b * (INR w1 - 1) / 2))) /\
  ((w2 - 1 <= i)%nat -> row (IchiBase (Z.of_nat w1) (Z.of_nat w2) (Z.of_nat w3) vis) (Fin (c i + (u - d) / 2 - b * (INR w2 - 1) / 2))) /\
  ((w1 - 1 <= i)%nat -> (w2 - 1 <= i)%nat -> row (IchiA (Z.of_nat w1) (Z.of_nat w2) (Z.of_nat w3) false)
     (Fin (c i + (u - d) / 2 - (b * (INR w1 - 1) / 2 + b * (INR w2 - 1) / 2) / 2))) /\
  ((w3 - 1 <= i)%nat -> row (IchiB (Z.of_nat w1) (Z.of_nat w2) (Z.of_nat w3) false) (Fin (c i + (u - d) / 2 - b * (INR w3 - 1) / 2))).
Proof.
  intros w1 w2 w3 vis H1 H2 H3. destruct (ichi_formula false w1 w2 w3 vis n h l c v H1 H2 H3) as (E1 & E2 & E3 & E4).
  split; [|split; [|split]]; intros.
  - eapply ri_tab; [exact E1|auto|]. apply from_ge; [unfold warm; lia|]. now apply mid_lin.
  - eapply ri_tab; [exact E2|auto|]. apply from_ge; [unfold warm; lia|]. now apply mid_lin.
  - eapply ri_tab; [exact E3|auto|]. apply from_ge; [unfold warm; lia|]. rewrite !mid_lin by auto. field.
  - eapply ri_tab; [exact E4|auto|]. apply from_ge; [unfold warm; lia|]. now apply mid_lin.
Qed.
Lemma g_dc : forall w, (1 <= w)%nat -> (w - 1 <= i)%nat ->
  row (DcH (Z.of_nat w) 0) (Fin (c i + u + Rmax 0 (- b) * (INR w - 1))) /\
  row (DcL (Z.of_nat w) 0) (Fin (c i - d - Rmax 0 b * (INR w - 1))) /\
  row (DcM (Z.of_nat w) 0) (Fin (c i + (u - d) / 2 - b * (INR w - 1) / 2)) /\
  (u + d + Rmax 0 b * (INR w - 1) + Rmax 0 (- b) * (INR w - 1) <> 0 ->
   row (DcP (Z.of_nat w) 0) (Fin ((d + Rmax 0 b * (INR w - 1)) / (u + d + Rmax 0 b * (INR w - 1) + Rmax 0 (- b) * (INR w - 1))))).
Proof.
  intros w Hw Hm. destruct (dc_bands false w n h l c v Hw) as (E1 & E2 & E3). destruct (dc_width false w n h l c v Hw) as (_ & E4).
  split; [|split; [|split]].
  - eapply ri_tab; [exact E1|auto|]. apply from_ge; [unfold warm; lia|]. rewrite (wmax_lin' w h i _ _ Hw Hm hl). unfold c. ring.
  - eapply ri_tab; [exact E2|auto|]. apply from_ge; [unfold warm; lia|]. rewrite (wmin_lin' w l i _ _ Hw Hm ll). unfold c. ring.
  - eapply ri_tab; [exact E3|auto|]. apply from_ge; [unfold warm; lia|]. now apply mid_lin.
  - intros Z. eapply ri_shows; [exact E4|auto|]. apply fromx_ge; [unfold warm; lia|].
    rewrite (wmax_lin' w h i _ _ Hw Hm hl), (wmin_lin' w l i _ _ Hw Hm ll). unfold c. rewrite ratio_fin by (intros Q; apply Z; lra). f_equal. f_equal; ring.
Qed.
Lemma g_stoch : forall w s, (1 <= w)%nat -> (w - 1 <= i)%nat -> u + d + Rmax 0 b * (INR w - 1) + Rmax 0 (- b) * (INR w - 1) <> 0 ->
   row (Stoch (Z.of_nat w) s) (Fin (100 * (d + Rmax 0 b * (INR w - 1)) / (u + d + Rmax 0 b * (INR w - 1) + Rmax 0 (- b) * (INR w - 1)))).
Proof.
  intros w s Hw Hm Z. eapply ri_shows; [apply stoch_formula; auto|auto|]. apply fromx_ge; [unfold warm; lia|].
  rewrite (wmax_lin' w h i _ _ Hw Hm hl), (wmin_lin' w l i _ _ Hw Hm ll). unfold c. rewrite ratio_fin by (intros Q; apply Z; lra). f_equal. f_equal; ring.
Qed.
Lemma g_wr : forall w, (1 <= w)%nat -> (w - 1 <= i)%nat -> u + d + Rmax 0 b * (INR w - 1) + Rmax 0 (- b) * (INR w - 1) <> 0 ->
   row (WilliamsR (Z.of_nat w)) (Fin (100 * (d + Rmax 0 b * (INR w - 1)) / (u + d + Rmax 0 b * (INR w - 1) + Rmax 0 (- b) * (INR w - 1)) - 100)).
Proof.
  intros w Hw Hm Z. unfold row. rewrite (wr_stoch (Z.of_nat w) 1%Z). destruct (g_stoch w 1%Z Hw Hm Z) as (out & -> & L & H).
  eexists. split; [reflexivity|]. rewrite map_length. split; auto.
  change (nth i (map (fun y : xr => fsub y (Fin 100)) out) ((fun y : xr => fsub y (Fin 100)) NaN) = Fin (100 * (d + Rmax 0 b * (INR w - 1)) / (u + d + Rmax 0 b * (INR w - 1) + Rmax 0 (- b) * (INR w - 1)) - 100)).
  rewrite map_nth, H. reflexivity.
Qed.
Lemma g_kc : forall w at_ mu, (1 <= w)%nat -> (w - 1 <= i)%nat ->
  row (KcM (Z.of_nat w) at_ true mu) (Fin (c i + (u - d) / 3 - b * (INR w - 1) / 2)) /\
  row (KcH (Z.of_nat w) at_ true mu) (Fin (c i + (u - d) / 3 - b * (INR w - 1) / 2 + (u + d))) /\
  row (KcL (Z.of_nat w) at_ true mu) (Fin (c i + (u - d) / 3 - b * (INR w - 1) / 2 - (u + d))).
Proof.
  intros w at_ mu Hw Hm. destruct (kc_bands_original false w at_ mu n h l c v Hw) as (E1 & E2 & E3 & _).
  assert (T : wmean w (typical h l c) i = c i + (u - d) / 3 - b * (INR w - 1) / 2) by (rewrite (wmean_lin' w _ i _ _ Hw Hm tl); unfold c; ring).
  assert (G : wmean w (fun j => h j - l j) i = u + d) by (apply wmean_eq; auto; intros; unfold h, l; ring).
  split; [|split].
  - eapply ri_tab; [exact E1|auto|]. apply from_ge; [unfold warm; lia|]. exact T.
  - eapply ri_tab; [exact E2|auto|]. apply from_ge; [lia|]. now rewrite T, G.
  - eapply ri_tab; [exact E3|auto|]. apply from_ge; [lia|]. now rewrite T, G.
Qed.
Lemma dev_pos : forall w, (2 <= w)%nat -> 0 < dev (INR w).
Proof. intros w Hw. unfold dev. apply sqrt_lt_R0. assert (2 <= INR w) by (change 2 with (INR 2); now apply le_INR). nra. Qed.
Lemma g_bb : forall w k, (1 <= w)%nat -> (w - 1 <= i)%nat ->
  row (BbM (Z.of_nat w) (Fin k)) (Fin (c i - b * (INR w - 1) / 2)) /\
  row (BbH (Z.of_nat w) (Fin k)) (Fin (c i - b * (INR w - 1) / 2 + k * (Rabs b * dev (INR w)))) /\
  row (BbL (Z.of_nat w) (Fin k)) (Fin (c i - b * (INR w - 1) / 2 - k * (Rabs b * dev (INR w)))) /\
  ((2 <= w)%nat -> b <> 0 -> k <> 0 -> row (BbP (Z.of_nat w) (Fin k)) (Fin (1 / 2 + b * (INR w - 1) / 2 / (2 * k * (Rabs b * dev (INR w)))))).
Proof.
  intros w k Hw Hm. destruct (bb_formula false w k n h l c v Hw) as (E1 & E2 & E3). pose proof (bb_pband_formula false w k n h l c v Hw) as E4.
  pose proof (wmean_lin w i a b Hw Hm) as M. pose proof (wstd_lin w i a b Hw Hm) as D. fold c in M, D.
  split; [|split; [|split]].
  - eapply ri_tab; [exact E1|auto|]. apply from_ge; [unfold warm; lia|]. exact M.
  - eapply ri_tab; [exact E2|auto|]. apply from_ge; [unfold warm; lia|]. now rewrite M, D.
  - eapply ri_tab; [exact E3|auto|]. apply from_ge; [unfold warm; lia|]. now rewrite M, D.
  - intros H2 B K. eapply ri_shows; [exact E4|auto|]. apply fromx_ge; [unfold warm; lia|]. rewrite M, D. unfold position.
    pose proof (dev_pos w H2) as P. pose proof (Rabs_pos_lt b B) as Q.
    assert (N : k * (Rabs b * dev (INR w)) <> 0) by (intros X; destruct (Rmult_integral _ _ X) as [|X']; [auto|]; nra).
    destruct (Req_EM_T _ _); [lra|]. f_equal. unfold c. field. repeat split; auto; nra.
Qed.
Lemma narrow : forall w k, (1 <= w)%nat -> 0 <= k ->
  (k * k * (INR w + 1) < 3 * (INR w - 1) -> k * dev (INR w) < (INR w - 1) / 2) /\
  (3 * (INR w - 1) <= k * k * (INR w + 1) -> (INR w - 1) / 2 <= k * dev (INR w)).
Proof.
  intros w k Hw K. assert (1 <= INR w) by (change 1 with (INR 1); now apply le_INR).
  assert (Q : 0 <= (INR w * INR w - 1) / 12) by nra.
  assert (D : dev (INR w) * dev (INR w) = (INR w * INR w - 1) / 12) by (unfold dev; now apply sqrt_sqrt).
  assert (P : 0 <= dev (INR w)) by apply sqrt_pos.
  assert (E : (k * dev (INR w)) * (k * dev (INR w)) = k * k * ((INR w * INR w - 1) / 12)) by (rewrite <- D; ring).
  assert (S : 0 <= k * dev (INR w)) by nra.
  split; intros N.
  - destruct (Rlt_dec (k * dev (INR w)) ((INR w - 1) / 2)) as [|G]; auto. exfalso.
    assert (L : (INR w - 1) / 2 * ((INR w - 1) / 2) <= (k * dev (INR w)) * (k * dev (INR w))) by (apply Rmult_le_compat; lra).
    rewrite E in L. assert (1 < INR w) by nra. nra.
  - destruct (Rle_dec ((INR w - 1) / 2) (k * dev (INR w))) as [|G]; auto. exfalso.
    assert (L : (k * dev (INR w)) * (k * dev (INR w)) < (INR w - 1) / 2 * ((INR w - 1) / 2)) by (apply Rmult_le_0_lt_compat; lra).
    rewrite E in L. assert (0 < INR w - 1) by (destruct (Req_EM_T (INR w) 1); nra). nra.
Qed.
Lemma g_bbi : forall w k, (1 <= w)%nat -> (w - 1 <= i)%nat -> 0 <= k ->
  (0 < b -> k * k * (INR w + 1) < 3 * (INR w - 1) -> row (BbHI (Z.of_nat w) (Fin k)) (Fin 1)) /\
  (b <= 0 \/ 3 * (INR w - 1) <= k * k * (INR w + 1) -> row (BbHI (Z.of_nat w) (Fin k)) (Fin 0)) /\
  (b < 0 -> k * k * (INR w + 1) < 3 * (INR w - 1) -> row (BbLI (Z.of_nat w) (Fin k)) (Fin 1)) /\
  (0 <= b \/ 3 * (INR w - 1) <= k * k * (INR w + 1) -> row (BbLI (Z.of_nat w) (Fin k)) (Fin 0)).
Proof.
  intros w k Hw Hm K. destruct (bb_indicators false w k n h l c v Hw) as (E1 & E2). destruct (narrow w k Hw K) as [N1 N2].
  assert (1 <= INR w) by (change 1 with (INR 1); now apply le_INR). assert (P : 0 <= dev (INR w)) by apply sqrt_pos.
  assert (Z : 0 <= k * dev (INR w)) by nra.
  pose proof (wmean_lin w i a b Hw Hm) as M. pose proof (wstd_lin w i a b Hw Hm) as D. fold c in M, D.
  assert (A1 : 0 <= b -> k * (Rabs b * dev (INR w)) = b * (k * dev (INR w))) by (intros B; rewrite Rabs_pos_eq by auto; ring).
  assert (A2 : b <= 0 -> k * (Rabs b * dev (INR w)) = - b * (k * dev (INR w))) by (intros B; rewrite Rabs_left1 by auto; ring).
  split; [|split; [|split]].
  - intros B N. eapply ri_tab; [exact E1|auto|]. apply from_ge; [lia|]. unfold above. destruct (Nat.ltb_spec i (warm false w)); [unfold warm in *; lia|].
    rewrite M, D, A1 by lra. specialize (N1 N). destruct (Rlt_dec _ _) as [|G]; auto. exfalso. apply G. unfold c. nra.
  - intros N. eapply ri_tab; [exact E1|auto|]. apply from_ge; [lia|]. unfold above. destruct (Nat.ltb_spec i (warm false w)); [unfold warm in *; lia|].
    rewrite M, D. destruct (Rlt_dec _ _) as [G|]; auto. exfalso. unfold c in G. destruct (Rle_dec b 0).
    + rewrite A2 in G by lra. nra.
    + destruct N as [N|N]; [lra|]. specialize (N2 N). rewrite A1 in G by lra. nra.
  - intros B N. eapply ri_tab; [exact E2|auto|]. apply from_ge; [lia|]. unfold below. destruct (Nat.ltb_spec i (warm false w)); [unfold warm in *; lia|].
    rewrite M, D, A2 by lra. specialize (N1 N). destruct (Rlt_dec _ _) as [|G]; auto. exfalso. apply G. unfold c. nra.
  - intros N. eapply ri_tab; [exact E2|auto|]. apply from_ge; [lia|]. unfold below. destruct (Nat.ltb_spec i (warm false w)); [unfold warm in *; lia|].
    rewrite M, D. destruct (Rlt_dec _ _) as [G|]; auto. exfalso. unfold c in G. destruct (Rle_dec 0 b).
    + rewrite A1 in G by lra. nra.
    + destruct N as [N|N]; [lra|]. specialize (N2 N). rewrite A2 in G by lra. nra.
Qed.
Lemma g_cci : forall w k, (2 <= w)%nat -> (w - 1 <= i)%nat -> b <> 0 -> k <> 0 ->
  row (Cci (Z.of_nat w) (Fin k)) (Fin (b * (INR w - 1) / 2 / (k * (Rabs b * mad (Z.of_nat w))))).
Proof.
  intros w k H2 Hm B K. assert (Hw : (1 <= w)%nat) by lia. eapply ri_shows; [apply cci_formula; auto|auto|]. apply fromx_ge; [unfold warm; lia|].
  rewrite (wmean_lin' w _ i _ _ Hw Hm tl), (wmad_lin w _ i _ _ Hw Hm tl), tl. rewrite ratio_fin; [f_equal; f_equal; ring|].
  assert (P : 0 < mad (Z.of_nat w)).
  { rewrite mad_INR, mult_INR by auto. assert (2 <= INR w) by (change 2 with (INR 2); now apply le_INR).
    assert (INR (w mod 2) <= 1) by (change 1 with (INR 1); apply le_INR; pose proof (Nat.mod_upper_bound w 2); lia).
    apply Rdiv_lt_0_compat; nra. }
  pose proof (Rabs_pos_lt b B). intros X. destruct (Rmult_integral _ _ X) as [|X']; [auto|]. nra.
Qed.
Lemma g_ao : forall w1 w2, (1 <= w1)%nat -> (1 <= w2)%nat -> (w1 - 1 <= i)%nat -> (w2 - 1 <= i)%nat ->
  row (AwesomeOsc (Z.of_nat w1) (Z.of_nat w2)) (Fin (b * (INR w2 - 1) / 2 - b * (INR w1 - 1) / 2)).
Proof.
  intros w1 w2 H1 H2 M1 M2. assert (E : forall j, (h j + l j) / 2 = (a + (u - d) / 2) + b * INR j) by (intros; unfold h, l; field).
  eapply ri_tab; [apply ao_formula; auto|auto|]. apply from_ge; [unfold warm; lia|]. cbv beta zeta.
  rewrite (wmean_lin' w1 _ i _ _ H1 M1 E), (wmean_lin' w2 _ i _ _ H2 M2 E). ring.
Qed.
Lemma g_dpo : forall w, (1 <= w)%nat -> (w - 1 <= i)%nat -> (S (w / 2) <= i)%nat ->
  row (Dpo (Z.of_nat w)) (Fin (b * (INR w - 1) / 2 - b * (INR (w / 2) + 1))).
Proof.
  intros w Hw Hm Hs. eapply ri_tab; [apply dpo_formula; auto|auto|]. apply from_ge; [unfold warm; lia|]. cbv beta.
  pose proof (wmean_lin w i a b Hw Hm) as M. fold c in M. rewrite M. unfold SpecNum.back. destruct (Nat.ltb_spec i (S (w / 2))); [lia|].
  unfold c. rewrite minus_INR, S_INR by lia. ring.
Qed.
Lemma tr_lin : forall q j, (1 <= j)%nat -> trange_after q h l c j = step_range b u d.
Proof.
  intros q [|j] Hj; [lia|]. unfold trange_after, step_range, h, l, c. rewrite S_INR. f_equal; [ring|]. f_equal; f_equal; ring.
Qed.
Lemma tr_lin' : forall j, (1 <= j)%nat -> trange h l c j = step_range b u d.
Proof. intros [|j] Hj; [lia|]. exact (tr_lin 0 (S j) Hj). Qed.
Lemma bp_lin : forall j, (1 <= j)%nat -> pressure l c j = Rmax d b.
Proof.
  intros [|j] Hj; [lia|]. cbn [pressure]. unfold l, c. rewrite S_INR. unfold Rmin, Rmax. destruct (Rle_dec _ _), (Rle_dec _ _); lra.
Qed.
Lemma wsum_full : forall w f x, (1 <= w)%nat -> (w <= i)%nat -> (forall j, (1 <= j)%nat -> f j = x) -> wsum w f i = INR w * x.
Proof. intros w f x Hw Hm E. rewrite (wsum_cst w f i x); [now rewrite wl_full by lia|]. intros j Hj. apply E. unfold wlo in Hj. lia. Qed.
Lemma g_uo : forall w1 w2 w3 k1 k2 k3, (1 <= w1)%nat -> (1 <= w2)%nat -> (1 <= w3)%nat -> k1 + k2 + k3 <> 0 -> step_range b u d <> 0 ->
  (w1 <= i)%nat -> (w2 <= i)%nat -> (w3 <= i)%nat ->
  row (UltOsc (Z.of_nat w1) (Z.of_nat w2) (Z.of_nat w3) (Fin k1) (Fin k2) (Fin k3)) (Fin (100 * (Rmax d b / step_range b u d))).
Proof.
  intros w1 w2 w3 k1 k2 k3 H1 H2 H3 K T M1 M2 M3. eapply ri_shows; [apply uo_formula; auto|auto|]. apply fromx_ge; [lia|].
  unfold uo_row. rewrite !(wsum_full _ (trange h l c) _) by (eauto using tr_lin'). rewrite !(wsum_full _ (pressure l c) _) by (eauto using bp_lin).
  assert (N : forall w, (1 <= w)%nat -> INR w * step_range b u d <> 0 /\ INR w <> 0).
  { intros w Hw. assert (INR w <> 0) by (apply not_0_INR; lia). split; [|auto]. intros X. destruct (Rmult_integral _ _ X); auto. }
  destruct (N w1 H1), (N w2 H2), (N w3 H3). destruct (Req_EM_T _ _); [contradiction|]. destruct (Req_EM_T _ _); [contradiction|].
  destruct (Req_EM_T _ _); [contradiction|]. f_equal. field. repeat split; auto.
Qed.
Lemma g_vortex : forall w, (1 <= w)%nat -> step_range b u d <> 0 -> (w <= i)%nat ->
  row (VortexPos (Z.of_nat w)) (Fin (Rabs (b + u + d) / step_range b u d)) /\ row (VortexNeg (Z.of_nat w)) (Fin (Rabs (b - u - d) / step_range b u d)).
Proof.
  intros w Hw T Hm. destruct (vortex_formula false w n h l c v Hw) as [E1 E2].
  assert (INR w <> 0) by (apply not_0_INR; lia).
  split; (eapply ri_shows; [eassumption|auto|]); (apply fromx_ge; [lia|]); rewrite (wsum_full w (trange_after _ _ _ _) _ Hw Hm (fun j => tr_lin _ j)).
  - rewrite (wsum_full w (swing h l) (Rabs (b + u + d)) Hw Hm). 2:{ intros [|j] Hj; [lia|]. cbn [swing]. unfold h, l. rewrite S_INR. f_equal. ring. }
    rewrite ratio_fin; [f_equal; field; auto|]. intros X. destruct (Rmult_integral _ _ X); auto.
  - rewrite (wsum_full w (swing l h) (Rabs (b - u - d)) Hw Hm). 2:{ intros [|j] Hj; [lia|]. cbn [swing]. unfold h, l. rewrite S_INR. f_equal. ring. }
    rewrite ratio_fin; [f_equal; field; auto|]. intros X. destruct (Rmult_integral _ _ X); auto.
Qed.
Lemma mono_up : forall p, 0 < b -> forall j k, (j < k)%nat -> a + b * INR j + p < a + b * INR k + p.
Proof. intros p B j k H. apply lt_INR in H. nra. Qed.
Lemma mono_down : forall p, b < 0 -> forall j k, (j < k)%nat -> a + b * INR k + p < a + b * INR j + p.
Proof. intros p B j k H. apply lt_INR in H. nra. Qed.
Lemma aroon_lin : forall w, (1 <= w)%nat -> (w <= i)%nat ->
  (0 < b -> aroon_up_value h w i = 100 /\ aroon_down_value l w i = 0) /\ (b < 0 -> aroon_up_value h w i = 0 /\ aroon_down_value l w i = 100).
Proof.
  intros w Hw Hm. assert (INR w <> 0) by (apply not_0_INR; lia).
  unfold aroon_up_value, aroon_down_value, first_min. replace (Nat.min w i) with w by lia. split; intros B.
  - rewrite first_max_up by (intros; unfold h; now apply mono_up). rewrite first_max_down by (intros; pose proof (mono_up (- d) B i0 j ltac:(auto)); unfold l; lra).
    rewrite Nat.sub_diag. replace (i - w + w - (i - w))%nat with w by lia. cbn [INR]. split; field; auto.
  - rewrite first_max_down by (intros; unfold h; now apply mono_down). rewrite first_max_up by (intros; pose proof (mono_down (- d) B i0 j ltac:(auto)); unfold l; lra).
    rewrite Nat.sub_diag. replace (i - w + w - (i - w))%nat with w by lia. cbn [INR]. split; field; auto.
Qed.
Lemma g_aroon : forall w, (1 <= w)%nat -> (w <= i)%nat ->
  (0 < b -> row (AroonUp (Z.of_nat w)) (Fin 100) /\ row (AroonDown (Z.of_nat w)) (Fin 0) /\ row (AroonInd (Z.of_nat w)) (Fin 100)) /\
  (b < 0 -> row (AroonUp (Z.of_nat w)) (Fin 0) /\ row (AroonDown (Z.of_nat w)) (Fin 100) /\ row (AroonInd (Z.of_nat w)) (Fin (-100))).
Proof.
  intros w Hw Hm. destruct (aroon_formula false w n h l c v Hw) as (E1 & E2 & E3). destruct (aroon_lin w Hw Hm) as [U D].
  split; intros B; [destruct (U B) as [X Y]|destruct (D B) as [X Y]]; (split; [|split]);
    (eapply ri_tab; [eassumption|auto|]); (apply from_ge; [lia|]); auto; rewrite X, Y; ring.
Qed.
Lemma wsum_pos : forall w f, (1 <= w)%nat -> (forall j, (wlo w i <= j <= i)%nat -> 0 < f j) -> 0 < wsum w f i.
Proof.
  intros w f Hw P. unfold wsum. assert (L : (1 <= wlen w i)%nat) by (unfold wlen; lia). assert (B : (wlo w i + wlen w i = S i)%nat) by (unfold wlo, wlen; lia).
  assert (G : forall k, (k < wlen w i)%nat -> 0 < rsum f (wlo w i) (S k)).
  { induction k; intros Hk; cbn [rsum] in *; pose proof (P (wlo w i + 0)%nat ltac:(lia)); [lra|].
    pose proof (P (wlo w i + S k)%nat ltac:(lia)). pose proof (IHk ltac:(lia)). lra. }
  replace (wlen w i) with (S (wlen w i - 1)) by lia. apply G. lia.
Qed.
Lemma g_cmf : forall w, (1 <= w)%nat -> (w - 1 <= i)%nat -> 0 < u + d -> row (Cmf (Z.of_nat w)) (Fin ((d - u) / (u + d))).
Proof.
  intros w Hw Hm P. eapply ri_shows; [apply cmf_formula; auto|auto|]. apply fromx_ge; [unfold warm; lia|].
  assert (V : 0 < wsum w v i) by (apply wsum_pos; auto). unfold wsum in *.
  rewrite (rsum_ext _ (fun j => (d - u) / (u + d) * v j)).
  - rewrite rsum_scl, ratio_fin by lra. f_equal. field. lra.
  - intros j Hj. f_equal. unfold location, h, l, c. destruct (Req_EM_T _ _); [lra|]. field. lra.
Qed.
Lemma g_mfi : forall w, (1 <= w)%nat -> (w <= i)%nat -> 0 < c i - d - Rabs b * INR w ->
  (0 < b -> row (Mfi (Z.of_nat w)) (Fin 100)) /\ (b < 0 -> row (Mfi (Z.of_nat w)) (Fin 0)).
Proof.
  intros w Hw Hm P. pose proof (mfi_formula false w n h l c v Hw) as E. cbv zeta in E.
  assert (T : forall j, (wlo w i <= j <= i)%nat -> 0 < typical h l c j).
  { intros j Hj. rewrite tl. assert (J1 : INR i - INR w <= INR j) by (destruct Hj as [Hj _]; apply le_INR in Hj; rewrite wlo_full in Hj by lia; lra).
    assert (J2 : INR j <= INR i) by (apply le_INR; lia). unfold c in P. pose proof (Rle_abs b). pose proof (Rle_abs (- b)). rewrite Rabs_Ropp in *.
    destruct (Rle_dec 0 b); nra. }
  assert (S1 : forall j, (wlo w i <= j)%nat -> (1 <= j)%nat) by (intros j Hj; unfold wlo in Hj; lia).
  assert (F : forall j, (wlo w i <= j <= i)%nat -> (0 < b -> 0 < money_flow h l c v j) /\ (b < 0 -> money_flow h l c v j < 0)).
  { intros j Hj. pose proof (T j Hj). pose proof (S1 j ltac:(lia)). destruct j as [|j]; [lia|]. unfold money_flow. pose proof (Hv (S j)).
    assert (D : typical h l c (S j) = typical h l c j + b) by (rewrite !tl, S_INR; ring).
    split; intros B.
    - destruct (Rlt_dec _ _); [|lra]. nra.
    - destruct (Rlt_dec _ _); [lra|]. destruct (Rlt_dec _ _); [|lra]. nra. }
  split; intros B; (eapply ri_shows; [exact E|auto|]); (apply fromx_ge; [unfold warm; lia|]); unfold mfi_value.
  - rewrite (wsum_zero w (fun j => Rmax 0 (- money_flow h l c v j))) by (intros j Hj; destruct (F j Hj) as [G _]; specialize (G B); apply Rmax_left; lra).
    assert (Q : 0 < wsum w (fun j => Rmax 0 (money_flow h l c v j)) i) by (apply wsum_pos; auto; intros j Hj; destruct (F j Hj) as [G _]; specialize (G B); rewrite Rmax_right; lra).
    destruct (Req_EM_T _ _); [|lra]. destruct (Req_EM_T _ _); [lra|reflexivity].
  - rewrite (wsum_zero w (fun j => Rmax 0 (money_flow h l c v j))) by (intros j Hj; destruct (F j Hj) as [_ G]; specialize (G B); apply Rmax_left; lra).
    assert (Q : 0 < wsum w (fun j => Rmax 0 (- money_flow h l c v j)) i) by (apply wsum_pos; auto; intros j Hj; destruct (F j Hj) as [_ G]; specialize (G B); rewrite Rmax_right; lra).
    destruct (Req_EM_T _ _); [lra|]. f_equal. field. lra.
Qed.

Ltac nat_win := repeat match goal with
  | H : (?p <= ?w)%Z |- _ => is_var w;
      let K := fresh "K" in let k := fresh "k" in destruct (Z_of_nat_complete w ltac:(lia)) as [k K]; subst w
  end.
Lemma half_nat : forall w, (Z.of_nat w / 2)%Z = Z.of_nat (w / 2).
Proof. intros. change 2%Z with (Z.of_nat 2). now rewrite <- Nat2Z.inj_div. Qed.
Lemma lag_half : forall w, SpecMemory.lag (Z.of_nat (w / 2) + 1) = S (w / 2).
Proof. intros. unfold SpecMemory.lag. lia. Qed.
Lemma lag_nat : forall w, SpecMemory.lag (Z.of_nat w) = w.
Proof. intros. unfold SpecMemory.lag. lia. Qed.
Lemma Some_inj : forall {B} (p q : B), Some p = Some q -> p = q. Proof. intros B p q E. now inversion E. Qed.
Lemma table_row : forall ind m x, trend_shows b u d (c i) ind x -> memory ind = Some m -> (m <= i)%nat -> row ind x.
Proof.
  intros ind m x H M Hm. unfold trend_shows in H. destruct ind; try contradiction; cbn [memory] in M.
  all: repeat match goal with
    | H : match ?k with _ => _ end |- _ => destruct k; try contradiction
    | H : _ /\ _ |- _ => destruct H
    end.
  all: try (apply Some_inj in M; subst m). all: subst.
  all: nat_win.
  all: rewrite ?half_nat in *; rewrite <- ?INR_IZR_INZ in *; unfold rise, fall in *; rewrite <- ?INR_IZR_INZ in *.
  all: rewrite ?back_nat, ?lag_half, ?lag_nat in Hm; rewrite ?Nat.max_lub_iff in Hm; repeat match goal with H : _ /\ _ |- _ => destruct H end.
  all: change (SpecMemory.lag 0) with 0%nat in *.
  - apply g_uo; (lia || auto).
  - apply g_stoch; (lia || auto).
  - apply g_ao; lia.
  - apply g_wr; (lia || auto).
  - destruct (g_aroon k) as [P N]; [lia|lia|]. destruct H0 as [[B ->]|[B ->]]; [apply (P B)|apply (N B)].
  - destruct (g_aroon k) as [P N]; [lia|lia|]. destruct H0 as [[B ->]|[B ->]]; [apply (P B)|apply (N B)].
  - destruct (g_aroon k) as [P N]; [lia|lia|]. destruct H0 as [[B ->]|[B ->]]; [apply (P B)|apply (N B)].
  - apply g_sma; lia.
  - apply g_wma; lia.
  - destruct (g_ichi k1 k0 k visual) as (P & _); [lia|lia|lia|]. apply P. lia.
  - destruct (g_ichi k0 k1 k visual) as (_ & P & _); [lia|lia|lia|]. apply P. lia.
  - destruct (g_ichi k1 k0 k false) as (_ & _ & P & _); [lia|lia|lia|]. apply P; lia.
  - destruct (g_ichi k1 k0 k false) as (_ & _ & _ & P); [lia|lia|lia|]. apply P; lia.
  - apply g_dpo; lia.
  - apply g_cci; (lia || auto).
  - apply g_vortex; (lia || auto).
  - apply g_vortex; (lia || auto).
  - apply g_bb; lia.
  - apply g_bb; lia.
  - apply g_bb; lia.
  - destruct (g_bb k r) as (_ & _ & _ & P); [lia|lia|]. apply P; (lia || auto).
  - destruct (g_bbi k r) as (P & N & _ & _); [lia|lia|auto|]. destruct H1 as [(B & C & ->)|[C ->]]; auto.
  - destruct (g_bbi k r) as (_ & _ & P & N); [lia|lia|auto|]. destruct H1 as [(B & C & ->)|[C ->]]; auto.
  - apply g_kc; lia.
  - apply g_kc; lia.
  - apply g_kc; lia.
  - apply g_dc; lia.
  - apply g_dc; lia.
  - apply g_dc; lia.
  - destruct (g_dc k) as (_ & _ & _ & P); [lia|lia|]. apply P; auto.
  - apply g_cmf; (lia || auto).
  - destruct (g_mfi k) as [P N]; [lia|lia|auto|]. destruct H1 as [[B ->]|[B ->]]; [apply (P B)|apply (N B)].
Qed.
End Steady.

Lemma steady_table : forall a b u d ind m past rows out x i, 0 <= u -> 0 <= d -> steady a b u d rows -> memory ind = Some m ->
  compute ind false (past ++ rows) = Ok out -> (m <= i < length rows)%nat -> trend_shows b u d (a + b * INR i) ind x ->
  nth (length past + i) out NaN = x.
Proof.
  intros a b u d ind m past rows out x i Hu Hd (v & V & S) M E Hi T.
  destruct (table_row (length rows) a b u d v Hu Hd V i ltac:(lia) ind m x T M ltac:(lia)) as (o & Eo & L & N).
  rewrite <- (labels_irrelevant _ _ ind false _ _ (memory_unlabelled _ _ M) S) in Eo.
  pose proof (memory_table ind m (or_introl windowed_xr) M past rows o out Eo E) as Q. rewrite <- N.
  assert (A : nth (i - m) (skipn (length past + m) out) NaN = nth (i - m) (skipn m o) NaN) by now rewrite Q.
  rewrite !nth_skipn' in A. replace (length past + m + (i - m))%nat with (length past + i)%nat in A by lia.
  replace (m + (i - m))%nat with i in A by lia. exact A.
Qed.

(** ** exponential averages approach their lag geometrically *)
Lemma exp_lin : forall al f k p q, 0 < al -> (forall j, (k <= j)%nat -> f j = p + q * INR j) -> forall t s, (s <= k)%nat ->
  exp_go al f s (k - s + t) - (f (k + t)%nat - q * ((1 - al) / al)) =
  (1 - al) ^ t * (exp_go al f s (k - s) - (f k - q * ((1 - al) / al))).
Proof.
  intros al f k p q A E t s Hs. induction t as [|t IH].
  - rewrite !Nat.add_0_r. ring.
  - replace (k - s + S t)%nat with (S (k - s + t)) by lia. cbn [exp_go pow].
    replace (s + S (k - s + t))%nat with (k + S t)%nat by lia.
    transitivity ((1 - al) * (exp_go al f s (k - s + t) - (f (k + t)%nat - q * ((1 - al) / al)))).
    + rewrite !E by lia. rewrite !plus_INR, S_INR. field. lra.
    + rewrite IH. ring.
Qed.
Lemma span_lag : forall w, (1 <= w)%nat -> 0 < 2 / (INR w + 1) /\ (1 - 2 / (INR w + 1)) / (2 / (INR w + 1)) = (INR w - 1) / 2 /\ 1 - 2 / (INR w + 1) = (INR w - 1) / (INR w + 1).
Proof.
  intros w Hw. assert (1 <= INR w) by (change 1 with (INR 1); now apply le_INR). split; [apply Rdiv_lt_0_compat; lra|]. split; field; lra.
Qed.
Lemma ema_lag : forall w n h l c v p q k i out, (1 <= w)%nat -> (w - 1 <= k <= i)%nat -> (i < n)%nat -> (forall j, (k <= j < n)%nat -> c j = p + q * INR j) ->
  compute (Ema (Z.of_nat w)) false (frame n h l c v) = Ok out ->
  exists e f, nth k out NaN = Fin e /\ nth i out NaN = Fin f /\
    f - (c i - q * ((INR w - 1) / 2)) = ((INR w - 1) / (INR w + 1)) ^ (i - k) * (e - (c k - q * ((INR w - 1) / 2))).
Proof.
  intros w n h l c v p q k i out Hw Hk Hi C E. rewrite ema_formula in E by auto. apply Ok_inj in E. subst out.
  exists (ema w c 0 k), (ema w c 0 i). rewrite !nth_tab by lia.
  split; [apply from_ge; [unfold warm; lia|reflexivity]|]. split; [apply from_ge; [unfold warm; lia|reflexivity]|].
  set (c' := fun j => if (j <? n)%nat then c j else p + q * INR j).
  assert (X : forall j, (j < n)%nat -> ema w c 0 j = ema w c' 0 j).
  { intros j Hj. unfold ema, expavg. rewrite Nat.sub_0_r. induction j; cbn [exp_go Nat.add]; unfold c'.
    - destruct (Nat.ltb_spec 0 n); [reflexivity|lia].
    - rewrite IHj by lia. destruct (Nat.ltb_spec (S j) n); [reflexivity|lia]. }
  rewrite !X by lia. destruct (span_lag w Hw) as (A & L & D).
  pose proof (exp_lin (2 / (INR w + 1)) c' k p q A) as G.
  assert (C' : forall j, (k <= j)%nat -> c' j = p + q * INR j) by (intros j Hj; unfold c'; destruct (Nat.ltb_spec j n); auto; apply C; lia).
  specialize (G C' (i - k)%nat 0%nat ltac:(lia)). rewrite L, Nat.sub_0_r in G. rewrite D in G.
  replace (k + (i - k))%nat with i in G by lia. unfold ema, expavg. rewrite !Nat.sub_0_r.
  replace (c i) with (c' i) by (unfold c'; destruct (Nat.ltb_spec i n); [auto|lia]).
  replace (c k) with (c' k) by (unfold c'; destruct (Nat.ltb_spec k n); [auto|lia]). exact G.
Qed.
