(** * Scaling: every indicator under a change of units (C60, C61). *)
From Verif Require Import Lists Api Scale ScaleOps.
Local Open Scope R_scope.

Lemma rolling_std_D : forall t w mp s, rolling w mp agg_std0 (s ^^ t) = rmap (map (act (D t))) (rolling w mp agg_std0 s).
Proof. intros. rewrite t_rolling_std. destruct (rolling w mp agg_std0 s); cbn [rmap]; rewrite ?map_spread; reflexivity. Qed.
Lemma rolling_mad_D : forall t w mp s, rolling w mp (agg_apply mad_) (s ^^ t) = rmap (map (act (D t))) (rolling w mp (agg_apply mad_) s).
Proof. intros. rewrite t_rolling_mad. destruct (rolling w mp _ s); cbn [rmap]; rewrite ?map_spread; reflexivity. Qed.

#[global] Hint Rewrite t_shift t_smean t_shift_fill t_np_roll t_rolling_max t_rolling_min t_rolling_mean sc_rolling_sum
  rolling_std_D rolling_mad_D t_ewm_span sc_ewm_inv t_sma t_ema o_ssub o_sadd o_sdiv o_scal o_divs o_muls o_abs o_diff1
  o_map_map o_true_range o_half o_typical o_cumsum o_fill0 o_check0 o_pct_change t_check_back t_check_series
  t_length t_obs t_ffill : units.
Ltac nrm := repeat (progress (autorewrite with units; cbn [fac])).
Ltac stp := match goal with
  | |- context [bind (rmap _ ?m) _] => destruct m; cbn [rmap bind]; [|reflexivity]
  | |- context [bind ?m _] => destruct m; cbn [rmap bind]; [|reflexivity]
  end.
Ltac go := nrm; repeat (stp; nrm); try reflexivity.

Section Units.
Variables (t : trans) (p q : pos).
Variables (h l c v : list xr).

Lemma u_rsi : forall w fl, rsi (c ^^ t) w fl = rsi c w fl.
Proof.
  intros. unfold rsi, rsi_run. nrm.
  set (k := fac t).
  replace (map (fun d : xr => if fltb (fofZ 0) d then d else fofZ 0) (diff1 c ^^ Sc k))
    with (map (fun d : xr => if fltb (fofZ 0) d then d else fofZ 0) (diff1 c) ^^ Sc k).
  2:{ rewrite !map_map. apply map_ext. intros x. rewrite <- (sc_zero k) at 3. rewrite act_ltb. destruct (fltb _ _); auto. apply sc_zero. }
  replace (map (fun d : xr => fopp (if fltb d (fofZ 0) then d else fofZ 0)) (diff1 c ^^ Sc k))
    with (map (fun d : xr => fopp (if fltb d (fofZ 0) then d else fofZ 0)) (diff1 c) ^^ Sc k).
  2:{ rewrite !map_map. apply map_ext. intros x. rewrite <- sc_opp. f_equal. rewrite <- (sc_zero k) at 3. rewrite act_ltb. destruct (fltb _ _); auto. apply sc_zero. }
  go. f_equal. f_equal.
  rewrite <- (map_id (sdiv a a0)) at 1. rewrite map2_map. apply map2_ext2. intros x y. rewrite <- (sc_zero k) at 1. now rewrite act_eqb.
Qed.
Lemma u_tsi : forall s f fl, tsi (c ^^ t) s f fl = tsi c s f fl.
Proof. intros. unfold tsi, tsi_run. go. Qed.
Lemma u_npmin : forall s u, map2 npmin2 (s ^^ t) (u ^^ t) = map2 npmin2 s u ^^ t.
Proof. intros. apply map2_through, t_npmin2. Qed.
Lemma u_npmax : forall s u, map2 npmax2 (s ^^ t) (u ^^ t) = map2 npmax2 s u ^^ t.
Proof. intros. apply map2_through, t_npmax2. Qed.
Lemma u_uo : forall w1 w2 w3 k1 k2 k3 fl, ultimate_oscillator (h ^^ t) (l ^^ t) (c ^^ t) w1 w2 w3 k1 k2 k3 fl = ultimate_oscillator h l c w1 w2 w3 k1 k2 k3 fl.
Proof. intros. unfold ultimate_oscillator, uo_run. nrm. rewrite u_npmin. go. Qed.
Lemma u_stoch_run : forall w fl, stoch_run (h ^^ t) (l ^^ t) (c ^^ t) w fl = stoch_run h l c w fl.
Proof. intros. unfold stoch_run. go. Qed.
Lemma u_stoch : forall w s fl, stoch (h ^^ t) (l ^^ t) (c ^^ t) w s fl = stoch h l c w s fl.
Proof. intros. unfold stoch. now rewrite u_stoch_run. Qed.
Lemma u_stoch_signal : forall w s fl, stoch_signal (h ^^ t) (l ^^ t) (c ^^ t) w s fl = stoch_signal h l c w s fl.
Proof. intros. unfold stoch_signal. now rewrite u_stoch_run. Qed.
Lemma u_kama_go : forall sc cl first prev, kama_go sc (cl ^^ t) first (act t prev) = kama_go sc cl first prev ^^ t.
Proof.
  induction sc; intros; auto. destruct cl as [|x cl]; auto. cbn [map kama_go]. destruct (fisnan a).
  - cbn [map]. f_equal. apply (IHsc cl first NaN).
  - destruct first; cbn [map].
    + now rewrite IHsc.
    + rewrite sub_t, sc_mul_r, add_t, IHsc. reflexivity.
Qed.
Lemma kama_first : forall sc cl x y, kama_go sc cl true x = kama_go sc cl true y :> list xr.
Proof. induction sc; intros; auto. Qed.
Lemma u_kama_sc : forall w a b fl, kama_sc (c ^^ t) w a b fl = kama_sc c w a b fl.
Proof.
  intros. unfold kama_sc. go. destruct (_ || _)%bool; auto. f_equal. f_equal. apply map2_same. intros x y.
  rewrite <- (sc_zero (fac t)) at 1. rewrite act_eqb. destruct (feqb y _); cbn [negb]; auto. apply sc_div.
Qed.
Lemma u_kama : forall w a b fl, kama (c ^^ t) w a b fl = rmap (map (act t)) (kama c w a b fl).
Proof.
  intros. unfold kama, kama_run. rewrite u_kama_sc. destruct (kama_sc c w a b fl); cbn [rmap bind]; auto.
  rewrite (kama_first _ _ _ (act t (fofZ 0))), u_kama_go, t_check_series. reflexivity.
Qed.
Lemma u_roc : forall w fl, roc (c ^^ Sc p) w fl = roc c w fl.
Proof. intros. unfold roc. go. Qed.
Lemma u_ao : forall w1 w2 fl, awesome_oscillator (h ^^ t) (l ^^ t) w1 w2 fl = rmap (map (act (D t))) (awesome_oscillator h l w1 w2 fl).
Proof. intros. unfold awesome_oscillator. go. Qed.
Lemma u_wr : forall w fl, williams_r (h ^^ t) (l ^^ t) (c ^^ t) w fl = williams_r h l c w fl.
Proof. intros. unfold williams_r. go. Qed.
Lemma u_stochrsi_run : forall w s fl, stochrsi_run (c ^^ t) w s fl = stochrsi_run c w s fl.
Proof. intros. unfold stochrsi_run. now rewrite u_rsi. Qed.
Lemma u_ppo_run : forall s f g fl, ppo_run (c ^^ Sc p) s f g fl = ppo_run c s f g fl.
Proof. intros. unfold ppo_run. go. Qed.
Lemma u_pvo_run : forall s f g fl, pvo_run (v ^^ Sc q) s f g fl = pvo_run v s f g fl.
Proof. intros. unfold pvo_run. go. Qed.

Lemma u_argmax : forall f w mp s, rolling w mp (agg_apply (fun x => f (np_argmax x))) (s ^^ t) = rolling w mp (agg_apply (fun x => f (np_argmax x))) s.
Proof.
  intros f w mp s. rewrite (t_rolling t (fun x => x)).
  - destruct (rolling w mp _ s); cbn [rmap]; now rewrite ?map_id.
  - intros. apply (t_agg_apply t (fun x => x)); auto. intros. now rewrite t_argmax.
Qed.
Lemma u_argmin : forall f w mp s, rolling w mp (agg_apply (fun x => f (np_argmin x))) (s ^^ t) = rolling w mp (agg_apply (fun x => f (np_argmin x))) s.
Proof.
  intros f w mp s. rewrite (t_rolling t (fun x => x)).
  - destruct (rolling w mp _ s); cbn [rmap]; now rewrite ?map_id.
  - intros. apply (t_agg_apply t (fun x => x)); auto. intros. now rewrite t_argmin.
Qed.
Lemma u_aroon : forall w fl, aroon_run (h ^^ t) (l ^^ t) w fl = aroon_run h l w fl.
Proof.
  intros. unfold aroon_run.
  rewrite (u_argmax (fun k => fmul (fdiv (fofnat k) (fofZ w)) (fofZ 100))), (u_argmin (fun k => fmul (fdiv (fofnat k) (fofZ w)) (fofZ 100))).
  rewrite !t_prep, !t_obs, !t_length. reflexivity.
Qed.
Lemma u_macd_run : forall s f g fl, macd_run (c ^^ t) s f g fl = rmap (fun '(a, b, d) => (a ^^ D t, b ^^ D t, d ^^ D t)) (macd_run c s f g fl).
Proof. intros. unfold macd_run. go. Qed.
Lemma u_macd : forall s f g fl, macd (c ^^ t) s f g fl = rmap (map (act (D t))) (macd c s f g fl).
Proof. intros. unfold macd. rewrite u_macd_run. destruct (macd_run c s f g fl) as [[[a b] d]|]; cbn [rmap bind]; auto. now rewrite o_check0. Qed.
Lemma u_macd_signal : forall s f g fl, macd_signal (c ^^ t) s f g fl = rmap (map (act (D t))) (macd_signal c s f g fl).
Proof. intros. unfold macd_signal. rewrite u_macd_run. destruct (macd_run c s f g fl) as [[[a b] d]|]; cbn [rmap bind]; auto. now rewrite o_check0. Qed.
Lemma u_macd_diff : forall s f g fl, macd_diff (c ^^ t) s f g fl = rmap (map (act (D t))) (macd_diff c s f g fl).
Proof. intros. unfold macd_diff. rewrite u_macd_run. destruct (macd_run c s f g fl) as [[[a b] d]|]; cbn [rmap bind]; auto. now rewrite o_check0. Qed.
Lemma u_wma_sc : forall w fl, wma (c ^^ Sc p) w fl = rmap (map (act (Sc p))) (wma c w fl).
Proof.
  intros. unfold wma. rewrite (t_rolling (Sc p) (act (Sc p))).
  - go.
  - intros. apply (t_agg_apply (Sc p) (act (Sc p))); auto. intros x.
    replace (map2 fmul (wma_weights w) (x ^^ Sc p)) with (smul (wma_weights w) (x ^^ Sc p)) by reflexivity.
    rewrite o_smul_r, !ssum_obs, t_obs, fsum_sc. reflexivity.
Qed.
Lemma u_trix : forall w fl, trix (c ^^ Sc p) w fl = trix c w fl.
Proof. intros. unfold trix. go. Qed.
Lemma u_mass : forall a b fl, mass_index (h ^^ t) (l ^^ t) a b fl = mass_index h l a b fl.
Proof. intros. unfold mass_index. go. Qed.
Lemma u_ichi_run : forall a b fl, ichimoku_run (h ^^ t) (l ^^ t) a b fl = rmap (fun '(x, y) => (x ^^ t, y ^^ t)) (ichimoku_run h l a b fl).
Proof. intros. unfold ichimoku_run. go. Qed.
Lemma u_ichi_conv : forall w1 w2 w3 vis fl, ichimoku_conversion_line (h ^^ t) (l ^^ t) w1 w2 w3 vis fl = rmap (map (act t)) (ichimoku_conversion_line h l w1 w2 w3 vis fl).
Proof. intros. unfold ichimoku_conversion_line. rewrite u_ichi_run. destruct (ichimoku_run h l w1 w2 fl) as [[a b]|]; cbn [rmap bind]; auto. go. Qed.
Lemma u_ichi_base : forall w1 w2 w3 vis fl, ichimoku_base_line (h ^^ t) (l ^^ t) w1 w2 w3 vis fl = rmap (map (act t)) (ichimoku_base_line h l w1 w2 w3 vis fl).
Proof. intros. unfold ichimoku_base_line. rewrite u_ichi_run. destruct (ichimoku_run h l w1 w2 fl) as [[a b]|]; cbn [rmap bind]; auto. go. Qed.
Lemma u_ichi_a : forall w1 w2 w3 vis fl, ichimoku_a (h ^^ t) (l ^^ t) w1 w2 w3 vis fl = rmap (map (act t)) (ichimoku_a h l w1 w2 w3 vis fl).
Proof. intros. unfold ichimoku_a. rewrite u_ichi_run. destruct (ichimoku_run h l w1 w2 fl) as [[a b]|]; cbn [rmap bind]; auto. destruct vis; go. Qed.
Lemma u_ichi_b : forall w1 w2 w3 vis fl, ichimoku_b (h ^^ t) (l ^^ t) w1 w2 w3 vis fl = rmap (map (act t)) (ichimoku_b h l w1 w2 w3 vis fl).
Proof. intros. unfold ichimoku_b. rewrite u_ichi_run. destruct (ichimoku_run h l w1 w2 fl) as [[a b]|]; cbn [rmap bind]; auto. destruct vis; go. Qed.
Lemma u_kst_run : forall r1 r2 r3 r4 w1 w2 w3 w4 n fl, kst_run (c ^^ Sc p) r1 r2 r3 r4 w1 w2 w3 w4 n fl = kst_run c r1 r2 r3 r4 w1 w2 w3 w4 n fl.
Proof.
  intros. unfold kst_run. assert (E : forall r w, kst_rocma (c ^^ Sc p) r w fl = kst_rocma c r w fl).
  { intros. unfold kst_rocma. go. }
  now rewrite !E.
Qed.
Lemma u_dpo : forall w fl, dpo (c ^^ t) w fl = rmap (map (act (D t))) (dpo c w fl).
Proof. intros. unfold dpo. go. Qed.
Lemma u_cci : forall w k fl, cci (h ^^ t) (l ^^ t) (c ^^ t) w k fl = cci h l c w k fl.
Proof. intros. unfold cci. go. Qed.
Lemma u_adx_smooth_go : forall k w s x, adx_smooth_go w (act (Sc k) x) (s ^^ Sc k) = adx_smooth_go w x s ^^ Sc k.
Proof. intros k w. induction s; intros; auto. cbn [map adx_smooth_go]. rewrite sc_div_l, sc_sub, sc_add, IHs. reflexivity. Qed.
Lemma u_adx_smooth : forall k w m s, adx_smooth w m (s ^^ Sc k) = adx_smooth w m s ^^ Sc k.
Proof.
  intros. unfold adx_smooth. rewrite t_obs, t_firstn, fsum_sc, t_skipn, u_adx_smooth_go.
  destruct (m =? 1)%nat; auto. cbn [map]. rewrite map_app. cbn [map]. now rewrite sc_zero.
Qed.
Definition adx_scaled (k : pos) (st : adx_state) : adx_state :=
  {| adx_trs := adx_trs st ^^ Sc k; adx_dip := adx_dip st ^^ Sc k; adx_din := adx_din st ^^ Sc k |}.
Lemma u_adx_run : forall w, adx_run (h ^^ t) (l ^^ t) (c ^^ t) w = rmap (adx_scaled (fac t)) (adx_run h l c w).
Proof.
  intros. unfold adx_run, get_min_max. destruct (w =? 0)%Z; auto. cbn [bind]. nrm. rewrite u_npmin, u_npmax.
  destruct (_ || _)%bool; auto. destruct (_ =? 0)%Z; auto. cbn [rmap]. unfold adx_scaled. nrm.
  assert (E : forall b x, fabs (fmul (if b : bool then fofZ 1 else fofZ 0) (act (D t) x)) = act (D t) (fabs (fmul (if b then fofZ 1 else fofZ 0) x))).
  { intros. now rewrite sc_mul_r, sc_abs. }
  f_equal. f_equal.
  - apply u_adx_smooth.
  - cbn [adx_dip]. rewrite <- u_adx_smooth. f_equal. apply map2_through. intros x y. rewrite <- E. do 2 f_equal.
    rewrite <- (sc_zero (fac t)) at 1. now rewrite !act_ltb.
  - cbn [adx_din]. rewrite <- u_adx_smooth. f_equal. apply map2_through. intros x y. rewrite <- E. do 2 f_equal.
    rewrite <- (sc_zero (fac t)) at 1. now rewrite !act_ltb.
Qed.
Lemma u_adx_pct : forall k s u, map2 adx_pct (s ^^ Sc k) (u ^^ Sc k) = map2 adx_pct s u.
Proof.
  intros. apply map2_same. intros x y. unfold adx_pct. rewrite <- (sc_zero k) at 1. rewrite act_eqb, sc_div. reflexivity.
Qed.
Lemma u_adx : forall w fl, adx (h ^^ t) (l ^^ t) (c ^^ t) w fl = adx h l c w fl.
Proof.
  intros. unfold adx. rewrite u_adx_run. destruct (adx_run h l c w); cbn [rmap bind]; auto.
  unfold adx_scaled; cbn [adx_trs adx_dip adx_din]. now rewrite !u_adx_pct, t_length.
Qed.
Lemma u_adx_pos : forall w fl, adx_pos (h ^^ t) (l ^^ t) (c ^^ t) w fl = adx_pos h l c w fl.
Proof.
  intros. unfold adx_pos. rewrite u_adx_run. destruct (adx_run h l c w); cbn [rmap bind]; auto.
  unfold adx_scaled, adx_line; cbn [adx_trs adx_dip adx_din]. now rewrite !u_adx_pct, !t_length.
Qed.
Lemma u_adx_neg : forall w fl, adx_neg (h ^^ t) (l ^^ t) (c ^^ t) w fl = adx_neg h l c w fl.
Proof.
  intros. unfold adx_neg. rewrite u_adx_run. destruct (adx_run h l c w); cbn [rmap bind]; auto.
  unfold adx_scaled, adx_line; cbn [adx_trs adx_dip adx_din]. now rewrite !u_adx_pct, !t_length.
Qed.
Lemma u_vortex_run : forall w fl, vortex_run (h ^^ t) (l ^^ t) (c ^^ t) w fl = vortex_run h l c w fl.
Proof. intros. unfold vortex_run. go. Qed.
Lemma u_stc : forall a b d e f fl, stc (c ^^ t) a b d e f fl = stc c a b d e f fl.
Proof. intros. unfold stc, stc_stoch. go. Qed.
End Units.
