(** * MirrorInd: every series on the mirrored market (C71). *)
From Verif Require Import Lists Api Rows Running Scale ScaleOps Scaling SpecMirror Mirror.
Local Open Scope R_scope.

Lemma rmap_as : forall {B C} (f : B -> C) m, rmap f m = bind m (fun x => Ok (f x)).
Proof. now intros B C f [x|]. Qed.
Lemma bind_ok : forall {B C} x (k : B -> result C), bind (Ok x) k = k x. Proof. reflexivity. Qed.
Lemma bind_bind : forall {B C D} (m : result B) (k : B -> result C) (k' : C -> result D),
  bind (bind m k) k' = bind m (fun x => bind (k x) k').
Proof. now intros B C D [x|]. Qed.
Lemma len_n : forall s, length (N s) = length s. Proof. intros. apply map_length. Qed.
#[export] Hint Rewrite @rmap_as @bind_ok @bind_bind n_rolling_max n_rolling_min n_rolling_sum n_rolling_mean n_rolling_std n_rolling_mad n_ewm_span n_ema n_sma
  n_shift n_smean n_shift_fill n_diff1 n_ssub n_sadd n_scal n_divs n_muls n_sdiv_l n_smul_l n_sabs n_cumsum n_check0 n_check_back n_check_series n_np_roll n_true_range
  n_fill0 len_n : mir.
Ltac mgo := repeat (autorewrite with mir; cbn [bind]; cbv beta zeta; try (match goal with |- bind ?m _ = bind ?m _ => apply bind_ext; intro end)); try reflexivity.

Lemma n_rolling_apply : forall (u : xr -> xr) g g' w mp s, (forall x, g (N x) = u (g' x)) -> u NaN = NaN ->
  rolling w mp (agg_apply g) (N s) = rmap (map u) (rolling w mp (agg_apply g') s).
Proof.
  intros u g g' w mp s H U. apply n_rolling_gen. intros. cbn [win_agg agg_apply]. unfold win_apply. rewrite n_obs, len_n, H. now destruct (_ <=? _)%nat.
Qed.

Ltac splitroll := autorewrite with mir; repeat (match goal with |- context [rolling ?w ?mp ?agg ?s] => destruct (rolling w mp agg s) eqn:? end; cbn [bind rmap]; autorewrite with mir);
  repeat match goal with H : rolling _ _ _ _ = Raise _ |- _ => apply rolling_raise in H; subst end; try reflexivity.

Section Signed.
Implicit Types h l c v : list xr.
Lemma m_tsi : forall c s f fl, tsi (N c) s f fl = rmap (map fopp) (tsi c s f fl).
Proof. intros. unfold tsi, tsi_run. mgo. Qed.
Lemma m_ao : forall h l a b fl, awesome_oscillator (N l) (N h) a b fl = rmap (map fopp) (awesome_oscillator h l a b fl).
Proof. intros. unfold awesome_oscillator. rewrite (sadd_comm h l). mgo. Qed.
Lemma m_macd : forall c s f g fl, macd (N c) s f g fl = rmap (map fopp) (macd c s f g fl).
Proof. intros. unfold macd, macd_run. mgo. Qed.
Lemma m_macd_signal : forall c s f g fl, macd_signal (N c) s f g fl = rmap (map fopp) (macd_signal c s f g fl).
Proof. intros. unfold macd_signal, macd_run. mgo. Qed.
Lemma m_macd_diff : forall c s f g fl, macd_diff (N c) s f g fl = rmap (map fopp) (macd_diff c s f g fl).
Proof. intros. unfold macd_diff, macd_run. mgo. Qed.
Lemma m_wma : forall c w fl, wma (N c) w fl = rmap (map fopp) (wma c w fl).
Proof.
  intros. unfold wma. rewrite (n_rolling_apply fopp _ (fun x => ssum (map2 fmul (wma_weights w) x))); mgo.
  intros x. rewrite (map2_r fmul fmul fopp fopp) by (intros; apply n_mul_r). now rewrite !ssum_obs, n_obs, n_fsum.
Qed.
Lemma m_mass : forall h l f s fl, mass_index (N l) (N h) f s fl = mass_index h l f s fl.
Proof. intros. unfold mass_index. rewrite n_ssub, n_ssub_swap. reflexivity. Qed.
Lemma m_dpo : forall c w fl, dpo (N c) w fl = rmap (map fopp) (dpo c w fl).
Proof. intros. unfold dpo. mgo. Qed.
Lemma m_cci : forall h l c w k fl, cci (N l) (N h) (N c) w k fl = rmap (map fopp) (cci h l c w k fl).
Proof. intros. unfold cci. rewrite (sadd_comm h l). mgo. Qed.
Lemma m_ichi_run : forall h l a b fl, ichimoku_run (N l) (N h) a b fl = rmap (fun p => (N (fst p), N (snd p))) (ichimoku_run h l a b fl).
Proof.
  intros. unfold ichimoku_run. splitroll. now rewrite (sadd_comm a0), (sadd_comm a2).
Qed.
Lemma m_ichi_conv : forall h l a b w vis fl, ichimoku_conversion_line (N l) (N h) a b w vis fl = rmap (map fopp) (ichimoku_conversion_line h l a b w vis fl).
Proof. intros. unfold ichimoku_conversion_line. rewrite m_ichi_run. mgo. destruct x. cbn [fst snd]. mgo. Qed.
Lemma m_ichi_base : forall h l a b w vis fl, ichimoku_base_line (N l) (N h) a b w vis fl = rmap (map fopp) (ichimoku_base_line h l a b w vis fl).
Proof. intros. unfold ichimoku_base_line. rewrite m_ichi_run. mgo. destruct x. cbn [fst snd]. mgo. Qed.
Lemma m_ichi_a : forall h l a b w vis fl, ichimoku_a (N l) (N h) a b w vis fl = rmap (map fopp) (ichimoku_a h l a b w vis fl).
Proof. intros. unfold ichimoku_a. rewrite m_ichi_run. mgo. destruct x. cbn [fst snd]. destruct vis; mgo. Qed.
Lemma m_ichi_b : forall h l a b w vis fl, ichimoku_b (N l) (N h) a b w vis fl = rmap (map fopp) (ichimoku_b h l a b w vis fl).
Proof.
  intros. unfold ichimoku_b. rewrite m_ichi_run. mgo. splitroll. rewrite (sadd_comm a0). destruct vis; mgo.
Qed.
Lemma n_clv : forall h l c, clv (N l) (N h) (N c) = N (clv h l c).
Proof.
  intros. unfold clv. rewrite !n_ssub, (n_ssub_swap l h), n_sdiv_l, n_fill0. do 3 f_equal.
  now rewrite <- (n_ssub_swap h c), <- (n_ssub_swap c l), n_ssub, n_ssub_swap.
Qed.
Lemma m_adi : forall h l c v fl, acc_dist_index (N l) (N h) (N c) v fl = rmap (map fopp) (acc_dist_index h l c v fl).
Proof. intros. unfold acc_dist_index. rewrite n_clv. mgo. Qed.
Lemma m_cmf : forall h l c v w fl, chaikin_money_flow (N l) (N h) (N c) v w fl = rmap (map fopp) (chaikin_money_flow h l c v w fl).
Proof. intros. unfold chaikin_money_flow. rewrite n_clv. mgo. Qed.
Lemma m_fi : forall c v w fl, force_index (N c) v w fl = rmap (map fopp) (force_index c v w fl).
Proof. intros. unfold force_index. mgo. Qed.
Lemma n_emv : forall h l v, emv (N l) (N h) v = N (emv h l v).
Proof. intros. unfold emv. rewrite (n_ssub l h), n_ssub_swap, (sadd_comm (diff1 h)). mgo. Qed.
Lemma m_eom : forall h l v w fl, ease_of_movement (N l) (N h) v w fl = rmap (map fopp) (ease_of_movement h l v w fl).
Proof. intros. unfold ease_of_movement. rewrite n_emv. mgo. Qed.
Lemma m_sma_eom : forall h l v w fl, sma_ease_of_movement (N l) (N h) v w fl = rmap (map fopp) (sma_ease_of_movement h l v w fl).
Proof. intros. unfold sma_ease_of_movement. rewrite n_emv. mgo. Qed.
Lemma n_kama_go : forall sc c b p, kama_go sc (N c) b (fopp p) = N (kama_go sc c b p).
Proof.
  induction sc; intros [|x c] b p; auto. cbn [map kama_go]. destruct (fisnan a).
  - cbn [map]. f_equal. apply (IHsc c b NaN).
  - destruct b; cbn [map]; [f_equal; apply IHsc|]. now rewrite n_sub, n_mul_r, n_add, IHsc.
Qed.
Lemma n_kama_sc : forall c w p q fl, kama_sc (N c) w p q fl = kama_sc c w p q fl.
Proof. intros. unfold kama_sc. now rewrite !n_np_roll, !n_ssub, !n_sabs. Qed.
Lemma m_kama : forall c w p q fl, kama (N c) w p q fl = rmap (map fopp) (kama c w p q fl).
Proof.
  intros. unfold kama, kama_run. rewrite n_kama_sc. mgo. rewrite <- n_check_series. do 2 f_equal. rewrite <- n_kama_go. now rewrite n_zero.
Qed.

(** ** up and down *)
Lemma n_argbest : forall b b', (forall x y : xr, b (fopp x) (fopp y) = b' x y) ->
  forall s i j x, argbest_go b i j (fopp x) (N s) = argbest_go b' i j x s.
Proof.
  intros b b' H. induction s; intros; auto. cbn [map argbest_go]. rewrite !n_isnan, H, !IHs. auto.
Qed.
Lemma n_argmax : forall s, np_argmax (N s) = np_argmin s.
Proof. intros [|x s]; auto. cbn [map np_argmax np_argmin]. apply n_argbest. intros. apply n_ltb. Qed.
Lemma n_argmin : forall s, np_argmin (N s) = np_argmax s.
Proof. intros [|x s]; auto. cbn [map np_argmax np_argmin]. apply n_argbest. intros. apply n_ltb. Qed.
Lemma m_aroon_run : forall h l w fl, aroon_run (N l) (N h) w fl = rmap (fun p => (snd p, fst p)) (aroon_run h l w fl).
Proof.
  intros. unfold aroon_run.
  rewrite (n_rolling_apply (fun x => x) _ (fun x => fmul (fdiv (fofnat (np_argmin x)) (fofZ w)) (fofZ 100))), rmap_id by (auto; intros; now rewrite n_argmax).
  rewrite (n_rolling_apply (fun x => x) _ (fun x => fmul (fdiv (fofnat (np_argmax x)) (fofZ w)) (fofZ 100))), rmap_id by (auto; intros; now rewrite n_argmin).
  splitroll. rewrite !n_prep, !n_obs, !len_n. rewrite (Bool.orb_comm (negb (length (obs (prep l)) =? 0)%nat)), (Bool.orb_comm (negb (length l =? 0)%nat)).
  destruct (_ && _)%bool; auto. destruct (_ && _)%bool; auto.
Qed.
Lemma m_aroon_up : forall h l w fl, aroon_up (N l) (N h) w fl = aroon_down h l w fl.
Proof. intros. unfold aroon_up, aroon_down. rewrite m_aroon_run. mgo. now destruct x. Qed.
Lemma m_aroon_down : forall h l w fl, aroon_down (N l) (N h) w fl = aroon_up h l w fl.
Proof. intros. unfold aroon_up, aroon_down. rewrite m_aroon_run. mgo. now destruct x. Qed.
Lemma m_aroon_ind : forall h l w fl, aroon_indicator (N l) (N h) w fl = rmap (map fopp) (aroon_indicator h l w fl).
Proof. intros. unfold aroon_indicator. rewrite m_aroon_run. mgo. destruct x as [u d]. cbn [fst snd rmap bind]. now rewrite <- n_check0, n_ssub_swap. Qed.
Lemma m_vortex_run : forall h l c w fl, vortex_run (N l) (N h) (N c) w fl = rmap (fun p => (snd p, fst p)) (vortex_run h l c w fl).
Proof.
  intros. unfold vortex_run. splitroll.
Qed.
Lemma m_vortex_pos : forall h l c w fl, vortex_indicator_pos (N l) (N h) (N c) w fl = vortex_indicator_neg h l c w fl.
Proof. intros. unfold vortex_indicator_pos, vortex_indicator_neg. rewrite m_vortex_run. mgo. now destruct x. Qed.
Lemma m_vortex_neg : forall h l c w fl, vortex_indicator_neg (N l) (N h) (N c) w fl = vortex_indicator_pos h l c w fl.
Proof. intros. unfold vortex_indicator_pos, vortex_indicator_neg. rewrite m_vortex_run. mgo. now destruct x. Qed.
Lemma m_vortex_diff : forall h l c w fl, vortex_indicator_diff (N l) (N h) (N c) w fl = rmap (map fopp) (vortex_indicator_diff h l c w fl).
Proof. intros. unfold vortex_indicator_diff. rewrite m_vortex_run. mgo. destruct x as [u d]. cbn [fst snd rmap bind]. now rewrite <- n_check0, n_ssub_swap. Qed.

(** ** directional movement *)
Definition flip_adx (st : @adx_state xr) : @adx_state xr := {| adx_trs := adx_trs st; adx_dip := adx_din st; adx_din := adx_dip st |}.
Lemma map2_flip : forall {B C D} (f : B -> C -> D) s u, map2 (fun y x => f x y) u s = map2 f s u.
Proof. intros B C D f. induction s; intros [|y u]; auto. cbn. now rewrite IHs. Qed.
Lemma m_adx_run : forall h l c w, adx_run (N l) (N h) (N c) w = rmap flip_adx (adx_run h l c w).
Proof.
  intros. unfold adx_run, get_min_max. destruct (w =? 0)%Z; auto. rewrite !bind_ok, !n_shift.
  rewrite (map2_through npmax2 npmin2 fopp fopp fopp) by (intros; apply n_npmax2).
  rewrite (map2_through npmin2 npmax2 fopp fopp fopp) by (intros; apply n_npmin2).
  rewrite !n_ssub, !n_ssub_swap, len_n. destruct (_ || _)%bool; auto. destruct (_ =? 0)%Z; auto. cbn [rmap]. do 2 f_equal.
  unfold flip_adx. cbn [adx_trs adx_dip adx_din]. f_equal; f_equal.
  - rewrite <- map2_flip. apply map2_ext2. auto.
  - rewrite <- map2_flip. apply map2_ext2. auto.
Qed.
Lemma m_adx_pos : forall h l c w fl, adx_pos (N l) (N h) (N c) w fl = adx_neg h l c w fl.
Proof. intros. unfold adx_pos, adx_neg. rewrite m_adx_run. mgo. Qed.
Lemma m_adx_neg : forall h l c w fl, adx_neg (N l) (N h) (N c) w fl = adx_pos h l c w fl.
Proof. intros. unfold adx_pos, adx_neg. rewrite m_adx_run. mgo. Qed.
Lemma add_comm_x : forall x y : xr, fadd x y = fadd y x.
Proof. intros [| | |x] [| | |y]; cbn; auto. f_equal. lra. Qed.
Lemma adx_dx_comm : forall p q : xr, adx_dx p q = adx_dx q p.
Proof. intros. unfold adx_dx. rewrite (add_comm_x p q), <- (sub_swap q p), n_div_l, n_abs. auto. Qed.
Lemma m_adx : forall h l c w fl, adx (N l) (N h) (N c) w fl = adx h l c w fl.
Proof.
  intros. unfold adx. rewrite m_adx_run. mgo. cbn [flip_adx adx_trs adx_dip adx_din].
  replace (map2 adx_dx (map2 adx_pct (adx_din x) (adx_trs x)) (map2 adx_pct (adx_dip x) (adx_trs x)))
    with (map2 adx_dx (map2 adx_pct (adx_dip x) (adx_trs x)) (map2 adx_pct (adx_din x) (adx_trs x))); auto.
  rewrite <- map2_flip. apply map2_ext2. intros. apply adx_dx_comm.
Qed.
Lemma m_atr : forall h l c w fl, average_true_range (N l) (N h) (N c) w fl = average_true_range h l c w fl.
Proof. intros. unfold average_true_range. now rewrite n_shift, n_true_range, len_n. Qed.

(** ** bands *)
Lemma n_sadd_ssub : forall s u, sadd (N s) u = N (ssub s u).
Proof. induction s; intros [|y u]; auto. unfold sadd, ssub in *. cbn [map map2]. rewrite IHs. f_equal. destruct a, y; cbn; auto. f_equal. lra. Qed.
Lemma n_ssub_sadd : forall s u, ssub (N s) u = N (sadd s u).
Proof. induction s; intros [|y u]; auto. unfold sadd, ssub in *. cbn [map map2]. rewrite IHs. f_equal. destruct a, y; cbn; auto. f_equal. lra. Qed.
Lemma sadd_opp_scal : forall k s u, sadd (scal (Fin (- k)) s) u = ssub u (scal (Fin k) s).
Proof.
  intros k. induction s; intros [|y u]; auto. unfold sadd, ssub, scal in *. cbn [map map2]. rewrite IHs. f_equal.
  change (Fin (- k)) with (fopp (Fin k) : xr). rewrite n_mul_l, add_comm_x. destruct y, (fmul (Fin k) a); cbn; auto.
Qed.
Definition flip_bb (st : @bb_state xr) : @bb_state xr := {| bb_mavg := N (bb_mavg st); bb_hband := N (bb_lband st); bb_lband := N (bb_hband st) |}.
Lemma m_bb_run : forall c w d fl, bollinger_run (N c) w d fl = rmap flip_bb (bollinger_run c w d fl).
Proof. intros. unfold bollinger_run. mgo. unfold flip_bb. cbn. now rewrite n_sadd_ssub, n_ssub_sadd. Qed.
Lemma m_bb_m : forall c w d fl, bollinger_mavg (N c) w d fl = rmap (map fopp) (bollinger_mavg c w d fl).
Proof. intros. unfold bollinger_mavg. rewrite m_bb_run. mgo. cbn [flip_bb bb_mavg]. mgo. Qed.
Lemma m_bb_h : forall c w d fl, bollinger_hband (N c) w d fl = rmap (map fopp) (bollinger_lband c w d fl).
Proof. intros. unfold bollinger_hband, bollinger_lband. rewrite m_bb_run. mgo. cbn [flip_bb bb_hband]. mgo. Qed.
Lemma m_bb_l : forall c w d fl, bollinger_lband (N c) w d fl = rmap (map fopp) (bollinger_hband c w d fl).
Proof. intros. unfold bollinger_hband, bollinger_lband. rewrite m_bb_run. mgo. cbn [flip_bb bb_lband]. mgo. Qed.
Lemma n_above : forall c h, map2 (fun x y => if fltb y x then fofZ 1 else fofZ 0) (N c) (N h) = map2 (fun x y => if fltb x y then fofZ 1 else fofZ 0 : xr) c h.
Proof. intros. rewrite map2_map. apply map2_ext2. intros. now rewrite n_ltb. Qed.
Lemma n_below : forall c l, map2 (fun x y => if fltb x y then fofZ 1 else fofZ 0) (N c) (N l) = map2 (fun x y => if fltb y x then fofZ 1 else fofZ 0 : xr) c l.
Proof. intros. rewrite map2_map. apply map2_ext2. intros. now rewrite n_ltb. Qed.
Lemma m_bb_hi : forall c w d fl, bollinger_hband_indicator (N c) w d fl = bollinger_lband_indicator c w d fl.
Proof. intros. unfold bollinger_hband_indicator, bollinger_lband_indicator. rewrite m_bb_run. mgo. cbn [flip_bb bb_hband]. now rewrite n_above. Qed.
Lemma m_bb_li : forall c w d fl, bollinger_lband_indicator (N c) w d fl = bollinger_hband_indicator c w d fl.
Proof. intros. unfold bollinger_hband_indicator, bollinger_lband_indicator. rewrite m_bb_run. mgo. cbn [flip_bb bb_lband]. now rewrite n_below. Qed.

Definition flip_kc (st : @kc_state xr) : @kc_state xr := {| kc_tp := N (kc_tp st); kc_high := N (kc_low st); kc_low := N (kc_high st) |}.
Lemma m_kc_run : forall h l c w a fl o m, keltner_run (N l) (N h) (N c) w a fl o m = rmap flip_kc (keltner_run h l c w a fl o m).
Proof.
  intros. unfold keltner_run. destruct o.
  - rewrite (sadd_comm h l). change (fofZ (-2)) with (Fin (Ropp 2)). change (fofZ 2) with (Fin 2). rewrite !sadd_opp_scal.
    splitroll.
  - rewrite m_atr. mgo. unfold flip_kc. cbn. now rewrite n_sadd_ssub, n_ssub_sadd.
Qed.
Lemma m_kc_m : forall h l c w a fl o m, keltner_channel_mband (N l) (N h) (N c) w a fl o m = rmap (map fopp) (keltner_channel_mband h l c w a fl o m).
Proof. intros. unfold keltner_channel_mband. rewrite m_kc_run. mgo. cbn [flip_kc kc_tp]. mgo. Qed.
Lemma m_kc_h : forall h l c w a fl o m, keltner_channel_hband (N l) (N h) (N c) w a fl o m = rmap (map fopp) (keltner_channel_lband h l c w a fl o m).
Proof. intros. unfold keltner_channel_hband, keltner_channel_lband. rewrite m_kc_run. mgo. cbn [flip_kc kc_high]. mgo. Qed.
Lemma m_kc_l : forall h l c w a fl o m, keltner_channel_lband (N l) (N h) (N c) w a fl o m = rmap (map fopp) (keltner_channel_hband h l c w a fl o m).
Proof. intros. unfold keltner_channel_hband, keltner_channel_lband. rewrite m_kc_run. mgo. cbn [flip_kc kc_low]. mgo. Qed.
Lemma m_kc_hi : forall h l c w a fl o m, keltner_channel_hband_indicator (N l) (N h) (N c) w a fl o m = keltner_channel_lband_indicator h l c w a fl o m.
Proof. intros. unfold keltner_channel_hband_indicator, keltner_channel_lband_indicator. rewrite m_kc_run. mgo. cbn [flip_kc kc_high]. now rewrite n_above. Qed.
Lemma m_kc_li : forall h l c w a fl o m, keltner_channel_lband_indicator (N l) (N h) (N c) w a fl o m = keltner_channel_hband_indicator h l c w a fl o m.
Proof. intros. unfold keltner_channel_hband_indicator, keltner_channel_lband_indicator. rewrite m_kc_run. mgo. cbn [flip_kc kc_low]. now rewrite n_below. Qed.
Lemma m_dc_run : forall h l w fl, donchian_run (N l) (N h) w fl = rmap (fun p => (N (snd p), N (fst p))) (donchian_run h l w fl).
Proof. intros. unfold donchian_run. splitroll. Qed.
Lemma n_offset : forall o s, donchian_offset o (N s) = N (donchian_offset o s).
Proof. intros. unfold donchian_offset. destruct (negb _); auto. apply n_shift. Qed.
Lemma m_dc_h : forall h l c w o fl, donchian_channel_hband (N l) (N h) (N c) w o fl = rmap (map fopp) (donchian_channel_lband h l c w o fl).
Proof. intros. unfold donchian_channel_hband, donchian_channel_lband. rewrite m_dc_run. mgo. destruct x. cbn [fst snd rmap bind]. now rewrite ?n_check_back, n_offset. Qed.
Lemma m_dc_l : forall h l c w o fl, donchian_channel_lband (N l) (N h) (N c) w o fl = rmap (map fopp) (donchian_channel_hband h l c w o fl).
Proof. intros. unfold donchian_channel_hband, donchian_channel_lband. rewrite m_dc_run. mgo. destruct x. cbn [fst snd rmap bind]. now rewrite ?n_check_back, n_offset. Qed.

(** ** positions in a range *)
Notation finite_col s := (Forall (fun x => fisinf x = false) s).
Definition comp (k : R) (x : xr) : xr := act (Sh k) (fopp x).
Lemma obs_in : forall (s : list xr) x, In x (obs s) -> In x s. Proof. intros s x H. now apply filter_In in H. Qed.
Lemma window_in : forall w i (s : list xr) x, In x (window_at w i s) -> In x s.
Proof.
  intros w i s x H. unfold window_at in H. rewrite <- (firstn_skipn (S i) s). apply in_or_app. left.
  rewrite <- (firstn_skipn (S i - w) (firstn (S i) s)). apply in_or_app. now right.
Qed.
Lemma pick_in : forall f : xr -> xr -> xr, (forall x y, f x y = x \/ f x y = y) -> forall s x, In (fold_left f s x) (x :: s).
Proof.
  intros f H. induction s; intros x; cbn [fold_left]; [now left|].
  destruct (IHs (f x a)) as [E|E]; [|right; now right]. rewrite <- E. destruct (H x a) as [-> | ->]; [now left|right; now left].
Qed.
Lemma nanmax_noinf : forall s : list xr, finite_col s -> fisinf (nanmax s) = false.
Proof.
  intros s H. rewrite Forall_forall in H. unfold nanmax. destruct (obs s) as [|x o] eqn:E; auto. apply H, obs_in. rewrite E. apply pick_in.
  intros. unfold fmax2. destruct (fltb _ _); auto.
Qed.
Lemma nanmin_noinf : forall s : list xr, finite_col s -> fisinf (nanmin s) = false.
Proof.
  intros s H. rewrite Forall_forall in H. unfold nanmin. destruct (obs s) as [|x o] eqn:E; auto. apply H, obs_in. rewrite E. apply pick_in.
  intros. unfold fmin2. destruct (fltb _ _); auto.
Qed.
Lemma rolling_noinf : forall agg, (forall k win, finite_col win -> fisinf (win_agg agg k win) = false) ->
  forall w mp (s r : list xr), rolling w mp agg s = Ok r -> finite_col r.
Proof.
  intros agg H w mp s r. rewrite rolling_xr. destruct (_ || _)%bool; [discriminate|]. intros E. injection E as <-.
  rewrite Forall_forall. intros x I. apply in_map_iff in I. destruct I as (i & <- & _). apply H. rewrite Forall_forall. intros x I.
  apply window_in in I. revert x I. rewrite <- Forall_forall. apply prep_no_inf.
Qed.
Lemma rolling_max_noinf : forall w mp (s r : list xr), rolling w mp agg_max s = Ok r -> finite_col r.
Proof. apply rolling_noinf. intros. unfold win_agg, agg_apply, agg_max, agg_min, win_max. destruct (_ <? k)%nat; auto. now apply nanmax_noinf. Qed.
Lemma rolling_min_noinf : forall w mp (s r : list xr), rolling w mp agg_min s = Ok r -> finite_col r.
Proof. apply rolling_noinf. intros. unfold win_agg, agg_apply, agg_max, agg_min, win_min. destruct (_ <? k)%nat; auto. now apply nanmin_noinf. Qed.
Lemma fsum_noinf : forall s : list xr, finite_col s -> fisinf (fsum s) = false.
Proof.
  intros s H. rewrite fsum_left. assert (A : fisinf (fofZ 0 : xr) = false) by reflexivity. revert A. generalize (fofZ 0 : xr).
  induction H as [|x s X H IH]; intros a A; cbn [fold_left]; auto. apply IH. destruct a, x; try discriminate; reflexivity.
Qed.
Lemma rolling_mean_noinf : forall w mp (s r : list xr), rolling w mp agg_mean s = Ok r -> finite_col r.
Proof.
  apply rolling_noinf. intros k win H. unfold win_agg, agg_apply, agg_max, agg_min, win_mean. destruct (_ || _)%bool eqn:E; auto.
  apply Bool.orb_false_iff in E. destruct E as [_ E]. apply Nat.eqb_neq in E.
  assert (I : fisinf (fsum (obs win)) = false).
  { apply fsum_noinf. rewrite Forall_forall in *. intros x X. apply H. now apply obs_in. }
  rewrite fofnat_fin. destruct (fsum (obs win)); try discriminate; auto. cbn. destruct (Req_EM_T _ _) as [Z|]; auto.
  apply (INR_eq _ 0) in Z. congruence.
Qed.
Lemma comp_xinf : forall k z, act (Sh k) (fopp (xinf z)) = fopp (xinf z).
Proof. intros k z. unfold xinf. destruct (z =? 0)%Z; auto. now destruct (0 <? z)%Z. Qed.
Lemma div_nan : forall x, xdiv x NaN = NaN. Proof. now intros [| | |x]. Qed.
Lemma comp_at : forall a (x u d : xr), fisinf u = false -> fisinf d = false ->
  fdiv (fmul (Fin a) (fsub (fopp x) (fopp u))) (fsub (fopp d) (fopp u)) = comp a (fdiv (fmul (Fin a) (fsub x d)) (fsub u d)).
Proof.
  intros a x u d U D. rewrite n_sub, (n_sub_swap d u). unfold comp.
  destruct u as [| | |u], d as [| | |d]; try discriminate; [now destruct x| | |].
  - destruct x; cbn -[xdiv]; now rewrite !div_nan.
  - destruct x; cbn -[xdiv]; now rewrite !div_nan.
  - destruct x as [| | |x]; [reflexivity| | |].
    + cbn. destruct (rsign a) as [|p|p]; cbn; auto; destruct (Rlt_dec (u + - d) 0); reflexivity.
    + cbn. destruct (rsign a) as [|p|p]; cbn; auto; destruct (Rlt_dec (u + - d) 0); reflexivity.
    + cbn. destruct (Req_EM_T (u + - d) 0) as [E|E]; cbn.
      * replace (- (a * (x + - d))) with (a * - (x + - d)) by lra.
        replace (a * - (x + - u)) with (- (a * (x + - d))) by nra. rewrite n_sign, n_xinf. symmetry. apply comp_xinf.
      * f_equal. field. lra.
Qed.
Lemma comp_col : forall a x u d, finite_col u -> finite_col d ->
  sdiv (scal (Fin a) (ssub (N x) (N u))) (ssub (N d) (N u)) = map (comp a) (sdiv (scal (Fin a) (ssub x d)) (ssub u d)).
Proof.
  intros a x u d U. revert x d. unfold sdiv, scal, ssub. induction U as [|y u Y U IH]; intros x d D.
  - now destruct x, d.
  - destruct D as [|z d Z D]; [destruct x; cbn; auto|]. destruct x as [|x0 x]; auto. cbn [map map2]. rewrite IH by auto. f_equal. now apply comp_at.
Qed.
Lemma m_stoch_run : forall h l c w fl, stoch_run (N l) (N h) (N c) w fl = rmap (map (comp 100)) (stoch_run h l c w fl).
Proof.
  intros. unfold stoch_run. splitroll. f_equal. change (fofZ 100) with (Fin 100). rewrite <- comp_col.
  - rewrite !n_ssub. mgo.
  - eapply rolling_max_noinf; eauto.
  - eapply rolling_min_noinf; eauto.
Qed.
Lemma comp_map : forall k s, map (comp k) s = map (act (Sh k)) (N s). Proof. intros. rewrite map_map. reflexivity. Qed.
Lemma comp_mean : forall k w mp s, rolling w mp agg_mean (map (comp k) s) = rmap (map (comp k)) (rolling w mp agg_mean s).
Proof. intros. rewrite comp_map, t_rolling_mean, n_rolling_mean. destruct (rolling _ _ _ _); auto. cbn [rmap]. now rewrite comp_map. Qed.
Lemma comp_ema : forall k s w fl, ema_ (map (comp k) s) w fl = rmap (map (comp k)) (ema_ s w fl).
Proof. intros. rewrite comp_map, t_ema, n_ema. destruct (ema_ _ _ _); auto. cbn [rmap]. now rewrite comp_map. Qed.
Lemma comp_check : forall k z fl s, (z =? -1)%Z = false -> comp k (fofZ z) = fofZ z ->
  check_fillna fl (FillInt z) (map (comp k) s) = map (comp k) (check_fillna fl (FillInt z) s).
Proof.
  intros k z fl s M Z. unfold check_fillna. destruct fl; auto. rewrite M, !comp_map, t_replace_inf, n_replace_inf, t_ffill, n_ffill, <- !comp_map.
  unfold fillna_const. rewrite !map_map. apply map_ext. intros x. unfold comp at 1. rewrite act_isnan, n_isnan. now destruct (fisnan x).
Qed.
Lemma m_stoch : forall h l c w s fl, stoch (N l) (N h) (N c) w s fl = rmap (map (comp 100)) (stoch h l c w s fl).
Proof.
  intros. unfold stoch. rewrite m_stoch_run. destruct (stoch_run _ _ _ _ _); auto. cbn [rmap]. rewrite comp_check; auto. unfold comp. cbn. f_equal. lra.
Qed.
Lemma m_stoch_signal : forall h l c w s fl, stoch_signal (N l) (N h) (N c) w s fl = rmap (map (comp 100)) (stoch_signal h l c w s fl).
Proof.
  intros. unfold stoch_signal. rewrite m_stoch_run. destruct (stoch_run _ _ _ _ _); auto. cbn [rmap bind]. rewrite comp_mean. destruct (rolling _ _ _ _); auto.
  cbn [rmap]. rewrite comp_check; auto. unfold comp. cbn. f_equal. lra.
Qed.
Lemma n_n : forall s, N (N s) = s. Proof. intros. rewrite map_map. erewrite map_ext; [apply map_id|]. apply n_inv. Qed.
Lemma n_noinf : forall s, finite_col s -> finite_col (N s).
Proof. intros s H. apply Forall_map. eapply Forall_impl; [|apply H]. intros. now rewrite n_isinf. Qed.
Lemma m_williams : forall h l c n fl, williams_r (N l) (N h) (N c) n fl = rmap (map (comp (-100))) (williams_r h l c n fl).
Proof.
  intros. unfold williams_r. splitroll. f_equal. rewrite <- comp_check; [|auto|unfold comp; cbn; f_equal; lra]. f_equal. change (fofZ (-100)) with (Fin (-100)).
  assert (U : finite_col (N a)) by (apply n_noinf; eapply rolling_min_noinf; eauto).
  assert (D : finite_col (N a0)) by (apply n_noinf; eapply rolling_max_noinf; eauto).
  pose proof (comp_col (-100) (N c) (N a) (N a0) U D) as E. rewrite !n_n, (n_ssub c a0), (n_ssub a a0), !n_ssub_swap in E.
  rewrite <- E, n_ssub_swap, <- n_sdiv_l, <- n_scal. now rewrite n_ssub_swap.
Qed.
Lemma m_stc_stoch : forall x n, stc_stoch (N x) n = rmap (map (comp 100)) (stc_stoch x n).
Proof.
  intros. unfold stc_stoch. splitroll. f_equal. change (fofZ 100) with (Fin 100). rewrite <- comp_col.
  - rewrite !n_ssub. mgo.
  - eapply rolling_max_noinf; eauto.
  - eapply rolling_min_noinf; eauto.
Qed.
Lemma sh_stc_stoch : forall k x n, stc_stoch (map (act (Sh k)) x) n = stc_stoch x n.
Proof.
  intros. unfold stc_stoch. rewrite t_rolling_min, t_rolling_max. destruct (rolling n n agg_min x); auto. cbn [rmap bind].
  destruct (rolling n n agg_max x); auto. cbn [rmap bind]. unfold ssub. now rewrite !(map2_same fsub fsub) by (intros; apply sh_sub).
Qed.
Lemma m_stc : forall c ws wf cy s1 s2, stc (N c) ws wf cy s1 s2 false = rmap (map (comp 100)) (stc c ws wf cy s1 s2 false).
Proof.
  intros. unfold stc. rewrite !n_ema. destruct (ema_ c wf false); auto. cbn [rmap bind]. destruct (ema_ c ws false); auto. cbn [rmap bind].
  rewrite n_ssub, m_stc_stoch. destruct (stc_stoch _ cy); auto. cbn [rmap bind]. rewrite comp_ema. destruct (ema_ _ s1 false); auto. cbn [rmap bind].
  rewrite comp_map, sh_stc_stoch, m_stc_stoch. destruct (stc_stoch _ cy); auto. cbn [rmap bind]. rewrite comp_ema. now destruct (ema_ _ s2 false).
Qed.
Lemma mul_one : forall x : xr, fmul (Fin 1) x = x.
Proof.
  intros [| | |x]; cbn; auto; [| |f_equal; lra]; replace (rsign 1) with 1%Z; auto; unfold rsign; destruct (Rlt_dec 0 1); auto; lra.
Qed.
Lemma scal_one : forall s, scal (Fin 1) s = s.
Proof. intros. unfold scal. erewrite map_ext; [apply map_id|]. intros. apply mul_one. Qed.
Lemma comp_shift : forall k n s, shift n (map (comp k) s) = map (comp k) (shift n s).
Proof. intros. now rewrite !comp_map, t_shift, n_shift. Qed.
Lemma m_dc_p : forall h l c w o, donchian_channel_pband (N l) (N h) (N c) w o false = rmap (map (comp 1)) (donchian_channel_pband h l c w o false).
Proof.
  intros. unfold donchian_channel_pband, donchian_run. splitroll. f_equal. cbn [check_fillna].
  assert (E : sdiv (ssub (N c) (N a0)) (ssub (N a) (N a0)) = map (comp 1) (sdiv (ssub c a) (ssub a0 a))).
  { rewrite <- (scal_one (ssub (N c) _)), <- (scal_one (ssub c _)). apply comp_col; [eapply rolling_max_noinf | eapply rolling_min_noinf]; eauto. }
  rewrite !n_ssub in E. unfold donchian_offset. destruct (negb _); mgo; rewrite <- ?comp_shift, <- E; mgo.
Qed.
Lemma n_middle : forall a b, finite_col a -> finite_col b -> sadd (divs (ssub b a) (fofZ 2)) a = sadd (divs (ssub a b) (fofZ 2)) b.
Proof.
  intros a b H. revert b. unfold sadd, divs, ssub. induction H as [|x a X H IH]; intros b B; [now destruct B|]. destruct B as [|y b Y B]; auto.
  cbn [map map2]. rewrite IH by auto. f_equal. destruct x as [| | |x], y as [| | |y]; try discriminate; cbn; auto; destruct (Req_EM_T 2 0) as [E|E]; try lra.
  cbn. f_equal. lra.
Qed.
Lemma m_dc_m : forall h l c w o fl, donchian_channel_mband (N l) (N h) (N c) w o fl = rmap (map fopp) (donchian_channel_mband h l c w o fl).
Proof.
  intros. unfold donchian_channel_mband, donchian_run. splitroll. f_equal. rewrite n_offset, (n_middle a0 a); auto; [eapply rolling_max_noinf | eapply rolling_min_noinf]; eauto.
Qed.
Lemma comp_band : forall (z m x : xr), fisinf m = false ->
  fdiv (fsub (fopp z) (fopp (fadd m x))) (fsub (fopp (fsub m x)) (fopp (fadd m x))) = comp 1 (fdiv (fsub z (fsub m x)) (fsub (fadd m x) (fsub m x))).
Proof.
  intros z m x M. destruct (fisinf x) eqn:X.
  - destruct x, m; try discriminate; now destruct z.
  - rewrite <- (mul_one (fsub (fopp z) _)), <- (mul_one (fsub z _)). apply comp_at; destruct x, m; try discriminate; auto.
Qed.
Lemma m_bb_p : forall c w d, bollinger_pband (N c) w d false = rmap (map (comp 1)) (bollinger_pband c w d false).
Proof.
  intros. unfold bollinger_pband, bollinger_run. rewrite n_rolling_mean, n_rolling_std. destruct (rolling w _ agg_mean c) as [m|] eqn:E; auto. cbn [rmap bind].
  destruct (rolling w _ agg_std0 c) as [s|]; auto. cbn [bind rmap bb_hband bb_lband check_fillna]. f_equal. apply rolling_mean_noinf in E.
  generalize (scal d s). clear d s. intros s. rewrite n_sadd_ssub, (n_ssub_sadd m s). unfold sdiv, ssub, sadd. revert c s.
  induction E as [|x m X E IH]; intros c s; [now destruct c|]. destruct s as [|y s]; [now destruct c|]. destruct c as [|z c]; auto. cbn [map map2]. rewrite IH. f_equal.
  rewrite n_eqb, eqb_sym. destruct (feqb _ _); cbn [negb]. 2: now apply comp_band.
  change (@fnan xr XR) with NaN. cbn [fdiv XR]. now rewrite !div_nan.
Qed.
Lemma noinf_ewm_go : forall al, 0 < al <= 1 -> forall mp s n avg o, 0 <= o -> fisinf avg = false -> finite_col s ->
  finite_col (ewm_go (Fin al) mp n avg (Fin o) s).
Proof.
  intros al A mp s. induction s as [|x s IH]; intros n avg o O V H; [constructor|]. inversion H as [|? ? X H']; subst. clear H.
  assert (Q : 0 <= o * (1 + - al)) by nra.
  assert (B : fisinf (if feqb avg x then avg else fdiv (fadd (fmul (fmul (Fin o) (fsub (fofZ 1) (Fin al))) avg) (fmul (Fin al) x)) (fadd (fmul (Fin o) (fsub (fofZ 1) (Fin al))) (Fin al)) : xr) = false).
  { destruct (feqb avg x); auto. destruct avg as [| | |v], x as [| | |x]; try discriminate; auto. cbn. destruct (Req_EM_T _ _); auto. lra. }
  cbn [ewm_go]. destruct (fisnan avg) eqn:NV, (fisnan x) eqn:NX; cbn [negb]; cbv zeta iota; constructor;
    try (destruct (_ <=? _)%nat; auto; fail); try (apply IH; auto; fail).
  all: try exact (IH _ _ _ Q V H').
  all: try (destruct (_ <=? _)%nat; auto; fail).
  all: exact (IH _ _ _ Rle_0_1 B H').
Qed.
Lemma noinf_ewm_span : forall w mp s r, ewm_span w mp s = Ok r -> finite_col r.
Proof.
  intros w mp s r. unfold ewm_span. destruct (w <? 1)%Z eqn:W; [discriminate|]. intros E.
  match type of E with Ok ?x = _ => assert (r = x) by congruence; subst r; clear E end. apply Z.ltb_ge in W.
  assert (E : exists al, 0 < al <= 1 /\ fdiv (fofZ 1) (fadd (fofZ 1) (fdiv (fsub (fofZ w) (fofZ 1)) (fofZ 2))) = Fin al).
  { assert (1 <= IZR w) by (apply IZR_le; lia). exists (1 / (1 + (IZR w + - 1) / 2)). split.
    - split; [apply Rdiv_lt_0_compat; lra|]. apply Rmult_le_reg_r with (1 + (IZR w + - 1) / 2); [lra|]. unfold Rdiv at 1. rewrite Rmult_assoc, Rinv_l by lra. lra.
    - cbn. destruct (Req_EM_T 2 0); [lra|]. cbn. destruct (Req_EM_T _ 0); [lra|]. reflexivity. }
  destruct E as (al & A & E). unfold ewm_com. rewrite E. apply noinf_ewm_go; auto; [lra|apply prep_no_inf].
Qed.
Lemma comp_band_col : forall c m s, finite_col m ->
  sdiv (ssub (N c) (N (sadd m s))) (ssub (N (ssub m s)) (N (sadd m s))) = map (comp 1) (sdiv (ssub c (ssub m s)) (ssub (sadd m s) (ssub m s))).
Proof.
  intros c m s H. revert c s. unfold sdiv, ssub, sadd.
  induction H as [|x m X H IH]; intros c s; [now destruct c|]. destruct s as [|y s]; [now destruct c|]. destruct c as [|z c]; auto.
  cbn [map map2]. rewrite IH. f_equal. now apply comp_band.
Qed.
Lemma m_kc_p : forall h l c w a o m, keltner_channel_pband (N l) (N h) (N c) w a false o m = rmap (map (comp 1)) (keltner_channel_pband h l c w a false o m).
Proof.
  intros. unfold keltner_channel_pband. rewrite m_kc_run. unfold keltner_run. destruct o.
  - destruct (rolling w w _ _); auto. cbn [bind]. destruct (rolling w 0 agg_mean (divs (sadd (ssub _ _) _) _)) eqn:H; auto. cbn [bind].
    destruct (rolling w 0 agg_mean (divs (sadd (sadd _ _) _) _)) eqn:L; auto. cbn [bind rmap flip_kc kc_tp kc_high kc_low check_fillna]. f_equal.
    rewrite <- (scal_one (ssub (N c) _)), <- (scal_one (ssub c _)). apply comp_col; eapply rolling_mean_noinf; eauto.
  - destruct (ewm_span w w c) eqn:E; auto. cbn [bind]. destruct (average_true_range _ _ _ _ _); auto. cbn [bind rmap flip_kc kc_tp kc_high kc_low check_fillna]. f_equal.
    apply comp_band_col. eapply noinf_ewm_span; eauto.
Qed.
Lemma n_tp : forall h l c, divs (sadd (sadd (N l) (N h)) (N c)) (fofZ 3) = N (divs (sadd (sadd h l) c) (fofZ 3)).
Proof. intros. rewrite (sadd_comm h l). mgo. Qed.
Lemma m_vwap : forall h l c v w fl, volume_weighted_average_price (N l) (N h) (N c) v w fl = rmap (map fopp) (volume_weighted_average_price h l c v w fl).
Proof. intros. unfold volume_weighted_average_price. rewrite n_tp. mgo. Qed.
Lemma m_flow : forall s v, let dir t p : xr := if fltb p t then fofZ 1 else if fltb t p then fofZ (-1) else fofZ 0 in
  smul (smul (N s) v) (map2 dir (N s) (shift 1 (N s))) = smul (smul s v) (map2 dir s (shift 1 s)).
Proof.
  intros s v dir. rewrite n_shift, n_smul_l. generalize (shift 1 s) as p.
  unfold smul. revert v. induction s as [|x s IH]; intros [|y v] [|q p]; cbn [map map2]; auto. f_equal; [|apply IH].
  assert (D : dir (fopp x) (fopp q) = fopp (dir x q)).
  { unfold dir. rewrite !n_ltb. destruct x as [| | |x], q as [| | |q]; cbn; repeat destruct (Rlt_dec _ _); try lra; cbn [xopp]; try (f_equal; lra). }
  now rewrite D, n_mul_l, n_mul_r, n_inv.
Qed.
Lemma m_mfi : forall h l c v w fl, money_flow_index (N l) (N h) (N c) v w fl = money_flow_index h l c v w fl.
Proof. intros. unfold money_flow_index. rewrite n_tp. pose proof m_flow as M. cbv zeta in M. now rewrite M. Qed.
End Signed.

Lemma seen_same : forall s, map (seen Same) s = s.
Proof. intros. erewrite map_ext; [apply map_id|]. reflexivity. Qed.
Lemma seen_opposite : forall s, map (seen Opposite) s = N s.
Proof. intros. apply map_ext. intros x. symmetry. apply opp_opposite. Qed.
Lemma seen_comp : forall k s, map (seen (Complement k)) s = map (comp k) s.
Proof. intros. apply map_ext. intros [| | |x]; cbn; auto. f_equal. lra. Qed.
Lemma rmap_same : forall m : result (list xr), rmap (map (seen Same)) m = m.
Proof. intros [s|]; cbn [rmap]; auto. now rewrite seen_same. Qed.
Lemma rmap_seen : forall im f (m : result (list xr)), (forall s, map (seen im) s = map f s) -> rmap (map (seen im)) m = rmap (map f) m.
Proof. intros im f [s|] H; cbn [rmap]; auto. now rewrite H. Qed.

Theorem mirror_image : forall ind fl rows ind' im, mirrors ind fl = Some (ind', im) ->
  compute ind fl (mirrored rows) = rmap (map (seen im)) (compute ind' fl rows).
Proof.
  intros ind fl rows ind' im H.
  assert (Hh : map b_high (mirrored rows) = N (map b_low rows)). { unfold mirrored. rewrite !map_map. apply map_ext. intros b. symmetry. apply opp_opposite. }
  assert (Hl : map b_low (mirrored rows) = N (map b_high rows)). { unfold mirrored. rewrite !map_map. apply map_ext. intros b. symmetry. apply opp_opposite. }
  assert (Hc : map b_close (mirrored rows) = N (map b_close rows)). { unfold mirrored. rewrite !map_map. apply map_ext. intros b. symmetry. apply opp_opposite. }
  assert (Hv : map b_volume (mirrored rows) = map b_volume rows). { unfold mirrored. now rewrite map_map. }
  unfold compute. rewrite Hh, Hl, Hc, Hv. clear Hh Hl Hc Hv.
  destruct ind; try discriminate H; unfold mirrors in H; cbn [mirror] in H;
    try (destruct fl; [discriminate H|]; cbn [mirror] in H); injection H as <- <-; cbv beta zeta iota;
    rewrite ?rmap_same, ?(rmap_seen Opposite fopp) by apply seen_opposite; rewrite ?(rmap_seen (Complement _) _ _ (seen_comp _)).
  all: first [ reflexivity | apply m_tsi | apply m_ao | apply m_macd | apply m_macd_signal | apply m_macd_diff | apply m_wma | apply m_mass | apply m_dpo | apply m_cci
    | apply m_ichi_conv | apply m_ichi_base | apply m_ichi_a | apply m_ichi_b | apply m_adi | apply m_cmf | apply m_fi | apply m_eom | apply m_sma_eom | apply m_kama
    | apply m_aroon_up | apply m_aroon_down | apply m_aroon_ind | apply m_vortex_pos | apply m_vortex_neg | apply m_vortex_diff | apply m_adx | apply m_adx_pos | apply m_adx_neg
    | apply m_atr | apply m_bb_m | apply m_bb_h | apply m_bb_l | apply m_bb_hi | apply m_bb_li | apply m_bb_p | apply m_kc_m | apply m_kc_h | apply m_kc_l | apply m_kc_hi | apply m_kc_li
    | apply m_kc_p | apply m_dc_h | apply m_dc_l | apply m_dc_m | apply m_dc_p | apply m_stoch | apply m_stoch_signal | apply m_williams | apply m_stc | apply m_vwap | apply m_mfi | apply n_ema | apply n_sma ].
Qed.
