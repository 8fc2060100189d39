(** * Units: the scaling and translation theorems (C60, C61). *)
From Verif Require Import Lists Api SpecNum Tab Averages Rows Running Scale ScaleOps Scaling ScalingMore SpecScale.
Local Open Scope R_scope.

(** ** WMA moves along with the prices *)
Lemma nth_as_tab : forall rs : list R, map Fin rs = map (fun j => Fin (nth j rs 0)) (seq 0 (length rs)).
Proof.
  intros. rewrite <- (map_map (fun j => nth j rs 0) Fin). f_equal.
  apply list_eq_nth with 0; [now rewrite map_length, seq_length|]. intros i Hi. now rewrite nth_map_seq by lia.
Qed.
Lemma rsum_S : forall w, rsum (fun j => INR (S j)) 0 w = INR w * (INR w + 1) / 2.
Proof. induction w; [cbn; lra|]. cbn [rsum]. rewrite IHw. change (0 + w)%nat with w. rewrite S_INR. lra. Qed.
Lemma wma_window_sh : forall a (w : nat) rs, (1 <= w)%nat -> length rs = w ->
  ssum (map2 fmul (wma_weights (Z.of_nat w)) (map Fin rs ^^ Sh a))
  = act (Sh a) (ssum (map2 fmul (wma_weights (Z.of_nat w)) (map Fin rs))).
Proof.
  intros a w rs Hw L. rewrite nth_as_tab, map_map, L. unfold wma_weights. rewrite Nat2Z.id.
  change (fun x => act (Sh a) (Fin (nth x rs 0))) with (fun x => Fin (nth x rs 0 + a)).
  rewrite (wma_sum w (fun j => nth j rs 0 + a) 0 w), (wma_sum w (fun j => nth j rs 0) 0 w) by auto.
  rewrite !ssum_obs, !obs_tab, !fsum_tab. cbn [act]. f_equal. assert (1 <= INR w) by (apply (le_INR 1); lia).
  rewrite (rsum_ext _ (fun j => INR (S (j - 0)) * nth j rs 0 * 2 / (INR w * (INR w + 1)) + (2 * a / (INR w * (INR w + 1))) * INR (S j))).
  2:{ intros j Hj. replace (j - 0)%nat with j by lia. field. nra. }
  rewrite rsum_plus, rsum_scal, rsum_S. f_equal. field. nra.
Qed.
Lemma fins : forall s : list xr, obs s = s -> Forall (fun x => fisinf x = false) s -> exists rs, s = map Fin rs.
Proof.
  induction s as [|x s]; intros O I; [now exists []|]. apply Forall_cons_iff in I. destruct I as [I Is].
  unfold obs in O. cbn [filter] in O. destruct x as [| | |x]; cbn [fisnan XR xisnan negb] in O; try discriminate.
  - exfalso. pose proof (length_obs s) as H. unfold obs in H. cbn [fisnan XR] in H. rewrite O in H. cbn in H. lia.
  - injection O as O. destruct (IHs O Is) as [rs ->]. now exists (x :: rs).
Qed.
Lemma obs_full : forall s : list xr, (length s <= length (obs s))%nat -> obs s = s.
Proof.
  unfold obs. induction s as [|x s]; intros L; auto. cbn [filter] in *. destruct (negb (fisnan x)).
  - f_equal. apply IHs. cbn [length] in L. lia.
  - pose proof (length_obs s) as H. unfold obs in H. cbn [length] in L. lia.
Qed.
Lemma u_wma_sh : forall a c w, (w <> 0)%Z -> wma (c ^^ Sh a) w false = rmap (map (act (Sh a))) (wma c w false).
Proof.
  intros a c w Hw. unfold wma. rewrite !rolling_xr. destruct ((_ <? 0)%Z || _ || _)%bool eqn:G; auto.
  apply Bool.orb_false_iff in G. destruct G as [G Gw]. apply Z.ltb_ge in Gw.
  cbn [bind rmap check_fillna]. f_equal. rewrite t_length, map_map. apply map_ext_in. intros i Hi. apply in_seq in Hi.
  rewrite t_prep. replace (window_at (Z.to_nat w) i (prep c ^^ Sh a)) with (window_at (Z.to_nat w) i (prep c) ^^ Sh a).
  2:{ unfold window_at. now rewrite t_firstn, t_skipn. }
  set (win := window_at (Z.to_nat w) i (prep c)). unfold win_agg, agg_apply, agg_max, agg_min, win_apply. rewrite t_obs, t_length.
  destruct (Nat.leb_spec (Z.to_nat w) (length (obs win))) as [Q|Q]; [|reflexivity].
  assert (Lw : (length win <= Z.to_nat w)%nat).
  { subst win. rewrite length_window_at by (unfold prep; rewrite map_length; lia). lia. }
  assert (O : obs win = win) by (apply obs_full; lia).
  assert (I : Forall (fun x => fisinf x = false) win).
  { apply Forall_forall. intros x Hx. pose proof (prep_no_inf c) as P. rewrite Forall_forall in P. apply P.
    subst win. unfold window_at in Hx.
    assert (In x (firstn (S i) (prep c))) by (rewrite <- (firstn_skipn (S i - Z.to_nat w)); apply in_or_app; now right).
    rewrite <- (firstn_skipn (S i) (prep c)). apply in_or_app. now left. }
  destruct (fins win O I) as [rs E]. rewrite E. rewrite <- (Z2Nat.id w) at 1 2 by lia. apply wma_window_sh; [lia|].
  rewrite O in Q. rewrite E, map_length in Q, Lw. lia.
Qed.

(** ** the frame with transformed prices and volumes *)
Definition trows (t : trans) (q : pos) (rows : list (bar xr)) : list (bar xr) :=
  map (fun b => mkbar (b_label b) (act t (b_high b)) (act t (b_low b)) (act t (b_close b)) (act (Sc q) (b_volume b))) rows.
Lemma tr_high : forall t q rows, map b_high (trows t q rows) = map b_high rows ^^ t.
Proof. intros. unfold trows. now rewrite !map_map. Qed.
Lemma tr_low : forall t q rows, map b_low (trows t q rows) = map b_low rows ^^ t.
Proof. intros. unfold trows. now rewrite !map_map. Qed.
Lemma tr_close : forall t q rows, map b_close (trows t q rows) = map b_close rows ^^ t.
Proof. intros. unfold trows. now rewrite !map_map. Qed.
Lemma tr_volume : forall t q rows, map b_volume (trows t q rows) = map b_volume rows ^^ Sc q.
Proof. intros. unfold trows. now rewrite !map_map. Qed.
Lemma tr_label : forall t q rows, map b_label (trows t q rows) = map b_label rows.
Proof. intros. unfold trows. now rewrite !map_map. Qed.
Lemma rmap_one : forall m : result (list xr), rmap (map (act (Sc one))) m = m.
Proof. intros [s|]; cbn [rmap]; auto. now rewrite map_one. Qed.

Ltac cols := cbn [compute]; rewrite ?tr_high, ?tr_low, ?tr_close, ?tr_volume, ?tr_label.
Lemma times_act : forall k (p : pos) m, pv p = k -> rmap (map (times k)) m = rmap (map (act (Sc p))) m.
Proof. intros k p [s|] <-; auto. Qed.
Lemma rmap_unit : forall (k : pos) m, pv k = 1 -> rmap (map (act (Sc k))) m = m.
Proof. intros k m H. rewrite <- (times_act 1 k) by auto. rewrite (times_act 1 one) by reflexivity. apply rmap_one. Qed.
Lemma times_one : forall m, rmap (map (times 1)) m = m.
Proof. intros. rewrite (times_act 1 one) by reflexivity. apply rmap_one. Qed.

#[global] Hint Rewrite u_rsi u_tsi u_uo u_stoch u_stoch_signal u_kama u_roc u_ao u_wr u_macd u_macd_signal u_macd_diff
  u_wma_sc u_trix u_mass u_ichi_conv u_ichi_base u_ichi_a u_ichi_b u_dpo u_cci u_adx u_adx_pos u_adx_neg
  u_psar u_psar_up u_psar_down u_psar_up_ind u_psar_down_ind u_stc u_atr u_bb_m u_bb_h u_bb_l u_bb_w u_bb_p u_bb_hi u_bb_li
  u_kc_m u_kc_h u_kc_l u_kc_w u_kc_p u_kc_hi_ind u_kc_li_ind u_dc_h u_dc_l u_dc_m u_dc_w u_dc_p u_ulcer
  u_adi u_obv u_cmf u_fi u_eom u_sma_eom u_vpt u_nvi u_mfi u_vwap u_daily u_dlr u_cum t_sma t_ema : inds.
Ltac unf := unfold stochrsi, stochrsi_k, stochrsi_d, ppo, ppo_signal, ppo_hist, pvo, pvo_signal, pvo_hist,
  aroon_up, aroon_down, aroon_indicator, kst, kst_sig, kst_diff, vortex_indicator_pos, vortex_indicator_neg, vortex_indicator_diff,
  ema_indicator, sma_indicator; rewrite ?u_stochrsi_run, ?u_ppo_run, ?u_pvo_run, ?u_aroon, ?u_kst_run, ?u_vortex_run.

Lemma scaling : forall p q, 0 < p -> 0 < q -> forall ind fl rows, log_is_ln ind ->
  compute ind fl (rescaled p q rows) = rmap (map (times (factor ind p q))) (compute ind fl rows).
Proof.
  intros p q Hp Hq ind fl rows L. set (P := mkpos p Hp). set (Q := mkpos q Hq).
  change (rescaled p q rows) with (trows (Sc P) Q rows).
  destruct ind; cbn [log_is_ln] in L; subst; cols; autorewrite with inds; unf; cbn [factor fac]; rewrite ?times_one; try reflexivity.
Qed.
Lemma translation : forall a ind fl rows,
  match follows ind fl with
  | Some true => compute ind fl (moved a rows) = rmap (map (plus a)) (compute ind fl rows)
  | Some false => compute ind fl (moved a rows) = compute ind fl rows
  | None => True
  end.
Proof.
  intros a ind fl rows. assert (E : moved a rows = trows (Sh a) one rows).
  { unfold moved, trows. apply map_ext. intros b. now rewrite act_one. }
  rewrite E. destruct ind; cbn [follows]; auto;
    try (cols; autorewrite with inds; unf; cbn [fac]; rewrite ?rmap_one; reflexivity).
  - destruct fl; cbn [orb]; auto. destruct (Z.eqb_spec window 0); auto. cols. now apply u_wma_sh.
  - cols. rewrite u_fi. cbn [fac]. apply rmap_unit. cbn. lra.
  - cols. rewrite u_eom. cbn [fac]. apply rmap_unit. cbn. lra.
  - cols. rewrite u_sma_eom. cbn [fac]. apply rmap_unit. cbn. lra.
Qed.
Lemma ppo_pvo_unit_free : forall p q, 0 < p -> 0 < q -> forall s f g fl rows,
  Forall (fun ind => compute ind fl (rescaled p q rows) = compute ind fl rows)
    [Ppo s f g; PpoSignal s f g; PpoHist s f g; Pvo s f g; PvoSignal s f g; PvoHist s f g].
Proof.
  intros p q Hp Hq s f g fl rows.
  repeat (constructor; [rewrite (scaling p q Hp Hq) by exact I; cbn [factor]; apply times_one|]). constructor.
Qed.
Lemma wma_fillna_stays : exists rows,
  compute (Wma 2) true (moved 1 rows) <> rmap (map (plus 1)) (compute (Wma 2) true rows).
Proof.
  exists (frame 1 (fun _ => 0) (fun _ => 0) (fun _ => 0) (fun _ => 0)).
  replace (moved 1 (frame 1 (fun _ => 0) (fun _ => 0) (fun _ => 0) (fun _ => 0))) with
    (frame 1 (fun _ => 0 + 1) (fun _ => 0 + 1) (fun _ => 0 + 1) (fun _ => 0)) by reflexivity.
  rewrite !(wma_formula true 2 1) by lia. cbn. intros H. injection H. lra.
Qed.
