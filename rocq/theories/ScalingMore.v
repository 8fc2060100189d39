(** * ScalingMore: PSAR, volatility, volume and returns under a change of units (C60, C61). *)
From Verif Require Import Lists Api Scale ScaleOps Scaling.
Local Open Scope R_scope.

Section Sar.
Variables (t : trans) (p : pos).
Variables (h l c : list xr).
Definition ps_moved (st : @psar_state xr) : psar_state :=
  {| ps_up_trend := ps_up_trend st; ps_af := ps_af st; ps_uth := act t (ps_uth st); ps_dtl := act t (ps_dtl st);
     ps_labels := ps_labels st; ps_psar := ps_psar st ^^ t; ps_up := ps_up st ^^ t; ps_down := ps_down st ^^ t |}.
Lemma u_setitem : forall ls i x s, setitem ls i (act t x) (s ^^ t) = (fst (setitem ls i x s), snd (setitem ls i x s) ^^ t).
Proof.
  intros [ls|] i x s; unfold setitem; cbn [fst snd].
  - destruct (existsb _ _); cbn [fst snd]; f_equal.
    + rewrite map_map2. rewrite <- (map_id ls) at 1. rewrite map2_map. apply map2_ext2. intros. now destruct (_ =? _)%Z.
    + now rewrite map_app.
  - now rewrite t_upd.
Qed.
Lemma u_nth : forall i s, nth i (s ^^ t) fnan = act t (nth i s fnan).
Proof. intros. apply t_nth. Qed.
Lemma u_psar_step : forall step mx st i, psar_step (h ^^ t) (l ^^ t) step mx (ps_moved st) i = ps_moved (psar_step h l step mx st i).
Proof.
  intros. destruct st as [up af uth dtl ls ps pu pd]. unfold psar_step, ps_moved.
  cbn [ps_up_trend ps_af ps_uth ps_dtl ps_labels ps_psar ps_up ps_down].
  rewrite !u_nth. destruct up.
  - rewrite !sub_t, !sc_mul_r, !add_t, !act_ltb.
    set (pv := fadd _ _).
    destruct (fltb (nth i l fnan) pv).
    + cbn. rewrite !t_upd, !u_nth, !t_upd. reflexivity.
    + destruct (fltb uth (nth i h fnan)); destruct (fltb (nth (i - 2) l fnan) pv); [|destruct (fltb (nth (i - 1) l fnan) pv)|
        |destruct (fltb (nth (i - 1) l fnan) pv)]; cbn -[act]; rewrite !t_upd, !u_nth, !t_upd; reflexivity.
  - rewrite !sub_t, !sc_mul_r, !sub_tD, !act_ltb.
    set (pv := fsub _ _).
    destruct (fltb pv (nth i h fnan)).
    + cbn -[act]. rewrite !t_upd, !u_nth, !t_upd. reflexivity.
    + rewrite !t_upd, u_setitem.
      destruct (fltb (nth i l fnan) dtl); destruct (fltb pv (nth (i - 2) h fnan)); [destruct (setitem _ _ _ _)|destruct (fltb pv (nth (i - 1) h fnan))|
        destruct (setitem _ _ _ _)|destruct (fltb pv (nth (i - 1) h fnan))]; cbn -[act];
        rewrite ?t_upd, ?u_nth, ?t_upd; reflexivity.
Qed.
Lemma u_psar_run : forall ls step mx, psar_run (h ^^ t) (l ^^ t) (c ^^ t) ls step mx = rmap ps_moved (psar_run h l c ls step mx).
Proof.
  intros. unfold psar_run. rewrite t_length.
  assert (E : psar_init (h ^^ t) (l ^^ t) (c ^^ t) ls step = ps_moved (psar_init h l c ls step)).
  { unfold psar_init, ps_moved; cbn [ps_up_trend ps_af ps_uth ps_dtl ps_labels ps_psar ps_up ps_down].
    now rewrite !u_nth, t_length, t_repeat. }
  rewrite E. generalize (psar_init h l c ls step). intros st.
  assert (G : forall js st, fold_left (psar_step (h ^^ t) (l ^^ t) step mx) js (ps_moved st) = ps_moved (fold_left (psar_step h l step mx) js st)).
  { induction js; intros; auto. cbn [fold_left]. now rewrite u_psar_step. }
  rewrite G. now destruct h.
Qed.
Lemma u_psar : forall ls a b fl, psar (h ^^ t) (l ^^ t) (c ^^ t) ls a b fl = rmap (map (act t)) (psar h l c ls a b fl).
Proof. intros. unfold psar. rewrite u_psar_run. destruct (psar_run h l c ls a b); cbn [rmap bind]; auto. now rewrite <- t_check_back. Qed.
Lemma u_psar_up : forall ls a b fl, psar_up (h ^^ t) (l ^^ t) (c ^^ t) ls a b fl = rmap (map (act t)) (psar_up h l c ls a b fl).
Proof. intros. unfold psar_up. rewrite u_psar_run. destruct (psar_run h l c ls a b); cbn [rmap bind]; auto. now rewrite <- t_check_back. Qed.
Lemma u_psar_down : forall ls a b fl, psar_down (h ^^ t) (l ^^ t) (c ^^ t) ls a b fl = rmap (map (act t)) (psar_down h l c ls a b fl).
Proof. intros. unfold psar_down. rewrite u_psar_run. destruct (psar_run h l c ls a b); cbn [rmap bind]; auto. now rewrite <- t_check_back. Qed.
End Sar.
Lemma u_psar_indicator : forall p u s, psar_indicator (u ^^ Sc p) (s ^^ Sc p) = psar_indicator u s.
Proof.
  intros. unfold psar_indicator. rewrite t_shift.
  replace (map2 (fun x p0 => (negb (fisnan x) && fisnan p0)%bool) (s ^^ Sc p) (shift 1 s ^^ Sc p))
    with (map2 (fun x p0 => (negb (fisnan x) && fisnan p0)%bool) s (shift 1 s)).
  2:{ rewrite map2_map. apply map2_ext2. intros. now rewrite !act_isnan. }
  rewrite !map_map2. rewrite <- (map_id (map2 _ s _)) at 1. rewrite map2_map. apply map2_ext2. intros b x.
  destruct b; auto. rewrite <- (sc_zero p) at 1. rewrite act_eqb. destruct (feqb x (fofZ 0)) eqn:E; auto.
  destruct x as [| | |x]; try discriminate. cbn in E. destruct (Req_EM_T x 0); [|discriminate]. subst. apply (sc_zero p).
Qed.
Lemma u_psar_up_ind : forall p h l c ls a b fl, psar_up_indicator (h ^^ Sc p) (l ^^ Sc p) (c ^^ Sc p) ls a b fl = psar_up_indicator h l c ls a b fl.
Proof. intros. unfold psar_up_indicator. rewrite u_psar_run. destruct (psar_run h l c ls a b); cbn [rmap bind]; auto. cbn [ps_moved ps_up]. now rewrite u_psar_indicator. Qed.
Lemma u_psar_down_ind : forall p h l c ls a b fl, psar_down_indicator (h ^^ Sc p) (l ^^ Sc p) (c ^^ Sc p) ls a b fl = psar_down_indicator h l c ls a b fl.
Proof. intros. unfold psar_down_indicator. rewrite u_psar_run. destruct (psar_run h l c ls a b); cbn [rmap bind]; auto. cbn [ps_moved ps_up ps_down]. now rewrite u_psar_indicator. Qed.

Section Bands.
Variables (t : trans) (p q : pos).
Variables (h l c v : list xr).
Lemma u_atr_go : forall k w s x, atr_go w (act (Sc k) x) (s ^^ Sc k) = atr_go w x s ^^ Sc k.
Proof. intros k w. induction s; intros; auto. cbn [map atr_go]. rewrite sc_mul_l, sc_add, sc_div_l, IHs. reflexivity. Qed.
Lemma u_atr_wrapped : forall k n w tr, atr_wrapped n w (tr ^^ Sc k) = atr_wrapped n w tr ^^ Sc k.
Proof.
  intros. unfold atr_wrapped.
  match goal with |- fold_left ?f' _ _ = map _ (fold_left ?f _ _) => assert (G : forall l a, fold_left f' l (a ^^ Sc k) = fold_left f l a ^^ Sc k) end.
  { induction l0; intros; cbn [fold_left]; auto. rewrite <- IHl0. f_equal.
    change (@fnan xr XR) with (act (Sc k) fnan). rewrite !map_nth, sc_mul_l, sc_add, sc_div_l, t_upd. reflexivity. }
  rewrite <- G. f_equal. rewrite <- t_upd, <- t_repeat', sc_zero, <- t_smean, <- t_firstn. reflexivity.
Qed.
Lemma u_atr : forall w fl, average_true_range (h ^^ t) (l ^^ t) (c ^^ t) w fl = rmap (map (act (D t))) (average_true_range h l c w fl).
Proof.
  intros. unfold average_true_range. destruct (w <=? 0)%Z.
  { nrm. destruct (_ <? _)%Z; auto. cbn [rmap]. now rewrite u_atr_wrapped, o_check0. }
  nrm. destruct (_ <? _)%nat; auto. cbn [rmap].
  rewrite t_firstn, t_smean, t_skipn, u_atr_go. f_equal. rewrite <- o_check0. f_equal. rewrite map_app. cbn [map].
  rewrite <- t_repeat', sc_zero. reflexivity.
Qed.
Definition bb_moved (st : @bb_state xr) : bb_state :=
  {| bb_mavg := bb_mavg st ^^ t; bb_hband := bb_hband st ^^ t; bb_lband := bb_lband st ^^ t |}.
Lemma u_bb_run : forall w d fl, bollinger_run (c ^^ t) w d fl = rmap bb_moved (bollinger_run c w d fl).
Proof. intros. unfold bollinger_run. go. rewrite o_saddD, o_ssubD. reflexivity. Qed.
Ltac bb := rewrite u_bb_run; match goal with |- context [rmap _ ?m] => destruct m end; cbn [rmap bind]; auto; unfold bb_moved; cbn [bb_mavg bb_hband bb_lband]; go.
Lemma u_bb_m : forall w d fl, bollinger_mavg (c ^^ t) w d fl = rmap (map (act t)) (bollinger_mavg c w d fl).
Proof. intros. unfold bollinger_mavg. bb. Qed.
Lemma u_bb_h : forall w d fl, bollinger_hband (c ^^ t) w d fl = rmap (map (act t)) (bollinger_hband c w d fl).
Proof. intros. unfold bollinger_hband. bb. Qed.
Lemma u_bb_l : forall w d fl, bollinger_lband (c ^^ t) w d fl = rmap (map (act t)) (bollinger_lband c w d fl).
Proof. intros. unfold bollinger_lband. bb. Qed.
Lemma u_if_lt : forall s u (x y : xr), map2 (fun a b => if fltb b a then x else y) (s ^^ t) (u ^^ t) = map2 (fun a b => if fltb b a then x else y) s u.
Proof. intros. apply map2_same. intros. now rewrite act_ltb. Qed.
Lemma u_if_gt : forall s u (x y : xr), map2 (fun a b => if fltb a b then x else y) (s ^^ t) (u ^^ t) = map2 (fun a b => if fltb a b then x else y) s u.
Proof. intros. apply map2_same. intros. now rewrite act_ltb. Qed.
Lemma u_bb_p : forall w d fl, bollinger_pband (c ^^ t) w d fl = bollinger_pband c w d fl.
Proof.
  intros. unfold bollinger_pband. bb.
  replace (map2 (fun h l => if negb (feqb h l) then fsub h l else fnan) (bb_hband a ^^ t) (bb_lband a ^^ t))
    with (map2 (fun h l => if negb (feqb h l) then fsub h l else fnan) (bb_hband a) (bb_lband a) ^^ D t).
  2:{ symmetry. apply map2_through. intros x y. rewrite act_eqb. destruct (feqb x y); cbn [negb]; auto. apply sub_t. }
  now rewrite o_sdiv.
Qed.
Lemma u_bb_hi : forall w d fl, bollinger_hband_indicator (c ^^ t) w d fl = bollinger_hband_indicator c w d fl.
Proof. intros. unfold bollinger_hband_indicator. bb. now rewrite u_if_lt. Qed.
Lemma u_bb_li : forall w d fl, bollinger_lband_indicator (c ^^ t) w d fl = bollinger_lband_indicator c w d fl.
Proof. intros. unfold bollinger_lband_indicator. bb. now rewrite u_if_gt. Qed.

Definition kc_moved (st : @kc_state xr) : kc_state :=
  {| kc_tp := kc_tp st ^^ t; kc_high := kc_high st ^^ t; kc_low := kc_low st ^^ t |}.
Lemma sh_scal : forall a x s, scal (Fin x) (s ^^ Sh a) = scal (Fin x) s ^^ Sh (x * a).
Proof. intros. unfold scal. rewrite !map_map. apply map_ext. intros. apply sh_scale. Qed.
Lemma sh_sadd : forall a b s u, sadd (s ^^ Sh a) (u ^^ Sh b) = sadd s u ^^ Sh (a + b).
Proof. intros. apply map2_through. intros. apply sh_add. Qed.
Lemma sh_ssub : forall a b s u, ssub (s ^^ Sh a) (u ^^ Sh b) = ssub s u ^^ Sh (a - b).
Proof. intros. apply map2_through. intros [| | |x] [| | |y]; cbn; try reflexivity. f_equal. lra. Qed.
Lemma sh_third : forall a s, divs (s ^^ Sh a) (fofZ 3) = divs s (fofZ 3) ^^ Sh (a / 3).
Proof. intros. unfold divs. rewrite !map_map. apply map_ext. intros. apply (sh_divide a 3). lra. Qed.
Lemma u_kc_hi : divs (sadd (ssub (scal (fofZ 4) (h ^^ t)) (scal (fofZ 2) (l ^^ t))) (c ^^ t)) (fofZ 3)
  = divs (sadd (ssub (scal (fofZ 4) h) (scal (fofZ 2) l)) c) (fofZ 3) ^^ t.
Proof.
  destruct t as [k|a]; [now nrm|]. change (@fofZ xr XR 4) with (Fin 4). change (@fofZ xr XR 2) with (Fin 2).
  rewrite !sh_scal, sh_ssub, sh_sadd, sh_third. do 3 f_equal. lra.
Qed.
Lemma u_kc_lo : divs (sadd (sadd (scal (fofZ (-2)) (h ^^ t)) (scal (fofZ 4) (l ^^ t))) (c ^^ t)) (fofZ 3)
  = divs (sadd (sadd (scal (fofZ (-2)) h) (scal (fofZ 4) l)) c) (fofZ 3) ^^ t.
Proof.
  destruct t as [k|a]; [now nrm|]. change (@fofZ xr XR 4) with (Fin 4). change (@fofZ xr XR (-2)) with (Fin (-2)).
  rewrite !sh_scal, !sh_sadd, sh_third. do 3 f_equal. lra.
Qed.
Lemma u_kc_run : forall w wa fl o m, keltner_run (h ^^ t) (l ^^ t) (c ^^ t) w wa fl o m = rmap kc_moved (keltner_run h l c w wa fl o m).
Proof.
  intros. unfold keltner_run. destruct o.
  - rewrite u_kc_hi, u_kc_lo. go.
  - rewrite u_atr. go. rewrite o_saddD, o_ssubD. reflexivity.
Qed.
Ltac kc := rewrite u_kc_run; match goal with |- context [rmap _ ?m] => destruct m end; cbn [rmap bind]; auto; unfold kc_moved; cbn [kc_tp kc_high kc_low]; go.
Lemma u_kc_m : forall w wa fl o m, keltner_channel_mband (h ^^ t) (l ^^ t) (c ^^ t) w wa fl o m = rmap (map (act t)) (keltner_channel_mband h l c w wa fl o m).
Proof. intros. unfold keltner_channel_mband. kc. Qed.
Lemma u_kc_h : forall w wa fl o m, keltner_channel_hband (h ^^ t) (l ^^ t) (c ^^ t) w wa fl o m = rmap (map (act t)) (keltner_channel_hband h l c w wa fl o m).
Proof. intros. unfold keltner_channel_hband. kc. Qed.
Lemma u_kc_l : forall w wa fl o m, keltner_channel_lband (h ^^ t) (l ^^ t) (c ^^ t) w wa fl o m = rmap (map (act t)) (keltner_channel_lband h l c w wa fl o m).
Proof. intros. unfold keltner_channel_lband. kc. Qed.
Lemma u_kc_p : forall w wa fl o m, keltner_channel_pband (h ^^ t) (l ^^ t) (c ^^ t) w wa fl o m = keltner_channel_pband h l c w wa fl o m.
Proof. intros. unfold keltner_channel_pband. kc. Qed.
Lemma u_kc_hi_ind : forall w wa fl o m, keltner_channel_hband_indicator (h ^^ t) (l ^^ t) (c ^^ t) w wa fl o m = keltner_channel_hband_indicator h l c w wa fl o m.
Proof. intros. unfold keltner_channel_hband_indicator. kc. now rewrite u_if_lt. Qed.
Lemma u_kc_li_ind : forall w wa fl o m, keltner_channel_lband_indicator (h ^^ t) (l ^^ t) (c ^^ t) w wa fl o m = keltner_channel_lband_indicator h l c w wa fl o m.
Proof. intros. unfold keltner_channel_lband_indicator. kc. now rewrite u_if_gt. Qed.

Lemma u_offset : forall o s, donchian_offset o (s ^^ t) = donchian_offset o s ^^ t.
Proof. intros. unfold donchian_offset. destruct (o =? 0)%Z; cbn [negb]; now rewrite ?t_shift. Qed.
Lemma u_dc_run : forall w fl, donchian_run (h ^^ t) (l ^^ t) w fl = rmap (fun '(a, b) => (a ^^ t, b ^^ t)) (donchian_run h l w fl).
Proof. intros. unfold donchian_run. go. Qed.
Ltac dc := rewrite u_dc_run; match goal with |- context [rmap _ ?m] => destruct m as [[? ?]|] end; cbn [rmap bind]; auto; go.
Lemma u_dc_h : forall w o fl, donchian_channel_hband (h ^^ t) (l ^^ t) (c ^^ t) w o fl = rmap (map (act t)) (donchian_channel_hband h l c w o fl).
Proof. intros. unfold donchian_channel_hband. dc. now rewrite u_offset. Qed.
Lemma u_dc_l : forall w o fl, donchian_channel_lband (h ^^ t) (l ^^ t) (c ^^ t) w o fl = rmap (map (act t)) (donchian_channel_lband h l c w o fl).
Proof. intros. unfold donchian_channel_lband. dc. now rewrite u_offset. Qed.
Lemma o_sadd_D_l : forall s u, sadd (s ^^ D t) (u ^^ t) = sadd s u ^^ t.
Proof.
  intros. apply map2_through. intros x y. destruct t as [k|a]; [apply sc_add|]. cbn [fac]. rewrite act_one.
  destruct x as [| | |x], y as [| | |y]; cbn; try reflexivity. f_equal. lra.
Qed.
Lemma u_dc_m : forall w o fl, donchian_channel_mband (h ^^ t) (l ^^ t) (c ^^ t) w o fl = rmap (map (act t)) (donchian_channel_mband h l c w o fl).
Proof. intros. unfold donchian_channel_mband. dc. rewrite o_sadd_D_l, t_check_back, u_offset. reflexivity. Qed.
Lemma u_dc_p : forall w o fl, donchian_channel_pband (h ^^ t) (l ^^ t) (c ^^ t) w o fl = donchian_channel_pband h l c w o fl.
Proof. intros. unfold donchian_channel_pband. dc. Qed.
(** ** volume *)
Lemma u_clv : clv (h ^^ t) (l ^^ t) (c ^^ t) = clv h l c.
Proof. unfold clv. now nrm. Qed.
Lemma u_adi : forall fl, acc_dist_index (h ^^ t) (l ^^ t) (c ^^ t) (v ^^ Sc q) fl = rmap (map (act (Sc q))) (acc_dist_index h l c v fl).
Proof. intros. unfold acc_dist_index. rewrite u_clv, o_smul_r. go. Qed.
Lemma u_obv : forall fl, on_balance_volume (c ^^ t) (v ^^ Sc q) fl = rmap (map (act (Sc q))) (on_balance_volume c v fl).
Proof.
  intros. unfold on_balance_volume. nrm. rewrite map3_map. cbn [rmap]. f_equal. rewrite <- o_check0, <- o_cumsum, map_map3.
  do 2 f_equal. apply map3_ext3. intros. rewrite act_ltb. destruct (fltb x y); auto. apply sc_opp.
Qed.
Lemma u_cmf : forall w fl, chaikin_money_flow (h ^^ t) (l ^^ t) (c ^^ t) (v ^^ Sc q) w fl = chaikin_money_flow h l c v w fl.
Proof. intros. unfold chaikin_money_flow. rewrite u_clv, o_smul_r. go. Qed.
Lemma u_fi : forall w fl, force_index (c ^^ t) (v ^^ Sc q) w fl = rmap (map (act (Sc (pmul (fac t) q)))) (force_index c v w fl).
Proof. intros. unfold force_index. nrm. rewrite o_smul_l, o_smul_r, o_map_map. go. Qed.
Lemma u_emv : emv (h ^^ t) (l ^^ t) (v ^^ Sc q) = emv h l v ^^ Sc (pmul (pmul (fac t) (fac t)) (pinv q)).
Proof. unfold emv. nrm. rewrite o_smul_l, o_smul_r, o_map_map, o_sdiv_l, o_sdiv_r, o_map_map, o_muls. reflexivity. Qed.
Lemma u_eom : forall w fl, ease_of_movement (h ^^ t) (l ^^ t) (v ^^ Sc q) w fl
  = rmap (map (act (Sc (pmul (pmul (fac t) (fac t)) (pinv q))))) (ease_of_movement h l v w fl).
Proof. intros. unfold ease_of_movement. rewrite u_emv. go. Qed.
Lemma u_sma_eom : forall w fl, sma_ease_of_movement (h ^^ t) (l ^^ t) (v ^^ Sc q) w fl
  = rmap (map (act (Sc (pmul (pmul (fac t) (fac t)) (pinv q))))) (sma_ease_of_movement h l v w fl).
Proof. intros. unfold sma_ease_of_movement. rewrite u_emv. go. Qed.
End Bands.

Section PriceFactor.
Variables (p q : pos).
Variables (h l c v : list xr).
Lemma u_bb_w : forall w d fl, bollinger_wband (c ^^ Sc p) w d fl = bollinger_wband c w d fl.
Proof. intros. unfold bollinger_wband. rewrite u_bb_run. destruct (bollinger_run c w d fl); cbn [rmap bind]; auto; unfold bb_moved; cbn [bb_mavg bb_hband bb_lband]; go. Qed.
Lemma u_kc_w : forall w wa fl o m, keltner_channel_wband (h ^^ Sc p) (l ^^ Sc p) (c ^^ Sc p) w wa fl o m = keltner_channel_wband h l c w wa fl o m.
Proof. intros. unfold keltner_channel_wband. rewrite u_kc_run. destruct (keltner_run h l c w wa fl o m); cbn [rmap bind]; auto; unfold kc_moved; cbn [kc_tp kc_high kc_low]; go. Qed.
Lemma u_dc_w : forall w o fl, donchian_channel_wband (h ^^ Sc p) (l ^^ Sc p) (c ^^ Sc p) w o fl = donchian_channel_wband h l c w o fl.
Proof. intros. unfold donchian_channel_wband. rewrite u_dc_run. destruct (donchian_run h l w fl) as [[? ?]|]; cbn [rmap bind]; auto; go. Qed.
Lemma u_ulcer : forall w fl, ulcer_index (c ^^ Sc p) w fl = ulcer_index c w fl.
Proof. intros. unfold ulcer_index. go. Qed.
Lemma u_vpt : forall s d fl, volume_price_trend (c ^^ Sc p) (v ^^ Sc q) fl s d = rmap (map (act (Sc q))) (volume_price_trend c v fl s d).
Proof.
  intros. unfold volume_price_trend. rewrite o_pct_change, o_smul_r, o_cumsum. destruct s as [k|].
  - destruct (k =? 0)%Z; cbn [bind rmap].
    + destruct d; now nrm.
    + go. destruct d; now nrm.
  - cbn [bind rmap]. destruct d; now nrm.
Qed.
Lemma u_nvi_go : forall ch vp vol x, nvi_go x ch (vp ^^ Sc q) (vol ^^ Sc q) = nvi_go x ch vp vol.
Proof.
  induction ch; intros; auto. destruct vp as [|y vp]; auto. destruct vol as [|z vol]; auto. cbn [map nvi_go]. rewrite act_ltb.
  now rewrite IHch.
Qed.
Lemma u_nvi : forall fl, negative_volume_index (c ^^ Sc p) (v ^^ Sc q) fl = negative_volume_index c v fl.
Proof.
  intros. unfold negative_volume_index. rewrite o_pct_change. destruct c; auto. cbn [map].
  replace (tl (v ^^ Sc q)) with (tl v ^^ Sc q) by (destruct v; reflexivity). now rewrite u_nvi_go.
Qed.
Lemma u_mf : forall k w mp (b : xr -> bool) s, (forall x, b (act (Sc k) x) = b x) ->
  rolling w mp (agg_apply (fun x => fsum (map (fun v => if b v then v else fofZ 0) x))) (s ^^ Sc k)
  = rmap (map (act (Sc k))) (rolling w mp (agg_apply (fun x => fsum (map (fun v => if b v then v else fofZ 0) x))) s).
Proof.
  intros k w mp b s B. apply t_rolling. intros. apply (t_agg_apply (Sc k) (act (Sc k))); auto. intros x.
  rewrite <- fsum_sc. f_equal. rewrite !map_map. apply map_ext. intros y. rewrite B. destruct (b y); auto. symmetry. apply sc_zero.
Qed.
Lemma act_leb0 : forall k x, fleb (fofZ 0) (act (Sc k) x) = fleb (fofZ 0) x.
Proof.
  intros k x. pose proof (act_ltb (Sc k) x (fofZ 0)) as L. pose proof (act_ltb (Sc k) (fofZ 0) x) as L'.
  pose proof (act_eqb (Sc k) (fofZ 0) x) as E. rewrite sc_zero in *. revert L' E.
  cbn [fltb feqb fleb XR]. unfold xleb. intros -> ->. reflexivity.
Qed.
Lemma act_ltb0 : forall k x, fltb (act (Sc k) x) (fofZ 0) = fltb x (fofZ 0).
Proof. intros. rewrite <- (sc_zero k) at 1. apply act_ltb. Qed.
Lemma u_mfi : forall w fl, money_flow_index (h ^^ Sc p) (l ^^ Sc p) (c ^^ Sc p) (v ^^ Sc q) w fl = money_flow_index h l c v w fl.
Proof.
  intros. unfold money_flow_index. rewrite o_typical, t_shift.
  set (tp := divs _ _).
  replace (map2 (fun t0 p0 => if fltb p0 t0 then fofZ 1 else if fltb t0 p0 then fofZ (-1) else fofZ 0) (tp ^^ Sc p) (shift 1 tp ^^ Sc p))
    with (map2 (fun t0 p0 => if fltb p0 t0 then fofZ 1 else if fltb t0 p0 then fofZ (-1) else fofZ 0) tp (shift 1 tp)).
  2:{ symmetry. apply map2_same. intros. now rewrite !act_ltb. }
  rewrite o_smul_l, o_smul_r, o_map_map, o_smul_l.
  rewrite (u_mf (pmul p q) _ _ (fun x => fleb (fofZ 0) x)) by (intros; apply act_leb0).
  rewrite (u_mf (pmul p q) _ _ (fun x => fltb x (fofZ 0))) by (intros; apply act_ltb0).
  go.
Qed.
Lemma u_vwap : forall w fl, volume_weighted_average_price (h ^^ Sc p) (l ^^ Sc p) (c ^^ Sc p) (v ^^ Sc q) w fl
  = rmap (map (act (Sc p))) (volume_weighted_average_price h l c v w fl).
Proof.
  intros. unfold volume_weighted_average_price. rewrite o_typical, o_smul_l, o_smul_r. go. rewrite <- o_map_map, o_sdiv_l, o_sdiv. go.
Qed.
Lemma u_daily : forall fl, daily_return (c ^^ Sc p) fl = daily_return c fl.
Proof. intros. unfold daily_return. go. Qed.
Lemma u_log : forall s, map xln (s ^^ Sc p) = map xln s ^^ Sh (ln p).
Proof.
  intros. rewrite !map_map. apply map_ext. intros [| | |x]; try reflexivity. unfold act at 1, xln at 1. unfold xln.
  pose proof (pv_pos p). destruct (Rlt_dec 0 (p * x)), (Rlt_dec 0 x); try (exfalso; nra).
  - cbn. f_equal. rewrite ln_mult by lra. lra.
  - destruct (Rlt_dec (p * x) 0), (Rlt_dec x 0); try reflexivity; exfalso; nra.
Qed.
Lemma u_dlr : forall fl, daily_log_return xln (c ^^ Sc p) fl = daily_log_return xln c fl.
Proof. intros. unfold daily_log_return. rewrite u_log, o_diff1. cbn [fac]. now rewrite map_one. Qed.
Lemma u_cum : forall fl, cumulative_return (c ^^ Sc p) fl = cumulative_return c fl.
Proof. intros. unfold cumulative_return. destruct c as [|x s]; auto. cbn [map]. change (act (Sc p) x :: s ^^ Sc p) with ((x :: s) ^^ Sc p). now rewrite o_divs_t. Qed.
End PriceFactor.
