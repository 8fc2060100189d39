(** * Derived: series rebuilt from other published series (C90). *)
From Coq Require Import Lra.
From Verif Require Import Lists Api SpecNum SpecDerived Rows Align Fill Tab Averages Oscillators Lines Cycles Channels Flows.
Local Open Scope f_scope.

Section Derived.
Context {F : Type} {A : Arith F}.

Lemma col_close : forall s : list F, map b_close (column s) = s.
Proof. intros. unfold column. rewrite map_map. apply map_id. Qed.
Lemma col_high : forall s : list F, map b_high (column s) = s.
Proof. intros. unfold column. rewrite map_map. apply map_id. Qed.
Lemma col_low : forall s : list F, map b_low (column s) = s.
Proof. intros. unfold column. rewrite map_map. apply map_id. Qed.

Lemma differences : forall d a b (rows : list (bar F)) x y, difference d a b ->
  compute a false rows = Ok x -> compute b false rows = Ok y -> compute d false rows = Ok (map2 fsub x y).
Proof.
  intros d a b rows x y D. destruct D; cbn [compute];
    unfold macd, macd_signal, macd_diff, ppo, ppo_signal, ppo_hist, pvo, pvo_signal, pvo_hist, kst, kst_sig, kst_diff,
      aroon_up, aroon_down, aroon_indicator, vortex_indicator_pos, vortex_indicator_neg, vortex_indicator_diff.
  - unfold macd_run. destruct (ema_ _ f _) as [e1|]; [|discriminate]. destruct (ema_ _ s _) as [e2|]; [|discriminate]. cbn [bind].
    destruct (ema_ _ g _) as [e3|]; [|discriminate]. cbn. intros E1 E2. injection E1 as <-. injection E2 as <-. reflexivity.
  - unfold ppo_run. destruct (ema_ _ f _) as [e1|]; [|discriminate]. destruct (ema_ _ s _) as [e2|]; [|discriminate]. cbn [bind].
    destruct (ema_ _ g _) as [e3|]; [|discriminate]. cbn. intros E1 E2. injection E1 as <-. injection E2 as <-. reflexivity.
  - unfold pvo_run. destruct (ema_ _ f _) as [e1|]; [|discriminate]. destruct (ema_ _ s _) as [e2|]; [|discriminate]. cbn [bind].
    destruct (ema_ _ g _) as [e3|]; [|discriminate]. cbn. intros E1 E2. injection E1 as <-. injection E2 as <-. reflexivity.
  - destruct (kst_run _ _ _ _ _ _ _ _ _ _ _) as [[k s']|]; [|discriminate]. cbn. intros E1 E2. injection E1 as <-. injection E2 as <-. reflexivity.
  - destruct (aroon_run _ _ _ _) as [[u v]|]; [|discriminate]. cbn. intros E1 E2. injection E1 as <-. injection E2 as <-. reflexivity.
  - destruct (vortex_run _ _ _ _ _) as [[u v]|]; [|discriminate]. cbn. intros E1 E2. injection E1 as <-. injection E2 as <-. reflexivity.
Qed.

Lemma smoothings : forall d smooth base (rows : list (bar F)), smoothing d smooth base ->
  compute d false rows = bind (compute base false rows) (fun s => compute smooth false (column s)).
Proof.
  intros d smooth base rows D. destruct D; cbn [compute].
  - unfold stoch_signal, stoch. destruct (stoch_run _ _ _ _ _) as [k|]; [|reflexivity]. cbn [rmap bind check_fillna]. rewrite col_close.
    unfold sma_indicator, sma_, minp_of. destruct (rolling _ _ _ _); reflexivity.
  - unfold stochrsi_k, stochrsi, stochrsi_run. destruct (rsi _ _ _) as [r|]; [|reflexivity]. cbn [bind].
    destruct (rolling w w agg_min r) as [lo|]; [|reflexivity]. cbn [bind]. destruct (rolling w w agg_max r) as [hi|]; [|reflexivity]. cbn [bind].
    destruct (rolling s1 s1 agg_mean _) as [k|] eqn:K; [|reflexivity]. cbn [bind check_fillna]. rewrite col_close.
    unfold sma_indicator, sma_. now rewrite K.
  - unfold stochrsi_k, stochrsi_d. destruct (stochrsi_run _ _ _ _) as [[s k]|]; [|reflexivity]. cbn [bind check_fillna]. rewrite col_close.
    unfold sma_indicator, sma_. destruct (rolling _ _ _ _); reflexivity.
  - unfold sma_ease_of_movement, ease_of_movement. cbn [bind check_fillna]. rewrite col_close. unfold sma_indicator, sma_, minp_of.
    destruct (rolling _ _ _ _); reflexivity.
  - unfold volume_price_trend. destruct (Z.eqb_spec w 0); [contradiction|]. cbn [bind check_fillna]. rewrite col_close. unfold sma_indicator, sma_, minp_of.
    destruct (rolling _ _ _ _); reflexivity.
  - unfold macd_signal, macd, macd_run. destruct (ema_ _ f _) as [e1|]; [|reflexivity]. cbn [bind]. destruct (ema_ _ s _) as [e2|]; [|reflexivity]. cbn [bind].
    destruct (ema_ _ g _) as [e3|] eqn:E; [|reflexivity]. cbn [bind check_fillna]. rewrite col_close. unfold ema_indicator. now rewrite E.
  - unfold ppo_signal, ppo, ppo_run. destruct (ema_ _ f _) as [e1|]; [|reflexivity]. cbn [bind]. destruct (ema_ _ s _) as [e2|]; [|reflexivity]. cbn [bind].
    destruct (ema_ _ g _) as [e3|] eqn:E; [|reflexivity]. cbn [bind check_fillna]. rewrite col_close. unfold ema_indicator. now rewrite E.
  - unfold pvo_signal, pvo, pvo_run. destruct (ema_ _ f _) as [e1|]; [|reflexivity]. cbn [bind]. destruct (ema_ _ s _) as [e2|]; [|reflexivity]. cbn [bind].
    destruct (ema_ _ g _) as [e3|] eqn:E; [|reflexivity]. cbn [bind check_fillna]. rewrite col_close. unfold ema_indicator. now rewrite E.
Qed.

Lemma kst_signal : forall r1 r2 r3 r4 w1 w2 w3 w4 s (rows : list (bar F)),
  compute (KstSig r1 r2 r3 r4 w1 w2 w3 w4 s) false rows =
  bind (compute (Kst r1 r2 r3 r4 w1 w2 w3 w4 s) false rows) (fun k => compute (Sma s) true (column k)).
Proof.
  intros. cbn [compute]. unfold kst_sig, kst, kst_run.
  destruct (kst_rocma _ r1 w1 _) as [m1|]; [|reflexivity]. cbn [bind]. destruct (kst_rocma _ r2 w2 _) as [m2|]; [|reflexivity]. cbn [bind].
  destruct (kst_rocma _ r3 w3 _) as [m3|]; [|reflexivity]. cbn [bind]. destruct (kst_rocma _ r4 w4 _) as [m4|]; [|reflexivity]. cbn [bind].
  destruct (rolling s 0 agg_mean _) as [k|] eqn:E; [|reflexivity]. cbn [bind check_fillna]. rewrite col_close. unfold sma_indicator, sma_. now rewrite E.
Qed.
Lemma stochrsi_of_rsi : forall w s1 s2 (rows : list (bar F)) out r,
  compute (StochRsi w s1 s2) false rows = Ok out -> compute (Rsi w) false rows = Ok r -> compute (DcP w 0) false (column r) = Ok out.
Proof.
  intros w s1 s2 rows out r. cbn [compute]. unfold stochrsi, stochrsi_run, donchian_channel_pband, donchian_run, donchian_minp, donchian_offset.
  intros E R. rewrite R in E. cbn [bind] in E. rewrite col_close, col_high, col_low. cbn [Z.eqb negb].
  destruct (rolling w w agg_min r) as [lo|]; [|discriminate]. cbn [bind] in *. destruct (rolling w w agg_max r) as [hi|]; [|discriminate]. cbn [bind] in *.
  destruct (rolling s1 s1 agg_mean _) as [k|]; [|discriminate]. exact E.
Qed.

Lemma nth2 : forall (g : F -> F -> F) a b i, (i < length a)%nat -> (i < length b)%nat -> nth i (map2 g a b) fnan = g (nth i a fnan) (nth i b fnan).
Proof. intros. now apply nth_map2. Qed.
Lemma nth1 : forall (g : F -> F) a i, (i < length a)%nat -> nth i (map g a) fnan = g (nth i a fnan).
Proof. intros. rewrite (nth_indep _ fnan (g fnan)) by now rewrite map_length. apply map_nth. Qed.
Lemma len2 : forall (g : F -> F -> F) a b n, length a = n -> length b = n -> length (map2 g a b) = n.
Proof. intros. now apply ln_map2. Qed.

Lemma channels : forall ch (rows : list (bar F)) lo mid up w p o u, a_channel ch ->
  compute (lower ch) false rows = Ok lo -> compute (middle ch) false rows = Ok mid -> compute (upper ch) false rows = Ok up ->
  compute (width ch) false rows = Ok w -> compute (place ch) false rows = Ok p ->
  compute (over ch) false rows = Ok o -> compute (under ch) false rows = Ok u ->
  forall i, (i < length rows)%nat ->
    let c := cell (map b_close rows) i in
    cell w i = (cell up i -. cell lo i) /. cell mid i **. #100 /\
    ((cell up i =.? cell lo i) = false -> cell p i = (c -. cell lo i) /. (cell up i -. cell lo i)) /\
    cell o i = signal (cell up i <.? c) /\ cell u i = signal (c <.? cell lo i).
Proof.
  intros ch rows lo mid up w p o u Ch El Em Eu Ew Ep Eo Eud i Hi c.
  assert (Ll : length lo = length rows /\ length mid = length rows /\ length up = length rows).
  { repeat split; (eapply compute_length; [|eassumption]); destruct Ch as [(? & ? & ->)|(? & ? & ? & ? & ->)]; exact I || reflexivity. }
  destruct Ll as (Ll & Lm & Lu). assert (Lc : length (map b_close rows) = length rows) by apply map_length.
  destruct Ch as [(w' & d & ->)|(w' & a & or & m & ->)]; cbn [lower middle upper width place over under bollinger keltner compute] in *.
  - unfold bollinger_lband, bollinger_mavg, bollinger_hband, bollinger_wband, bollinger_pband, bollinger_hband_indicator, bollinger_lband_indicator in *.
    destruct (bollinger_run _ _ _ _) as [st|]; [|discriminate]. cbn [bind check_fillna] in *.
    injection El as El. injection Em as Em. injection Eu as Eu. subst lo mid up.
    injection Ew as <-. injection Ep as <-. injection Eo as <-. injection Eud as <-.
    unfold cell, c, cell, muls, divs, sdiv, ssub, scal.
    split; [|split; [|split]].
    + rewrite nth1 by (rewrite (len2 _ _ _ (length rows)); rewrite ?(len2 _ _ _ (length rows)); auto).
      rewrite !nth2; rewrite ?(len2 _ _ _ (length rows)); auto; congruence.
    + intros Q. rewrite !nth2; rewrite ?(len2 _ _ _ (length rows)); auto; try congruence. rewrite Q. reflexivity.
    + rewrite nth2; try congruence. reflexivity.
    + rewrite nth2; try congruence. reflexivity.
  - unfold keltner_channel_lband, keltner_channel_mband, keltner_channel_hband, keltner_channel_wband, keltner_channel_pband, keltner_channel_hband_indicator, keltner_channel_lband_indicator in *.
    destruct (keltner_run _ _ _ _ _ _ _ _) as [st|]; [|discriminate]. cbn [bind check_fillna] in *.
    injection El as El. injection Em as Em. injection Eu as Eu. subst lo mid up.
    injection Ew as <-. injection Ep as <-. injection Eo as <-. injection Eud as <-.
    unfold cell, c, cell, muls, divs, sdiv, ssub, scal.
    split; [|split; [|split]].
    + rewrite nth1 by (rewrite (len2 _ _ _ (length rows)); rewrite ?(len2 _ _ _ (length rows)); auto).
      rewrite !nth2; rewrite ?(len2 _ _ _ (length rows)); auto; congruence.
    + intros Q. rewrite !nth2; rewrite ?(len2 _ _ _ (length rows)); auto; congruence.
    + rewrite nth2; try congruence. reflexivity.
    + rewrite nth2; try congruence. reflexivity.
Qed.

Lemma bb_is_sma : forall w d (rows : list (bar F)) out, compute (BbM w d) false rows = Ok out -> compute (Sma w) false rows = Ok out.
Proof.
  intros w d rows out. cbn [compute]. unfold bollinger_mavg, bollinger_run, sma_indicator, sma_, minp_of.
  destruct (rolling _ _ agg_mean _); [|discriminate]. cbn [bind]. destruct (rolling _ _ agg_std0 _); [|discriminate]. auto.
Qed.
Lemma kc_is_ema : forall w a m (rows : list (bar F)) out, compute (KcM w a false m) false rows = Ok out -> compute (Ema w) false rows = Ok out.
Proof.
  intros w a m rows out. cbn [compute]. unfold keltner_channel_mband, keltner_run, ema_indicator, ema_.
  destruct (ewm_span _ _ _); [|discriminate]. cbn [bind]. destruct (average_true_range _ _ _ _ _); [|discriminate]. auto.
Qed.
Lemma typical_cols : forall rows : list (bar F), divs (sadd (sadd (map b_high rows) (map b_low rows)) (map b_close rows)) (#3) = typical_prices rows.
Proof. intros. unfold divs, sadd, typical_prices. induction rows; cbn; f_equal; auto. Qed.
Lemma median_cols : forall rows : list (bar F), scal fhalf (sadd (map b_high rows) (map b_low rows)) = median_prices rows.
Proof. intros. unfold scal, sadd, median_prices. induction rows; cbn; f_equal; auto. Qed.
Lemma kc_is_sma : forall w a m (rows : list (bar F)) out, compute (KcM w a true m) false rows = Ok out ->
  compute (Sma w) false (column (typical_prices rows)) = Ok out.
Proof.
  intros w a m rows out. cbn [compute]. unfold keltner_channel_mband, keltner_run, sma_indicator, sma_. rewrite col_close, typical_cols.
  destruct (rolling w w agg_mean _); [|discriminate]. cbn [bind]. destruct (rolling _ _ _ _); [|discriminate]. cbn [bind]. destruct (rolling _ _ _ _); [|discriminate]. auto.
Qed.
Lemma kc_lines : forall w a m (rows : list (bar F)) up lo e t,
  compute (KcH w a false m) false rows = Ok up -> compute (KcL w a false m) false rows = Ok lo ->
  compute (Ema w) false rows = Ok e -> compute (Atr a) false rows = Ok t ->
  up = map2 (fun x y => x +. m **. y) e t /\ lo = map2 (fun x y => x -. m **. y) e t.
Proof.
  intros w a m rows up lo e t. cbn [compute]. unfold keltner_channel_hband, keltner_channel_lband, keltner_run, ema_indicator, ema_.
  intros Eu El Ee Et. rewrite Ee in Eu, El. cbn [bind] in Eu, El. rewrite Et in Eu, El. cbn in Eu, El. injection Eu as <-. injection El as <-.
  unfold sadd, ssub, scal. clear. split; revert t; induction e; destruct t; cbn; f_equal; auto.
Qed.
Lemma ichi_base : forall w1 w2 w3 v v' w3' fl (rows : list (bar F)) out, compute (IchiBase w1 w2 w3 v) fl rows = Ok out ->
  compute (IchiConv w2 w1 w3' v') fl rows = Ok out.
Proof.
  intros w1 w2 w3 v v' w3' fl rows out. cbn [compute]. unfold ichimoku_base_line, ichimoku_conversion_line, ichimoku_run.
  destruct (rolling w1 _ agg_max _); [|discriminate]. cbn [bind]. destruct (rolling w1 _ agg_min _); [|discriminate]. cbn [bind].
  destruct (rolling w2 _ agg_max _); [|discriminate]. cbn [bind]. destruct (rolling w2 _ agg_min _); [|discriminate]. auto.
Qed.
Lemma ichi_span : forall w1 w2 w3 v (rows : list (bar F)) a c b, compute (IchiA w1 w2 w3 false) false rows = Ok a ->
  compute (IchiConv w1 w2 w3 v) false rows = Ok c -> compute (IchiBase w1 w2 w3 v) false rows = Ok b ->
  a = map2 (fun x y => fhalf **. (x +. y)) c b.
Proof.
  intros w1 w2 w3 v rows a c b. cbn [compute]. unfold ichimoku_a, ichimoku_base_line, ichimoku_conversion_line.
  destruct (ichimoku_run _ _ _ _ _) as [[x y]|]; [|discriminate]. cbn. intros Ea Ec Eb. injection Ea as <-. injection Ec as <-. injection Eb as <-.
  unfold scal, sadd. clear. revert y. induction x; destruct y; cbn; f_equal; auto.
Qed.
Lemma dc_lines : forall w (rows : list (bar F)) up lo mid wd p s,
  compute (DcH w 0) false rows = Ok up -> compute (DcL w 0) false rows = Ok lo -> compute (DcM w 0) false rows = Ok mid ->
  compute (DcW w 0) false rows = Ok wd -> compute (DcP w 0) false rows = Ok p -> compute (Sma w) false rows = Ok s ->
  forall i, (i < length rows)%nat ->
    let c := cell (map b_close rows) i in
    cell mid i = (cell up i -. cell lo i) /. #2 +. cell lo i /\
    cell wd i = (cell up i -. cell lo i) /. cell s i **. #100 /\
    cell p i = (c -. cell lo i) /. (cell up i -. cell lo i).
Proof.
  intros w rows up lo mid wd p s Eu El Em Ew Ep Es i Hi c.
  assert (Lu : length up = length rows /\ length lo = length rows /\ length s = length rows).
  { repeat split; (eapply compute_length; [|eassumption]); exact I || reflexivity. }
  destruct Lu as (Lu & Ll & Ls). assert (Lc : length (map b_close rows) = length rows) by apply map_length.
  cbn [compute] in *. unfold donchian_channel_hband, donchian_channel_lband, donchian_channel_mband, donchian_channel_wband, donchian_channel_pband,
    donchian_offset, donchian_minp, sma_indicator, sma_ in *.
  cbn [Z.eqb negb] in *. rewrite Es in Ew.
  destruct (donchian_run _ _ _ _) as [[u l]|]; [|discriminate]. cbn [bind check_fillna] in *.
  injection Eu as ->. injection El as ->. injection Em as <-. injection Ew as <-. injection Ep as <-.
  unfold cell, c, cell, muls, divs, sdiv, ssub, sadd.
  split; [|split].
  - rewrite nth2; rewrite ?map_length, ?(len2 _ _ _ (length rows)); auto; try congruence.
    rewrite nth1 by (rewrite (len2 _ _ _ (length rows)); auto). rewrite nth2 by congruence. reflexivity.
  - rewrite nth1 by (rewrite (len2 _ _ _ (length rows)); rewrite ?(len2 _ _ _ (length rows)); auto).
    rewrite !nth2; rewrite ?(len2 _ _ _ (length rows)); auto; congruence.
  - rewrite !nth2; rewrite ?(len2 _ _ _ (length rows)); auto; congruence.
Qed.
Lemma ao_is_sma : forall w1 w2 (rows : list (bar F)) out a b, compute (AwesomeOsc w1 w2) false rows = Ok out ->
  compute (Sma w1) false (column (median_prices rows)) = Ok a -> compute (Sma w2) false (column (median_prices rows)) = Ok b ->
  out = map2 fsub a b.
Proof.
  intros w1 w2 rows out a b. cbn [compute]. unfold awesome_oscillator, sma_indicator, sma_, minp_of. rewrite col_close, median_cols.
  intros E Ea Eb. rewrite Ea in E. cbn [bind] in E. rewrite Eb in E. cbn in E. now injection E as <-.
Qed.
Lemma vac_close : forall rows : list (bar F), map b_close (volume_as_close rows) = map b_volume rows.
Proof. intros. unfold volume_as_close. now rewrite map_map. Qed.
Lemma pvo_is_ppo : forall s f g fl (rows : list (bar F)),
  compute (Pvo s f g) fl rows = compute (Ppo s f g) fl (volume_as_close rows) /\
  compute (PvoSignal s f g) fl rows = compute (PpoSignal s f g) fl (volume_as_close rows) /\
  compute (PvoHist s f g) fl rows = compute (PpoHist s f g) fl (volume_as_close rows).
Proof. intros. cbn [compute]. rewrite vac_close. repeat split; reflexivity. Qed.
End Derived.

(** ** identities of exact arithmetic *)
Local Open Scope R_scope.
Lemma conv_is_mid : forall w w2 w3 vis fl n h l c v, (1 <= w)%nat -> (1 <= w2)%nat -> (1 <= w3)%nat ->
  compute (IchiConv (Z.of_nat w) (Z.of_nat w2) (Z.of_nat w3) vis) fl (frame n h l c v) = compute (DcM (Z.of_nat w) 0) fl (frame n h l c v).
Proof.
  intros w w2 w3 vis fl n h l c v H1 H2 H3. destruct (ichi_formula fl w w2 w3 vis n h l c v H1 H2 H3) as (-> & _).
  destruct (dc_bands fl w n h l c v H1) as (_ & _ & ->). reflexivity.
Qed.
Lemma sign_100 : rsign 100 = 1%Z.
Proof. unfold rsign. destruct (Rlt_dec 0 100); [reflexivity|lra]. Qed.
Lemma ratio_100 : forall a b, ratio (100 * a) b = fmul (Fin 100) (ratio a b).
Proof.
  intros. unfold ratio. destruct (Req_EM_T b 0).
  - destruct (Rlt_dec 0 a); [|destruct (Rlt_dec a 0)].
    + destruct (Rlt_dec 0 (100 * a)); [|lra]. cbn [fmul XR xmul xsign]. rewrite sign_100. reflexivity.
    + destruct (Rlt_dec 0 (100 * a)); [lra|]. destruct (Rlt_dec (100 * a) 0); [|lra]. cbn [fmul XR xmul xsign]. rewrite sign_100. reflexivity.
    + destruct (Rlt_dec 0 (100 * a)); [lra|]. destruct (Rlt_dec (100 * a) 0); [lra|]. reflexivity.
  - cbn. f_equal. field. auto.
Qed.
Lemma stoch_is_place : forall w s n h l c v, (1 <= w)%nat ->
  compute (Stoch (Z.of_nat w) s) false (frame n h l c v) =
  rmap (map (fun x => fmul (Fin 100) x)) (compute (DcP (Z.of_nat w) 0) false (frame n h l c v)).
Proof.
  intros w s n h l c v Hw. destruct (stoch_formula false w s n h l c v Hw) as (k & E & ->).
  destruct (dc_width false w n h l c v Hw) as (_ & (p & E' & ->)). rewrite E, E'. cbn [rmap]. rewrite map_tab. f_equal. apply tab_ext. intros i _.
  unfold fromx. destruct (_ <? _)%nat; [reflexivity|]. apply ratio_100.
Qed.
Lemma vwap_is_sma : forall w n h l c v q, (1 <= w)%nat -> q <> 0 -> (forall i, (i < n)%nat -> v i = q) ->
  compute (Vwap (Z.of_nat w)) false (frame n h l c v) = compute (Sma (Z.of_nat w)) false (frame n h l (typical h l c) v).
Proof.
  intros w n h l c v q Hw Q Hv. destruct (vwap_formula false w n h l c v Hw) as (o & -> & ->). rewrite sma_formula by auto.
  f_equal. apply tab_ext. intros i Hi. unfold from, fromx. destruct (_ <? _)%nat; [reflexivity|].
  assert (E : forall f a k, (a + k <= n)%nat -> rsum (fun j => f j * v j) a k = rsum f a k * q).
  { intros f a. induction k; intros Hk; cbn [rsum]; [ring|]. rewrite IHk, Hv by lia. ring. }
  assert (E1 : wsum w v i = INR (wlen w i) * q).
  { unfold wsum. rewrite <- (Rmult_1_l (rsum _ _ _)). rewrite Rmult_1_l.
    assert (G : forall a k, (a + k <= n)%nat -> rsum v a k = INR k * q).
    { intros a. induction k; intros Hk; [cbn; ring|]. cbn [rsum]. rewrite IHk, Hv, S_INR by lia. ring. }
    apply G. unfold wlo, wlen. lia. }
  unfold wmean. unfold wsum at 1. rewrite E, E1 by (unfold wlo, wlen; lia). fold (wsum w (typical h l c) i).
  assert (L : INR (wlen w i) <> 0) by (apply not_0_INR; unfold wlen; lia).
  unfold ratio. destruct (Req_EM_T _ _) as [Z|Z]; [destruct (Rmult_integral _ _ Z); contradiction|]. f_equal. field. auto.
Qed.
