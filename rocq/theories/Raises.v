(** * Raises: proofs about which calls raise (C11). *)
From Verif Require Import Lists Api SpecRaise Align.

Section Raises.
Context {F : Type} {A : Arith F}.

Definition decides {B} (m : result B) (o : option exn) : Prop :=
  match o with None => exists b, m = Ok b | Some e => m = Raise e end.

Lemma rolling_bad : forall w minp agg (s : list F),
  (minp < 0 \/ w < minp \/ w < 0)%Z -> rolling w minp agg s = Raise ValueError.
Proof.
  intros. unfold rolling.
  destruct (Z.ltb_spec minp 0), (Z.ltb_spec w minp), (Z.ltb_spec w 0); auto; lia.
Qed.
Lemma rolling_good : forall w minp agg (s : list F),
  (0 <= minp)%Z -> (minp <= w)%Z -> exists r, rolling w minp agg s = Ok r.
Proof.
  intros. unfold rolling.
  destruct (Z.ltb_spec minp 0), (Z.ltb_spec w minp), (Z.ltb_spec w 0); cbn; eauto; lia.
Qed.
Lemma span_bad_raise : forall w minp (s : list F), (w < 1)%Z -> ewm_span w minp s = Raise ValueError.
Proof. intros. unfold ewm_span. destruct (Z.ltb_spec w 1); auto; lia. Qed.
Lemma span_good : forall w minp (s : list F), (1 <= w)%Z -> exists r, ewm_span w minp s = Ok r.
Proof. intros. unfold ewm_span. destruct (Z.ltb_spec w 1); eauto; lia. Qed.
Lemma inv_good : forall w minp (s : list F), (1 <= w)%Z -> exists r, ewm_inv_alpha w minp s = Ok r.
Proof.
  intros. unfold ewm_inv_alpha. destruct (Z.eqb_spec w 0); [lia|].
  destruct (Z.ltb_spec w 0); eauto; lia.
Qed.
Lemma inv_zero : forall minp (s : list F), ewm_inv_alpha 0 minp s = Raise ZeroDivisionError.
Proof. reflexivity. Qed.
Lemma inv_neg : forall w minp (s : list F), (w < 0)%Z -> ewm_inv_alpha w minp s = Raise ValueError.
Proof.
  intros. unfold ewm_inv_alpha. destruct (Z.eqb_spec w 0); [lia|].
  destruct (Z.ltb_spec w 0); eauto; lia.
Qed.

End Raises.

Ltac one_call :=
  match goal with
  | |- context [rolling ?w ?m ?g ?s] =>
      first [ rewrite (rolling_bad w m g s) by (cbv beta iota delta [minp_of donchian_minp] in *; lia)
            | let r := fresh "r" in let E := fresh "E" in
              destruct (rolling_good w m g s) as [r E];
                [cbv beta iota delta [minp_of donchian_minp] in *; lia
                |cbv beta iota delta [minp_of donchian_minp] in *; lia|];
              rewrite E ]
  | |- context [ewm_span ?w ?m ?s] =>
      first [ rewrite (span_bad_raise w m s) by lia
            | let r := fresh "r" in let E := fresh "E" in
              destruct (span_good w m s) as [r E]; [lia|]; rewrite E ]
  | |- context [ewm_inv_alpha 0 ?m ?s] => rewrite (inv_zero m s)
  | |- context [ewm_inv_alpha ?w ?m ?s] =>
      first [ rewrite (inv_neg w m s) by lia
            | let r := fresh "r" in let E := fresh "E" in
              destruct (inv_good w m s) as [r E]; [lia|]; rewrite E ]
  end; cbn [bind rmap].

Ltac atoms :=
  repeat match goal with
  | |- context [(?a <? ?b)%Z] => destruct (Z.ltb_spec a b)
  | |- context [(?a <=? ?b)%Z] => destruct (Z.leb_spec a b)
  | |- context [(?a =? ?b)%Z] => destruct (Z.eqb_spec a b)
  end; cbn [first_failure app orb andb].

Ltac settle :=
  repeat one_call; cbn [bind rmap decides]; try reflexivity; try (eexists; reflexivity).

Section Main.
Context {F : Type} {A : Arith F}.

Ltac simple :=
  intros; unfold failing_check; cbn [compute first_failure app roll_bad roll1_bad span_bad];
  unfold roll_bad, roll1_bad, span_bad; cbn [first_failure app].

Lemma raises_momentum : forall (ind : indicator F) fl rows,
  match ind with
  | Rsi _ | Tsi _ _ | UltOsc _ _ _ _ _ _ | Stoch _ _ | StochSignal _ _ | Kama _ _ _ | Roc _ | AwesomeOsc _ _
  | WilliamsR _ | StochRsi _ _ _ | StochRsiK _ _ _ | StochRsiD _ _ _ => True | _ => False end ->
  decides (compute ind fl rows) (failing_check ind fl rows).
Proof.
  intros ind fl rows H. destruct ind; try contradiction; simple; 
  unfold rsi, tsi, ultimate_oscillator, stoch, stoch_signal, kama, roc, awesome_oscillator, williams_r,
   stochrsi, stochrsi_k, stochrsi_d, stochrsi_run, rsi, rsi_run, tsi_run, uo_run, stoch_run, kama_run, kama_sc;
  destruct fl; atoms; subst; settle.
Qed.

Lemma raises_ppo : forall (ind : indicator F) fl rows,
  match ind with
  | Ppo _ _ _ | PpoSignal _ _ _ | PpoHist _ _ _ | Pvo _ _ _ | PvoSignal _ _ _ | PvoHist _ _ _
  | Macd _ _ _ | MacdSignal _ _ _ | MacdDiff _ _ _ | Ema _ | Sma _ | Wma _ | Trix _ | Mass _ _
  | IchiConv _ _ _ _ | IchiBase _ _ _ _ | IchiA _ _ _ _ | IchiB _ _ _ _ => True | _ => False end ->
  decides (compute ind fl rows) (failing_check ind fl rows).
Proof.
  intros ind fl rows H. destruct ind; try contradiction; simple;
  unfold ppo, ppo_signal, ppo_hist, ppo_run, pvo, pvo_signal, pvo_hist, pvo_run, macd, macd_signal,
    macd_diff, macd_run, ema_indicator, sma_indicator, wma, trix, mass_index, ichimoku_conversion_line,
    ichimoku_base_line, ichimoku_a, ichimoku_b, ichimoku_run, ema_, sma_;
  destruct fl; atoms; subst; settle.
Qed.

Lemma raises_kst : forall (ind : indicator F) fl rows,
  match ind with
  | Kst _ _ _ _ _ _ _ _ _ | KstSig _ _ _ _ _ _ _ _ _ | KstDiff _ _ _ _ _ _ _ _ _ | Dpo _ | Cci _ _
  | VortexPos _ | VortexNeg _ | VortexDiff _ | Stc _ _ _ _ _ => True | _ => False end ->
  decides (compute ind fl rows) (failing_check ind fl rows).
Proof.
  intros ind fl rows H. destruct ind; try contradiction; simple;
  unfold kst, kst_sig, kst_diff, kst_run, kst_rocma, dpo, cci, vortex_indicator_pos, vortex_indicator_neg,
    vortex_indicator_diff, vortex_run, stc, stc_stoch, ema_;
  destruct fl; atoms; subst; settle.
Qed.

Lemma raises_bands : forall (ind : indicator F) fl rows,
  match ind with
  | BbM _ _ | BbH _ _ | BbL _ _ | BbW _ _ | BbP _ _ | BbHI _ _ | BbLI _ _ 
  | DcH _ _ | DcL _ _ | DcM _ _ | DcW _ _ | DcP _ _ | Ulcer _ => True | _ => False end ->
  decides (compute ind fl rows) (failing_check ind fl rows).
Proof.
  intros ind fl rows H. destruct ind; try contradiction; simple;
  unfold bollinger_mavg, bollinger_hband, bollinger_lband, bollinger_wband, bollinger_pband,
    bollinger_hband_indicator, bollinger_lband_indicator, bollinger_run, donchian_channel_hband,
    donchian_channel_lband, donchian_channel_mband, donchian_channel_wband, donchian_channel_pband,
    donchian_run, ulcer_index, donchian_minp;
  destruct fl; atoms; subst; settle.
Qed.

Lemma raises_keltner : forall (ind : indicator F) fl rows,
  match ind with
  | Atr _ | KcM _ _ _ _ | KcH _ _ _ _ | KcL _ _ _ _ | KcW _ _ _ _ | KcP _ _ _ _ | KcHI _ _ _ _
  | KcLI _ _ _ _ => True | _ => False end ->
  decides (compute ind fl rows) (failing_check ind fl rows).
Proof.
  intros ind fl rows H.
  assert (HA : forall w, decides
     (average_true_range (map b_high rows) (map b_low rows) (map b_close rows) w fl)
     (if (Z.of_nat (length rows) <? Z.max w (1 - w))%Z then Some IndexError else None)).
  { intros w. unfold average_true_range. rewrite map_length.
    destruct (Z.leb_spec w 0).
    { destruct (Z.ltb_spec (Z.of_nat (length rows)) (Z.max w (1 - w))), (Z.ltb_spec (Z.of_nat (length rows)) (1 - w)); try lia;
      cbn [decides]; [reflexivity|eexists; reflexivity]. }
    destruct (Z.ltb_spec (Z.of_nat (length rows)) (Z.max w (1 - w))), (Nat.ltb_spec (length rows) (Z.to_nat w)); try lia;
    cbn [decides]; [reflexivity|eexists; reflexivity]. }
  destruct ind; try contradiction; simple;
  [ specialize (HA window); destruct (_ <? _)%Z; exact HA | .. ];
  (unfold keltner_channel_mband, keltner_channel_hband, keltner_channel_lband, keltner_channel_wband,
    keltner_channel_pband, keltner_channel_hband_indicator, keltner_channel_lband_indicator, keltner_run;
   destruct original_version; cbn [first_failure];
   [ destruct fl; atoms; subst; settle
   | specialize (HA window_atr); destruct (Z.ltb_spec window 1);
     [ settle
     | destruct (span_good window (if fl then 1 else window)%Z (map b_close rows)) as [r E]; [lia|];
       rewrite E; cbn [bind]; destruct (_ <? _)%Z; cbn [decides] in HA |- *;
       [rewrite HA; reflexivity|destruct HA as [a ->]; cbn [bind]; eexists; reflexivity]] ]).
Qed.

Lemma raises_volume : forall (ind : indicator F) fl rows,
  match ind with
  | Adi | Obv | Cmf _ | Fi _ | Eom _ | SmaEom _ | Vpt _ _ | Nvi | Mfi _ | Vwap _ | DailyReturn
  | DailyLogReturn _ | CumReturn | Psar _ _ _ | PsarUp _ _ _ | PsarDown _ _ _ | PsarUpInd _ _ _
  | PsarDownInd _ _ _ => True | _ => False end ->
  decides (compute ind fl rows) (failing_check ind fl rows).
Proof.
  intros ind fl rows H. destruct ind; try contradiction; simple;
  unfold acc_dist_index, on_balance_volume, chaikin_money_flow, force_index, ease_of_movement,
   sma_ease_of_movement, volume_price_trend, negative_volume_index, money_flow_index,
   volume_weighted_average_price, daily_return, daily_log_return, cumulative_return, ema_,
   psar, psar_up, psar_down, psar_up_indicator, psar_down_indicator, psar_run, empty_bad;
  try (destruct rows; cbn [map length first_failure decides Nat.eqb bind]; first [reflexivity|eexists; reflexivity]);
  try (destruct smoothing_factor; cbn [first_failure]);
  destruct fl; atoms; subst; try lia; settle.
Qed.

Lemma obs_prep_number : forall (s : list F), fisnan (fnan : F) = true ->
  negb (length (obs (prep s)) =? 0)%nat = existsb is_number s.
Proof.
  intros s Hn. induction s as [|x s IH]; [reflexivity|].
  cbn [prep map obs filter existsb]. unfold is_number at 1. change (map _ s) with (prep s).
  destruct (fisinf x) eqn:Ei.
  - rewrite Hn. cbn [negb andb orb]. rewrite andb_false_r. exact IH.
  - destruct (fisnan x); cbn [negb andb orb]; [exact IH|reflexivity].
Qed.

Lemma raises_aroon : forall (ind : indicator F) fl rows, fisnan (fnan : F) = true ->
  match ind with AroonUp _ | AroonDown _ | AroonInd _ => True | _ => False end ->
  decides (compute ind fl rows) (failing_check ind fl rows).
Proof.
  intros ind fl rows Hn H.
  assert (HR : forall w, decides (aroon_run (map b_high rows) (map b_low rows) w fl)
    (first_failure [((w <? -1)%Z || ((w =? -1)%Z && (fl || negb (length rows =? 0)%nat)), ValueError);
     ((w =? 0)%Z && (existsb is_number (map b_high rows) || existsb is_number (map b_low rows)),
      ZeroDivisionError)])).
  { intros w. unfold aroon_run. rewrite !obs_prep_number, !map_length by assumption.
    cbn [first_failure].
    destruct (Z.ltb_spec w (-1)); cbn [orb].
    { destruct fl; settle. }
    destruct (Z.eqb_spec w (-1)); cbn [andb].
    { subst w. destruct fl; cbn [orb]; [settle|].
      destruct (length rows =? 0)%nat; cbn [negb orb]; settle. }
    destruct fl; repeat one_call; (destruct (Z.eqb_spec w 0); cbn [andb];
      [destruct (_ || _)|]; cbn [decides]; [reflexivity|eexists; reflexivity|eexists; reflexivity]). }
  destruct ind; try contradiction; specialize (HR window);
  unfold failing_check; cbn [compute]; unfold aroon_up, aroon_down, aroon_indicator;
  (destruct (first_failure _); cbn [decides] in HR |- *;
   [rewrite HR; reflexivity | destruct HR as [[u d] ->]; cbn [bind]; eexists; reflexivity]).
Qed.

Lemma adx_smooth_length : forall w m (x : list F), 1 <= m -> length x = m + w - 1 -> 1 <= w ->
  length (adx_smooth w m x) = m.
Proof.
  intros. unfold adx_smooth. destruct (Nat.eqb_spec m 1); [cbn; lia|].
  cbn [length]. rewrite app_length, len_smooth_go, skipn_length. cbn [length]. lia.
Qed.

Lemma adx_run_cases : forall (rows : list (bar F)) w,
  match first_failure [((w <=? 0)%Z, ValueError); ((Z.of_nat (length rows) <? w - 1)%Z, ValueError);
                ((Z.of_nat (length rows) =? w - 1)%Z, IndexError)] with
  | Some e => adx_run (map b_high rows) (map b_low rows) (map b_close rows) w = Raise e
  | None => exists st, adx_run (map b_high rows) (map b_low rows) (map b_close rows) w = Ok st /\
       length (adx_trs st) = length rows + 1 - Z.to_nat w
  end.
Proof.
  intros. unfold adx_run. cbn [first_failure get_min_max bind]. rewrite map_length.
  destruct (Z.leb_spec w 0).
  { destruct (Z.eqb_spec w 0); [reflexivity|].
    destruct (Z.ltb_spec w 0); [reflexivity|lia]. }
  destruct (Z.eqb_spec w 0); [lia|]. destruct (Z.ltb_spec w 0); [lia|]. cbn [orb].
  destruct (Z.ltb_spec (Z.of_nat (length rows)) (w - 1)),
    (Z.ltb_spec (Z.of_nat (length rows) - (w - 1)) 0); try lia; [reflexivity|].
  destruct (Z.eqb_spec (Z.of_nat (length rows)) (w - 1)),
    (Z.eqb_spec (Z.of_nat (length rows) - (w - 1)) 0); try lia; [reflexivity|].
  eexists. split; [reflexivity|]. cbn [adx_trs].
  rewrite adx_smooth_length; try lia.
  unfold ssub. rewrite !length_map2, len_shift, !map_length. lia.
Qed.

Lemma raises_adx : forall (ind : indicator F) fl rows,
  match ind with Adx _ | AdxPos _ | AdxNeg _ => True | _ => False end ->
  decides (compute ind fl rows) (failing_check ind fl rows).
Proof.
  intros ind fl rows H. destruct ind; try contradiction; pose proof (adx_run_cases rows window) as HR;
  unfold failing_check; cbn [compute]; unfold adx, adx_pos, adx_neg.
  - cbn [app first_failure] in HR |- *.
    destruct (Z.leb_spec window 0); [rewrite HR; reflexivity|].
    destruct (Z.of_nat (length rows) <? window - 1)%Z; [rewrite HR; reflexivity|].
    destruct (Z.of_nat (length rows) =? window - 1)%Z eqn:E; [rewrite HR; reflexivity|].
    destruct HR as (st & -> & L). cbn [bind]. rewrite L.
    destruct (Z.ltb_spec (Z.of_nat (length rows)) (2 * window)),
      (Nat.leb_spec (length rows + 1 - Z.to_nat window) (Z.to_nat window)); try lia;
    cbn [decides]; [reflexivity|eexists; reflexivity].
  - destruct (first_failure _); cbn [decides]; [now rewrite HR|].
    destruct HR as (st & -> & _). eexists; reflexivity.
  - destruct (first_failure _); cbn [decides]; [now rewrite HR|].
    destruct HR as (st & -> & _). eexists; reflexivity.
Qed.

(** C11 *)
Lemma raises_exactly : forall (ind : indicator F) fl rows,
  fisnan (fnan : F) = true ->
  match failing_check ind fl rows with
  | Some e => compute ind fl rows = Raise e
  | None => exists out, compute ind fl rows = Ok out
  end.
Proof.
  intros ind fl rows Hn. change (decides (compute ind fl rows) (failing_check ind fl rows)).
  destruct ind eqn:E;
  try (apply raises_momentum; exact I); try (apply raises_ppo; exact I); try (apply raises_kst; exact I);
  try (apply raises_bands; exact I); try (apply raises_keltner; exact I);
  try (apply raises_volume; exact I); try (apply raises_aroon; [exact Hn|exact I]);
  apply raises_adx; exact I.
Qed.

Lemma get_min_max_raises : forall (a b : list F) f,
  (f = FnOther -> get_min_max a b f = Raise ValueError) /\
  (f <> FnOther -> exists r, get_min_max a b f = Ok r).
Proof. intros a b [| |]; split; intros H; try congruence; cbn; eauto. Qed.
End Main.
