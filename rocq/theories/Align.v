(** * Align: lengths of every operation and of every indicator (C01). *)
From Verif Require Import Lists Api SpecCausal.

Section Align.
Context {F : Type} {A : Arith F}.

Lemma len_map2 : forall (f : F -> F -> F) l m, length l = length m -> length (map2 f l m) = length l.
Proof. intros. rewrite length_map2. lia. Qed.

Lemma len_shift_fill : forall n x (s : list F), length (shift_fill n x s) = length s.
Proof.
  intros. unfold shift_fill. destruct (0 <=? n)%Z;
  rewrite app_length, repeat_length; [rewrite firstn_length|rewrite skipn_length]; lia.
Qed.
Lemma len_shift : forall n (s : list F), length (shift n s) = length s.
Proof. intros; apply len_shift_fill. Qed.
Lemma len_prep : forall (s : list F), length (prep s) = length s.
Proof. intros; apply map_length. Qed.
Lemma len_run : forall S put take (st : S) w (s : list F), length (run put take st w s) = length s.
Proof.
  intros. unfold run. assert (E := len_shift (Z.of_nat w) s). revert E. generalize (shift (Z.of_nat w) s). revert st.
  induction s; intros st l E; destruct l; try discriminate E; [reflexivity|]. cbn. injection E as E. f_equal. now apply IHs.
Qed.
Lemma len_roll_rows : forall w m agg (p : list F), length (roll_rows w m agg p) = length p.
Proof. intros. destruct agg; cbn [roll_rows]; rewrite ?length_map2, ?len_run, ?map_length, seq_length; lia. Qed.
Lemma len_rolling : forall w m agg (s r : list F), rolling w m agg s = Ok r -> length r = length s.
Proof.
  unfold rolling; intros. destruct (_ || _); inversion H; subst. now rewrite len_roll_rows, len_prep.
Qed.
Lemma len_ewm_go : forall s al m n a (o : F), length (ewm_go al m n a o s) = length s.
Proof.
  induction s; intros; simpl; auto.
  destruct (if negb (fisnan a0) then _ else _). simpl. now rewrite IHs.
Qed.
Lemma len_ewm_com : forall c m (s : list F), length (ewm_com c m s) = length s.
Proof. intros. unfold ewm_com. now rewrite len_ewm_go, len_prep. Qed.
Lemma len_ewm_span : forall w m (s r : list F), ewm_span w m s = Ok r -> length r = length s.
Proof. unfold ewm_span; intros. destruct (_ <? _)%Z; inversion H. apply len_ewm_com. Qed.
Lemma len_ewm_inv : forall w m (s r : list F), ewm_inv_alpha w m s = Ok r -> length r = length s.
Proof.
  unfold ewm_inv_alpha; intros. destruct (_ =? _)%Z; [discriminate|].
  destruct (_ <? _)%Z; inversion H. apply len_ewm_com.
Qed.
Lemma len_cumsum : forall (s : list F), length (cumsum s) = length s.
Proof.
  unfold cumsum. intros s. generalize (fofZ 0). induction s; intros; simpl; auto.
  destruct (fisnan a); simpl; now rewrite IHs.
Qed.
Lemma len_ffill : forall (s : list F), length (ffill s) = length s.
Proof. unfold ffill. intros s. generalize fnan. induction s; intros; simpl; auto. Qed.
Lemma len_bfill : forall (s : list F), length (bfill s) = length s.
Proof. induction s; simpl; auto. Qed.
Lemma len_np_roll : forall k (s : list F), length (np_roll k s) = length s.
Proof.
  unfold np_roll; intros. destruct s; auto.
  rewrite app_length, skipn_length, firstn_length. lia.
Qed.
Lemma len_fill_const : forall v (s : list F), length (fillna_const v s) = length s.
Proof. intros; apply map_length. Qed.
Lemma len_pct : forall (s : list F), length (pct_change s) = length s.
Proof.
  intros. unfold pct_change, subs, sdiv.
  rewrite map_length, length_map2, len_shift, len_ffill. lia.
Qed.
Lemma len_check : forall b z (s : list F), length (check_fillna b (FillInt z) s) = length s.
Proof.
  intros. unfold check_fillna, replace_inf. destruct b; auto. destruct (_ =? _)%Z.
  - now rewrite len_bfill, len_ffill, map_length.
  - now rewrite len_fill_const, len_ffill, map_length.
Qed.
Lemma len_check_series : forall b v (s : list F), length v = length s ->
  length (check_fillna b (FillSeries v) s) = length s.
Proof.
  intros. unfold check_fillna. destruct b; auto.
  unfold fillna_series. rewrite length_map2, len_ffill, H. unfold replace_inf.
  rewrite map_length. lia.
Qed.
Lemma len_kama_go : forall sc c b (p : F), length (kama_go sc c b p) = Nat.min (length sc) (length c).
Proof.
  induction sc; destruct c; simpl; intros; auto.
  destruct (fisnan a); [|destruct b]; simpl; now rewrite IHsc.
Qed.
Lemma len_atr_go : forall t w (p : F), length (atr_go w p t) = length t.
Proof. induction t; simpl; intros; auto. Qed.
Lemma len_adx_go : forall t w (p : F), length (adx_go w p t) = length t.
Proof. induction t; simpl; intros; auto. Qed.
Lemma len_smooth_go : forall t w (p : F), length (adx_smooth_go w p t) = length t.
Proof. induction t; simpl; intros; auto. Qed.
Lemma len_nvi_go : forall c p vp v, length (@nvi_go F A p c vp v) =
  Nat.min (length c) (Nat.min (length vp) (length v)).
Proof. induction c; destruct vp, v; simpl; intros; auto. Qed.
Lemma len_upd : forall {B} n v (l : list B), length (upd n v l) = length l.
Proof. induction n; destruct l; simpl; auto. Qed.

Lemma len_tl : forall {B} (l : list B), length (tl l) = length l - 1.
Proof. destruct l; simpl; lia. Qed.

End Align.

Ltac len_unf :=
  unfold true_range, diff1, sadd, ssub, smul, sdiv, scal, divs, subs, muls, replace_inf in * .

Ltac len_rw := repeat progress
  rewrite ?len_check, ?map_length, ?length_map2, ?length_map3, ?len_shift_fill, ?len_shift, ?len_prep,
   ?len_cumsum, ?len_ffill, ?len_bfill, ?len_np_roll, ?len_fill_const, ?len_pct, ?len_kama_go,
   ?len_upd, ?app_length, ?repeat_length, ?skipn_length, ?firstn_length, ?seq_length,
   ?len_atr_go, ?len_adx_go, ?len_smooth_go, ?len_nvi_go, ?len_tl, ?len_ewm_com.

(** split the monadic binds of a successful call *)
Ltac inv_ok :=
  repeat match goal with
  | H : Ok _ = Ok _ |- _ => inversion H; clear H; subst
  | H : Raise _ = Ok _ |- _ => discriminate H
  | H : bind ?m _ = Ok _ |- _ =>
      let E := fresh "E" in let r := fresh "r" in
      destruct m as [r|] eqn:E; cbn [bind] in H; [|discriminate H]
  | H : rmap _ ?m = Ok _ |- _ =>
      let E := fresh "E" in let r := fresh "r" in
      destruct m as [r|] eqn:E; cbn [rmap] in H; [|discriminate H]
  | H : (if ?b then _ else _) = Ok _ |- _ => let E := fresh "E" in destruct b eqn:E
  | H : match ?p with pair _ _ => _ end = Ok _ |- _ => destruct p; cbn beta iota in H
  end.

Section LenN.
Context {F : Type} {A : Arith F}.
Lemma ln_map2 : forall {B C D} (f : B -> C -> D) l m n, length l = n -> length m = n ->
  length (map2 f l m) = n.
Proof. intros. rewrite length_map2. lia. Qed.
Lemma ln_map3 : forall {B C D E} (f : B -> C -> D -> E) l m k n,
  length l = n -> length m = n -> length k = n -> length (map3 f l m k) = n.
Proof. intros. rewrite length_map3. lia. Qed.
Lemma ln_map : forall {B C} (f : B -> C) l n, length l = n -> length (map f l) = n.
Proof. intros. now rewrite map_length. Qed.
Lemma ln_sadd : forall (l m : list F) n, length l = n -> length m = n -> length (sadd l m) = n.
Proof. intros. now apply ln_map2. Qed.
Lemma ln_ssub : forall (l m : list F) n, length l = n -> length m = n -> length (ssub l m) = n.
Proof. intros. now apply ln_map2. Qed.
Lemma ln_smul : forall (l m : list F) n, length l = n -> length m = n -> length (smul l m) = n.
Proof. intros. now apply ln_map2. Qed.
Lemma ln_sdiv : forall (l m : list F) n, length l = n -> length m = n -> length (sdiv l m) = n.
Proof. intros. now apply ln_map2. Qed.
Lemma ln_scal : forall c (l : list F) n, length l = n -> length (scal c l) = n.
Proof. intros. now apply ln_map. Qed.
Lemma ln_divs : forall c (l : list F) n, length l = n -> length (divs l c) = n.
Proof. intros. now apply ln_map. Qed.
Lemma ln_subs : forall c (l : list F) n, length l = n -> length (subs l c) = n.
Proof. intros. now apply ln_map. Qed.
Lemma ln_muls : forall c (l : list F) n, length l = n -> length (muls l c) = n.
Proof. intros. now apply ln_map. Qed.
Lemma ln_shift_fill : forall k x (l : list F) n, length l = n -> length (shift_fill k x l) = n.
Proof. intros. now rewrite len_shift_fill. Qed.
Lemma ln_shift : forall k (l : list F) n, length l = n -> length (shift k l) = n.
Proof. intros. now rewrite len_shift. Qed.
Lemma ln_diff1 : forall (l : list F) n, length l = n -> length (diff1 l) = n.
Proof. intros. apply ln_ssub; auto. now apply ln_shift. Qed.
Lemma ln_true_range : forall (h l c : list F) n, length h = n -> length l = n -> length c = n ->
  length (true_range h l c) = n.
Proof. intros. unfold true_range. apply ln_map3; repeat (apply ln_map || apply ln_ssub); auto. Qed.
Lemma ln_check : forall b z (l : list F) n, length l = n -> length (check_fillna b (FillInt z) l) = n.
Proof. intros. now rewrite len_check. Qed.
Lemma ln_check_series : forall b v (l : list F) n, length v = n -> length l = n ->
  length (check_fillna b (FillSeries v) l) = n.
Proof. intros. rewrite len_check_series; congruence. Qed.
Lemma ln_cumsum : forall (l : list F) n, length l = n -> length (cumsum l) = n.
Proof. intros. now rewrite len_cumsum. Qed.
Lemma ln_pct : forall (l : list F) n, length l = n -> length (pct_change l) = n.
Proof. intros. now rewrite len_pct. Qed.
Lemma ln_np_roll : forall k (l : list F) n, length l = n -> length (np_roll k l) = n.
Proof. intros. now rewrite len_np_roll. Qed.
Lemma ln_fill_const : forall v (l : list F) n, length l = n -> length (fillna_const v l) = n.
Proof. intros. now rewrite len_fill_const. Qed.
Lemma ln_kama_go : forall s (c : list F) b p n, length s = n -> length c = n ->
  length (kama_go s c b p) = n.
Proof. intros. rewrite len_kama_go. lia. Qed.
Lemma ln_donchian_offset : forall o (s : list F) n, length s = n -> length (donchian_offset o s) = n.
Proof. intros. unfold donchian_offset. destruct (negb _); auto. now apply ln_shift. Qed.
End LenN.

(** goals [length (...) = n], goal directed *)
Ltac ln := repeat (first
  [ assumption | reflexivity
  | apply ln_check | apply ln_check_series | apply ln_sadd | apply ln_ssub | apply ln_smul
  | apply ln_sdiv | apply ln_scal | apply ln_divs | apply ln_subs | apply ln_muls
  | apply ln_diff1 | apply ln_shift | apply ln_shift_fill | apply ln_true_range
  | apply ln_cumsum | apply ln_pct | apply ln_np_roll | apply ln_fill_const | apply ln_kama_go
  | apply ln_donchian_offset | apply ln_map3 | apply ln_map2 | apply ln_map
  | match goal with
    | E : rolling _ _ _ _ = Ok ?r |- length ?r = _ => rewrite (len_rolling _ _ _ _ _ E)
    | E : ewm_span _ _ _ = Ok ?r |- length ?r = _ => rewrite (len_ewm_span _ _ _ _ E)
    | E : ewm_inv_alpha _ _ _ = Ok ?r |- length ?r = _ => rewrite (len_ewm_inv _ _ _ _ E)
    end ]).

Ltac unf_ind := unfold rsi, tsi, ultimate_oscillator, stoch, stoch_signal, kama, roc,
  awesome_oscillator, williams_r, stochrsi, stochrsi_k, stochrsi_d, ppo, ppo_signal, ppo_hist,
  pvo, pvo_signal, pvo_hist, aroon_up, aroon_down, aroon_indicator, macd, macd_signal, macd_diff,
  ema_indicator, sma_indicator, wma, trix, mass_index, ichimoku_conversion_line, ichimoku_base_line,
  ichimoku_a, ichimoku_b, kst, kst_sig, kst_diff, dpo, cci, adx, adx_pos, adx_neg,
  vortex_indicator_pos, vortex_indicator_neg, vortex_indicator_diff, psar, psar_up, psar_down,
  psar_up_indicator, psar_down_indicator, stc, average_true_range, bollinger_mavg, bollinger_hband,
  bollinger_lband, bollinger_wband, bollinger_pband, bollinger_hband_indicator,
  bollinger_lband_indicator, keltner_channel_mband, keltner_channel_hband, keltner_channel_lband,
  keltner_channel_wband, keltner_channel_pband, keltner_channel_hband_indicator,
  keltner_channel_lband_indicator, donchian_channel_hband, donchian_channel_lband,
  donchian_channel_mband, donchian_channel_wband, donchian_channel_pband, ulcer_index,
  acc_dist_index, on_balance_volume, chaikin_money_flow, force_index, ease_of_movement,
  sma_ease_of_movement, volume_price_trend, negative_volume_index, money_flow_index,
  volume_weighted_average_price, daily_return, daily_log_return, cumulative_return in * .
Ltac unf_run := unfold rsi, rsi_run, tsi_run, uo_run, stoch_run, kama_run, kama_sc, stochrsi_run,
  ppo_run, pvo_run, aroon_run, macd_run, ichimoku_run, kst_run, kst_rocma, vortex_run,
  bollinger_run, keltner_run, donchian_run, stc_stoch, ema_, sma_, emv, clv in * .

Section AlignAll.
Context {F : Type} {A : Arith F}.

Lemma len_setitem_in : forall labels i v (s : list F),
  (forall ls, labels = Some ls -> In (Z.of_nat i) ls /\ length ls = length s) ->
  length (snd (setitem labels i v s)) = length s /\ fst (setitem labels i v s) = labels.
Proof.
  intros. unfold setitem. destruct labels as [ls|].
  - destruct (H ls eq_refl) as [Hi Hl].
    replace (existsb (Z.eqb (Z.of_nat i)) ls) with true.
    + simpl. rewrite length_map2. split; [lia|auto].
    + symmetry. apply existsb_exists. exists (Z.of_nat i). split; auto. apply Z.eqb_refl.
  - simpl. now rewrite len_upd.
Qed.

(** lengths of the three PSAR series *)
Definition psar_ok (n : nat) (labels : option (list Z)) (st : @psar_state F) : Prop :=
  ps_labels st = labels /\ length (ps_psar st) = n /\
  length (ps_up st) = n /\ length (ps_down st) = n.

Lemma psar_step_ok : forall n labels h l s m (st : @psar_state F) i,
  (forall ls, labels = Some ls -> length ls = n /\ forall i, i < n -> In (Z.of_nat i) ls) ->
  i < n -> psar_ok n labels st -> psar_ok n labels (@psar_step F A h l s m st i).
Proof.
  intros n labels h l s m st i HL Hi (E1 & E2 & E3 & E4).
  assert (HS : forall (v : F) p, length p = n ->
     length (snd (setitem labels i v p)) = n /\ fst (setitem labels i v p) = labels).
  { intros. rewrite <- H. apply len_setitem_in. intros ls Els.
    destruct (HL ls Els). split; auto. lia. }
  unfold psar_step. subst labels. unfold psar_ok.
  destruct (ps_up_trend st); cbn zeta.
  - destruct (fltb _ _); cbn; rewrite ?len_upd; auto.
    destruct (fltb _ _); cbn; rewrite ?len_upd; auto.
  - destruct (fltb _ (nth i h fnan)); cbn; rewrite ?len_upd; auto.
    destruct (fltb (nth i l fnan) _); cbn;
    (destruct (fltb _ (nth (i - 2) h fnan));
     [ match goal with |- context [setitem ?a ?b ?c ?d] =>
         specialize (HS c d); rewrite len_upd in HS; destruct (setitem a b c d) end;
       destruct (HS E2); cbn in * ; rewrite ?len_upd; auto
     | cbn; destruct (fltb _ _); rewrite ?len_upd; auto ]).
Qed.

Lemma psar_run_ok : forall h l c labels s m (st : @psar_state F),
  (forall ls, labels = Some ls ->
     length ls = length c /\ forall i, i < length c -> In (Z.of_nat i) ls) ->
  @psar_run F A h l c labels s m = Ok st -> psar_ok (length c) labels st.
Proof.
  unfold psar_run. intros. destruct h; [discriminate|]. injection H0 as <-.
  assert (HH : forall is st, Forall (fun i => i < length c) is -> psar_ok (length c) labels st ->
    psar_ok (length c) labels (fold_left (psar_step (f :: h) l s m) is st)).
  { induction is; simpl; intros; auto. inversion H0; subst.
    apply IHis; auto. apply psar_step_ok; auto. }
  apply HH.
  - apply Forall_forall. intros i Hi. apply in_seq in Hi. lia.
  - unfold psar_ok. simpl. now rewrite !repeat_length.
Qed.

(** psar_up / psar_down keep their length whatever the labels *)
Lemma psar_run_ud : forall h l c labels s m (st : @psar_state F),
  @psar_run F A h l c labels s m = Ok st ->
  length (ps_up st) = length c /\ length (ps_down st) = length c.
Proof.
  unfold psar_run. intros. destruct h; [discriminate|]. injection H as <-.
  assert (HH : forall is st, length (ps_up st) = length c /\ length (ps_down st) = length c ->
    let st' := (fold_left (psar_step (f :: h) l s m) is st) in
    length (ps_up st') = length c /\ length (ps_down st') = length c).
  { induction is; intros; auto. simpl in st'. apply IHis. clear - H.
    unfold psar_step. destruct (ps_up_trend st); cbn zeta.
    - destruct (fltb _ _); cbn; rewrite ?len_upd; auto.
      destruct (fltb _ _); cbn; rewrite ?len_upd; auto.
    - destruct (fltb _ (nth a (f :: h) fnan)); cbn -[nth]; rewrite ?len_upd; auto.
      destruct (fltb (nth a l fnan) _); cbn -[nth];
      (destruct (fltb _ (nth (a - 2) (f :: h) fnan));
       [ destruct (setitem _ _ _ _)|]; cbn -[nth]; rewrite ?len_upd; auto). }
  apply HH. simpl. now rewrite !repeat_length.
Qed.

Lemma psar_indicator_len : forall u s : list F, length u = length s ->
  length (psar_indicator u s) = length s.
Proof. intros. unfold psar_indicator. len_rw. lia. Qed.

Lemma adx_smooth_len : forall w m (x : list F), 1 <= w -> 1 <= m ->
  length x + 1 = m + w -> length (adx_smooth w m x) = m.
Proof.
  intros. unfold adx_smooth. destruct (Nat.eqb_spec m 1); [now subst|].
  cbn [length]. len_rw. cbn [length]. lia.
Qed.

Lemma adx_run_len : forall h l c w st, @adx_run F A h l c w = Ok st ->
  length h = length c -> length l = length c ->
  let m := length c + 1 - Z.to_nat w in
  1 <= Z.to_nat w /\ 1 <= m /\ (Z.of_nat (length c) + 1 - w = Z.of_nat m)%Z /\
  length (adx_trs st) = m /\ length (adx_dip st) = m /\ length (adx_din st) = m.
Proof.
  intros h l c w st H Hh Hl m. unfold adx_run in H.
  destruct (Z.eqb_spec w 0); [discriminate|]. cbn [get_min_max bind] in H.
  destruct (Z.ltb_spec w 0); [discriminate|].
  destruct (Z.ltb_spec (Z.of_nat (length c) - (w - 1)) 0); [discriminate|].
  destruct (Z.eqb_spec (Z.of_nat (length c) - (w - 1)) 0); [discriminate|].
  simpl orb in H. cbn iota in H. injection H as <-. cbn [adx_trs adx_dip adx_din].
  replace (Z.to_nat (Z.of_nat (length c) - (w - 1))) with m by (subst m; lia).
  assert (1 <= Z.to_nat w) by lia. assert (1 <= m) by (subst m; lia).
  assert (m + Z.to_nat w = length c + 1) by (subst m; lia). clearbody m.
  repeat split; auto; try lia;
  (apply adx_smooth_len; auto; len_unf; len_rw; lia).
Qed.

Lemma len_fold_upd : forall {B} (p : nat -> nat) (v : list B -> nat -> B) ks (a : list B),
  length (fold_left (fun a k => upd (p k) (v a k) a) ks a) = length a.
Proof. induction ks; intros; cbn [fold_left]; auto. now rewrite IHks, len_upd. Qed.
Lemma atr_len : forall h l c w b r, length h = length c -> length l = length c ->
  @average_true_range F A h l c w b = Ok r -> length r = length c.
Proof.
  unfold average_true_range. intros.
  destruct (Z.leb_spec w 0).
  { destruct (_ <? _)%Z; [discriminate|]. inv_ok. len_unf. len_rw. unfold atr_wrapped.
    now rewrite len_fold_upd, len_upd, repeat_length. }
  destruct (Nat.ltb_spec (length c) (Z.to_nat w)); [discriminate|].
  inv_ok. len_unf. len_rw. cbn [length]. len_rw. lia.
Qed.

Lemma rsi_len : forall (c : list F) w b r, rsi c w b = Ok r -> length r = length c.
Proof. unfold rsi, rsi_run. intros. inv_ok. ln. Qed.

Lemma adx_line_len : forall w (x t : list F) n, length x = n + 1 - w -> length t = n + 1 - w ->
  1 <= w <= n -> length (adx_line n w x t) = n.
Proof.
  intros. unfold adx_line. rewrite app_length, repeat_length, firstn_length, skipn_length.
  rewrite length_map2, H, H0. lia.
Qed.

Lemma adx_len : forall h l (c : list F) w b r, length h = length c -> length l = length c ->
  adx h l c w b = Ok r -> length r = length c.
Proof.
  unfold adx. intros. inv_ok.
  destruct (adx_run_len _ _ _ _ _ E H H0) as (W & M & _ & L1 & L2 & L3).
  apply Nat.leb_gt in E0. rewrite L1 in E0.
  apply ln_check. rewrite !app_length, !repeat_length. cbn [length]. rewrite len_adx_go.
  rewrite firstn_length, skipn_length, !length_map2, L1, L2, L3. lia.
Qed.

Lemma adx_pos_len : forall h l (c : list F) w b r, length h = length c -> length l = length c ->
  adx_pos h l c w b = Ok r -> length r = length c.
Proof.
  unfold adx_pos. intros. inv_ok.
  destruct (adx_run_len _ _ _ _ _ E H H0) as (W & M & _ & L1 & L2 & L3).
  apply ln_check, adx_line_len; lia.
Qed.

Lemma adx_neg_len : forall h l (c : list F) w b r, length h = length c -> length l = length c ->
  adx_neg h l c w b = Ok r -> length r = length c.
Proof.
  unfold adx_neg. intros. inv_ok.
  destruct (adx_run_len _ _ _ _ _ E H H0) as (W & M & _ & L1 & L2 & L3).
  apply ln_check, adx_line_len; lia.
Qed.

Lemma nvi_len : forall (c v : list F) b r, length v = length c ->
  negative_volume_index c v b = Ok r -> length r = length c.
Proof.
  unfold negative_volume_index. intros. destruct c as [|x c]; [discriminate|].
  remember (pct_change (x :: c)) as pc. assert (L : length pc = length (x :: c)) by (subst; apply len_pct).
  clear Heqpc. inversion H0; clear H0; subst. apply ln_check. cbn [length] in * . rewrite len_nvi_go, !len_tl. lia.
Qed.

Lemma cumret_len : forall (c : list F) b r, cumulative_return c b = Ok r -> length r = length c.
Proof.
  unfold cumulative_return. intros. destruct c as [|x c]; [discriminate|].
  injection H as <-. apply ln_check. unfold muls, subs, divs. cbn [length]. now rewrite !map_length.
Qed.

Lemma compute_length : forall (ind : indicator F) fillna rows out, aligned_scope ind rows ->
  compute ind fillna rows = Ok out -> length out = length rows.
Proof.
  intros ind fillna rows out Hs H.
  assert (Lh := map_length b_high rows). assert (Ll := map_length b_low rows).
  assert (Lc := map_length b_close rows). assert (Lv := map_length b_volume rows).
  destruct ind; cbn [compute] in H;
    try (first [ eapply atr_len in H | eapply adx_len in H | eapply adx_pos_len in H
               | eapply adx_neg_len in H | eapply nvi_len in H | eapply cumret_len in H ]; lia);
    unf_ind; unf_run; inv_ok;
    cbn [bb_mavg bb_hband bb_lband kc_tp kc_high kc_low];
    repeat match goal with
    | H : average_true_range _ _ _ _ _ = Ok _ |- _ => eapply atr_len in H; [|lia|lia]; rewrite Lc in H
    | H : rsi _ _ _ = Ok _ |- _ => apply rsi_len in H; rewrite Lc in H
    | H : psar_run _ _ _ None _ _ = Ok _ |- _ =>
        apply psar_run_ok in H; [|discriminate]; destruct H as (_ & Q1 & Q2 & Q3);
        rewrite Lc in Q1, Q2, Q3
    end;
    repeat match goal with |- context [if ?b then _ else _] => is_var b; destruct b end;
    try solve [ln].
  all: try (destruct int_index;
    [ match goal with H : psar_run _ _ _ _ _ _ = Ok _ |- _ =>
        pose proof H as H'; apply psar_run_ud in H'; destruct H' as [P1 P2] end
    | match goal with H : psar_run _ _ _ _ _ _ = Ok _ |- _ =>
        apply psar_run_ok in H; [|discriminate]; destruct H as (_ & Q1 & P1 & P2) end ];
    rewrite Lc in P1, P2; try solve [apply ln_check; congruence];
    try solve [rewrite psar_indicator_len; congruence]).
  - apply psar_run_ok in E.
    + destruct E as (_ & Q & _). apply ln_check. congruence.
    + intros ls Els. inversion Els. rewrite Lc, map_length. split; auto.
  - destruct Hs.
  - destruct smoothing_factor; inv_ok; ln; rewrite len_ffill; assumption.
Qed.
End AlignAll.
