(** * Linear: lemmas for C77 (superposition) and C78 (monotonicity) *)
From Coq Require Import Reals Lra.
From Verif Require Import Lists Api SpecNum Tab Averages TrueRange Bands Channels Oscillators Cycles SpecLinear.
Local Open Scope R_scope.

Lemma mix_from : forall a b n k f g, mix a b (Ok (tab n (from k f))) (Ok (tab n (from k g))) =
  Ok (tab n (from k (fun i => a * f i + b * g i))).
Proof.
  intros. cbn [mix]. rewrite map2_tab. f_equal. apply tab_ext. intros i _. unfold from, fromx.
  now destruct (_ <? _)%nat.
Qed.
Lemma mix_gaps : forall fl a b n k f g, mix a b (Ok (tab n (gaps fl 0 k f))) (Ok (tab n (gaps fl 0 k g))) =
  Ok (tab n (gaps fl 0 k (fun i => a * f i + b * g i))).
Proof.
  intros. cbn [mix]. rewrite map2_tab. f_equal. apply tab_ext. intros i _. unfold gaps.
  destruct (_ <? _)%nat, fl; try reflexivity. cbn. f_equal. ring.
Qed.
Lemma wmean_lin : forall w a b f g i, (1 <= w)%nat -> wmean w (fun j => a * f j + b * g j) i = a * wmean w f i + b * wmean w g i.
Proof.
  intros. unfold wmean, wsum. rewrite rsum_lin. field. apply not_0_INR. unfold wlen. lia.
Qed.
Lemma exp_lin : forall al a b f g k j, exp_go al (fun i => a * f i + b * g i) k j = a * exp_go al f k j + b * exp_go al g k j.
Proof. induction j; cbn [exp_go]; [ring|]. rewrite IHj. ring. Qed.
Lemma ema_lin : forall w a b f g k i, ema w (fun j => a * f j + b * g j) k i = a * ema w f k i + b * ema w g k i.
Proof. intros. apply exp_lin. Qed.

Section Lin.
Variables (a b : R) (n : nat) (h l c v h' l' c' v' : nat -> R) (fl : bool).
Notation m f g := (fun i => a * f i + b * g i).
Notation F1 := (frame n h l c v).
Notation F2 := (frame n h' l' c' v').
Notation F3 := (frame n (m h h') (m l l') (m c c') (m v v')).

Ltac close_from := rewrite mix_from; f_equal; unfold from; apply fromx_ext; intros i Hi; f_equal.
Ltac close_gaps := rewrite mix_gaps; f_equal; apply tab_ext; intros i Hi; unfold gaps; destruct (_ <? _)%nat; [reflexivity|f_equal].
Ltac rw L := rewrite L; rewrite L; rewrite L.

Lemma lin_macd : forall s f g, (1 <= s)%nat -> (1 <= f)%nat -> (1 <= g)%nat ->
  let call ind rows := compute (ind (Z.of_nat s) (Z.of_nat f) (Z.of_nat g)) fl rows in
  call Macd F3 = mix a b (call Macd F1) (call Macd F2) /\
  call MacdSignal F3 = mix a b (call MacdSignal F1) (call MacdSignal F2) /\
  call MacdDiff F3 = mix a b (call MacdDiff F1) (call MacdDiff F2).
Proof.
  intros s f g Hs Hf Hg call. unfold call.
  destruct (macd_formula fl s f g n h l c v Hs Hf Hg) as (E1 & E2 & E3).
  destruct (macd_formula fl s f g n h' l' c' v' Hs Hf Hg) as (E1' & E2' & E3').
  destruct (macd_formula fl s f g n (m h h') (m l l') (m c c') (m v v') Hs Hf Hg) as (E1'' & E2'' & E3'').
  rewrite E1, E2, E3, E1', E2', E3', E1'', E2'', E3''. clear.
  assert (X : forall k i, ema g (fun i0 => ema f (m c c') 0 i0 - ema s (m c c') 0 i0) k i =
    a * ema g (fun i0 => ema f c 0 i0 - ema s c 0 i0) k i + b * ema g (fun i0 => ema f c' 0 i0 - ema s c' 0 i0) k i).
  { intros. rewrite <- ema_lin. apply exp_ext. intros. rewrite !ema_lin. ring. }
  repeat split; close_gaps.
  - rewrite !ema_lin. ring.
  - apply X.
  - rewrite X, !ema_lin. ring.
Qed.
Lemma lin_keltner : forall w x y, (1 <= w)%nat ->
  let call ind rows := compute (ind (Z.of_nat w) x true y) fl rows in
  call KcM F3 = mix a b (call KcM F1) (call KcM F2) /\
  call KcH F3 = mix a b (call KcH F1) (call KcH F2) /\
  call KcL F3 = mix a b (call KcL F1) (call KcL F2).
Proof.
  intros w x y Hw call. unfold call.
  destruct (kc_bands_original fl w x y n h l c v Hw) as (E1 & E2 & E3 & _).
  destruct (kc_bands_original fl w x y n h' l' c' v' Hw) as (E1' & E2' & E3' & _).
  destruct (kc_bands_original fl w x y n (m h h') (m l l') (m c c') (m v v') Hw) as (E1'' & E2'' & E3'' & _).
  rewrite E1, E2, E3, E1', E2', E3', E1'', E2'', E3''.
  assert (X : forall i, wmean w (typical (m h h') (m l l') (m c c')) i = a * wmean w (typical h l c) i + b * wmean w (typical h' l' c') i).
  { intros. rewrite <- wmean_lin by auto. unfold wmean, wsum. f_equal. apply rsum_ext. intros. unfold typical. field. }
  assert (Y : forall i, wmean w (fun j => a * h j + b * h' j - (a * l j + b * l' j)) i = a * wmean w (fun i => h i - l i) i + b * wmean w (fun i => h' i - l' i) i).
  { intros. rewrite <- wmean_lin by auto. unfold wmean, wsum. f_equal. apply rsum_ext. intros. field. }
  repeat split; close_from; rewrite ?X, ?Y; ring.
Qed.
Lemma mean_of_lin : forall f g, mean_of 0 n (m f g) = a * mean_of 0 n f + b * mean_of 0 n g.
Proof. intros. unfold mean_of. rewrite rsum_lin. unfold Rdiv. ring. Qed.

Lemma superpose : forall ind, linear ind = true ->
  compute ind fl F3 = mix a b (compute ind fl F1) (compute ind fl F2).
Proof.
  assert (P : forall w, (1 <=? w)%Z = true -> exists k, w = Z.of_nat k /\ (1 <= k)%nat).
  { intros w H. apply Z.leb_le in H. exists (Z.to_nat w). lia. }
  intros ind H. destruct ind; try discriminate; cbn [linear] in H;
    repeat match goal with H : (_ && _)%bool = true |- _ => apply andb_prop in H as [? ?] end;
    repeat match goal with
    | H : match ?x with _ => _ end = true |- _ => destruct x; try discriminate
    | H : (1 <=? ?w)%Z = true |- _ => destruct (P w H) as (? & -> & ?); clear H
    end.
  - rewrite !ao_formula by auto. close_from.
    assert (X : forall w i, (1 <= w)%nat -> wmean w (fun j => (m h h' j + m l l' j) / 2) i =
      a * wmean w (fun j => (h j + l j) / 2) i + b * wmean w (fun j => (h' j + l' j) / 2) i).
    { intros. rewrite <- wmean_lin by auto. unfold wmean, wsum. f_equal. apply rsum_ext. intros. field. }
    rewrite !X by auto. ring.
  - apply lin_macd; auto.
  - apply lin_macd; auto.
  - apply lin_macd; auto.
  - rewrite !ema_formula by auto. close_from. apply ema_lin.
  - rewrite !sma_formula by auto. close_from. now apply wmean_lin.
  - rewrite !wma_formula by auto. close_gaps. unfold wma_value.
    rewrite (rsum_ext _ (fun j => a * (INR (S j) * c (S i - x + j)%nat) + b * (INR (S j) * c' (S i - x + j)%nat))) by (intros; ring).
    rewrite rsum_lin. unfold Rdiv. ring.
  - rewrite !dpo_formula by auto. close_from. rewrite wmean_lin by auto. unfold back.
    destruct (_ <? _)%nat; rewrite ?mean_of_lin; ring.
  - destruct (bb_formula fl x r n h l c v H0) as (E1 & _). destruct (bb_formula fl x r n h' l' c' v' H0) as (E2 & _).
    destruct (bb_formula fl x r n (m h h') (m l l') (m c c') (m v v') H0) as (E3 & _).
    rewrite E1, E2, E3. close_from. now apply wmean_lin.
  - now apply lin_keltner.
  - now apply lin_keltner.
  - now apply lin_keltner.
Qed.
End Lin.

(** ** C78 *)
Definition cell_below (x y : xr) : Prop := match x, y with Fin p, Fin q => p <= q | NaN, NaN => True | _, _ => False end.
Lemma forall2_tab : forall n (f g : nat -> xr), (forall i, (i < n)%nat -> cell_below (f i) (g i)) -> Forall2 cell_below (tab n f) (tab n g).
Proof.
  intros n f g H. unfold tab. assert (G : forall i, In i (seq 0 n) -> cell_below (f i) (g i)) by (intros i Hi; apply in_seq in Hi; apply H; lia).
  induction (seq 0 n); cbn; constructor; auto; [apply G; now left|]. apply IHl. intros. apply G. now right.
Qed.
Lemma below_from : forall n k f g, (forall i, (k <= i < n)%nat -> f i <= g i) -> nowhere_above (Ok (tab n (from k f))) (Ok (tab n (from k g))).
Proof.
  intros. do 2 eexists. split; [reflexivity|]. split; [reflexivity|]. apply (forall2_tab n (from k f) (from k g)). intros i Hi. unfold from, fromx.
  destruct (Nat.ltb_spec i k); cbn; auto.
Qed.
Lemma below_gaps : forall fl n k f g, (forall i, (k <= i < n)%nat -> f i <= g i) -> nowhere_above (Ok (tab n (gaps fl 0 k f))) (Ok (tab n (gaps fl 0 k g))).
Proof.
  intros. do 2 eexists. split; [reflexivity|]. split; [reflexivity|]. apply (forall2_tab n (gaps fl 0 k f) (gaps fl 0 k g)). intros i Hi. unfold gaps.
  destruct (Nat.ltb_spec i k), fl; cbn; auto. lra.
Qed.

Section Mono.
Variables (n : nat) (h l c v h' l' c' v' : nat -> R) (fl : bool).
Hypotheses (Hh : forall i, (i < n)%nat -> h i <= h' i) (Hl : forall i, (i < n)%nat -> l i <= l' i) (Hc : forall i, (i < n)%nat -> c i <= c' i).
Notation F1 := (frame n h l c v).
Notation F2 := (frame n h' l' c' v').

Lemma wmean_mono : forall w f g i, (i < n)%nat -> (1 <= w)%nat -> (forall j, (j < n)%nat -> f j <= g j) -> wmean w f i <= wmean w g i.
Proof.
  intros w f g i Hi Hw H. unfold wmean, wsum, Rdiv. apply Rmult_le_compat_r.
  - left. apply Rinv_0_lt_compat, lt_0_INR. unfold wlen. lia.
  - apply rsum_le. intros j Hj. apply H. unfold wlo, wlen in Hj. lia.
Qed.
Lemma ema_mono : forall w f g i, (i < n)%nat -> (1 <= w)%nat -> (forall j, (j < n)%nat -> f j <= g j) -> ema w f 0 i <= ema w g 0 i.
Proof.
  intros w f g i Hi Hw H. unfold ema, expavg. rewrite Nat.sub_0_r.
  assert (S0 : 0 < 2 / (INR w + 1) <= 1).
  { apply (le_INR 1) in Hw. cbn in Hw. split; [apply Rdiv_lt_0_compat; lra|].
    apply Rmult_le_reg_r with (INR w + 1); [lra|]. field_simplify; lra. }
  revert Hi. induction i; intros Hi; cbn [exp_go]; [apply H; auto|].
  specialize (IHi ltac:(lia)). specialize (H (0 + S i)%nat Hi). nra.
Qed.
Lemma wmax_mono : forall w f g i, (i < n)%nat -> (1 <= w)%nat -> (forall j, (j < n)%nat -> f j <= g j) -> wmax w f i <= wmax w g i.
Proof.
  intros w f g i Hi Hw H. destruct (wmax_att w f i Hw) as (j & Hj & ->).
  apply Rle_trans with (g j); [apply H; lia|now apply wmax_ge].
Qed.
Lemma wmin_mono : forall w f g i, (i < n)%nat -> (1 <= w)%nat -> (forall j, (j < n)%nat -> f j <= g j) -> wmin w f i <= wmin w g i.
Proof.
  intros w f g i Hi Hw H. destruct (wmin_att w g i Hw) as (j & Hj & ->).
  apply Rle_trans with (f j); [now apply wmin_le|apply H; lia].
Qed.
Lemma midrange_mono : forall w i, (i < n)%nat -> (1 <= w)%nat -> midrange w h l i <= midrange w h' l' i.
Proof.
  intros w i Hi Hw. unfold midrange. pose proof (wmax_mono w h h' i Hi Hw Hh). pose proof (wmin_mono w l l' i Hi Hw Hl). lra.
Qed.

Lemma raised : forall ind, monotone ind = true -> nowhere_above (compute ind fl F1) (compute ind fl F2).
Proof.
  assert (P : forall w, (1 <=? w)%Z = true -> exists k, w = Z.of_nat k /\ (1 <= k)%nat).
  { intros w H. apply Z.leb_le in H. exists (Z.to_nat w). lia. }
  intros ind H. destruct ind; try discriminate; cbn [monotone] in H;
    repeat match goal with
    | H : match ?x with _ => _ end = true |- _ => destruct x; try discriminate
    end;
    repeat match goal with H : (_ && _)%bool = true |- _ => apply andb_prop in H as [? ?] end;
    repeat match goal with
    | H : (1 <=? ?w)%Z = true |- _ => destruct (P w H) as (? & -> & ?); clear H
    end.
  - rewrite !ema_formula by auto. apply below_from. intros. apply ema_mono; auto; lia.
  - rewrite !sma_formula by auto. apply below_from. intros. apply wmean_mono; auto; lia.
  - rewrite !wma_formula by auto. apply below_gaps. intros i Hi. unfold wma_value, Rdiv. apply Rmult_le_compat_r.
    + left. apply Rinv_0_lt_compat. apply (le_INR 1) in H0. cbn in H0. nra.
    + apply rsum_le. intros j Hj. apply Rmult_le_compat_l; [apply pos_INR|apply Hc; lia].
  - destruct (ichi_formula fl x1 x0 x visual n h l c v) as (E1 & _); auto.
    destruct (ichi_formula fl x1 x0 x visual n h' l' c' v') as (E2 & _); auto.
    rewrite E1, E2. apply below_from. intros. apply midrange_mono; auto; lia.
  - destruct (ichi_formula fl x1 x0 x visual n h l c v) as (_ & E1 & _); auto.
    destruct (ichi_formula fl x1 x0 x visual n h' l' c' v') as (_ & E2 & _); auto.
    rewrite E1, E2. apply below_from. intros. apply midrange_mono; auto; lia.
  - destruct (ichi_formula fl x1 x0 x false n h l c v) as (_ & _ & E1 & _); auto.
    destruct (ichi_formula fl x1 x0 x false n h' l' c' v') as (_ & _ & E2 & _); auto.
    rewrite E1, E2. apply below_from. intros i Hi.
    pose proof (midrange_mono x1 i ltac:(lia) ltac:(auto)). pose proof (midrange_mono x0 i ltac:(lia) ltac:(auto)). lra.
  - destruct (ichi_formula fl x1 x0 x false n h l c v) as (_ & _ & _ & E1); auto.
    destruct (ichi_formula fl x1 x0 x false n h' l' c' v') as (_ & _ & _ & E2); auto.
    rewrite E1, E2. apply below_from. intros. apply midrange_mono; auto; lia.
  - destruct (bb_formula fl x r n h l c v H0) as (E1 & _). destruct (bb_formula fl x r n h' l' c' v' H0) as (E2 & _).
    rewrite E1, E2. apply below_from. intros. apply wmean_mono; auto; lia.
  - destruct (kc_bands_original fl x window_atr multiplier n h l c v H0) as (E1 & _).
    destruct (kc_bands_original fl x window_atr multiplier n h' l' c' v' H0) as (E2 & _).
    rewrite E1, E2. apply below_from. intros. apply wmean_mono; auto; [lia|]. intros j Hj. unfold typical.
    specialize (Hh j Hj). specialize (Hl j Hj). specialize (Hc j Hj). lra.
  - destruct (dc_bands fl x n h l c v H0) as (E1 & _). destruct (dc_bands fl x n h' l' c' v' H0) as (E2 & _).
    rewrite E1, E2. apply below_from. intros. apply wmax_mono; auto; lia.
  - destruct (dc_bands fl x n h l c v H0) as (_ & E1 & _). destruct (dc_bands fl x n h' l' c' v' H0) as (_ & E2 & _).
    rewrite E1, E2. apply below_from. intros. apply wmin_mono; auto; lia.
  - destruct (dc_bands fl x n h l c v H0) as (_ & _ & E1). destruct (dc_bands fl x n h' l' c' v' H0) as (_ & _ & E2).
    rewrite E1, E2. apply below_from. intros i Hi.
    pose proof (wmax_mono x h h' i ltac:(lia) H0 Hh). pose proof (wmin_mono x l l' i ltac:(lia) H0 Hl). lra.
Qed.
End Mono.

Lemma hband_not_monotone : exists n h l c v l', (forall i, (i < n)%nat -> l i <= l' i <= h i) /\
  ~ nowhere_above (compute (KcH 1 1 true (Fin 2)) false (frame n h l c v)) (compute (KcH 1 1 true (Fin 2)) false (frame n h l' c v)).
Proof.
  exists 1%nat, (fun _ => 3), (fun _ => 0), (fun _ => 3), (fun _ => 1), (fun _ => 3). split; [intros; lra|].
  pose proof (kc_bands_original false 1 1 (Fin 2) 1 (fun _ => 3) (fun _ => 0) (fun _ => 3) (fun _ => 1) ltac:(auto)) as (_ & E1 & _).
  pose proof (kc_bands_original false 1 1 (Fin 2) 1 (fun _ => 3) (fun _ => 3) (fun _ => 3) (fun _ => 1) ltac:(auto)) as (_ & E2 & _).
  change (Z.of_nat 1) with 1%Z in E1, E2. rewrite E1, E2. intros (o & o' & X & Y & Z0).
  injection X as <-. injection Y as <-. inversion Z0 as [|x y p q Hxy]. unfold wmean, wsum, typical in Hxy. cbn in Hxy. lra.
Qed.
