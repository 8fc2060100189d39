(** * Idle: lemmas of C96, rows on which nothing trades. *)
From Coq Require Import Floats Reals List Lra Lia.
From Verif Require Import Lists Api SpecNum Align Rows Fill Tab Averages Range Oscillators Returns TrueRange Bands Channels Flows Halt SpecIdle.
Local Open Scope R_scope.

Lemma before_S : forall x out i, (1 <= i)%nat -> before x out i = nth (i - 1) out NaN.
Proof. intros x out [|i] H; [lia|]. cbn [before]. now replace (S i - 1)%nat with i by lia. Qed.

(** ** running totals *)
Lemma obv_idle : forall fl n h l c v i out, v i = 0 -> (1 <= i < n)%nat ->
  compute Obv fl (frame n h l c v) = Ok out -> nth i out NaN = nth (i - 1) out NaN.
Proof.
  intros fl n h l c v [|i] out V Hi E; [lia|]. replace (S i - 1)%nat with i by lia. rewrite obv_formula in E. apply Ok_inj in E; subst out. rewrite !nth_tab by lia.
  unfold from, fromx. cbn [Nat.ltb Nat.leb]. f_equal.
  assert (Z : signed_volume c v (S i) = 0) by (cbn [signed_volume]; rewrite V; destruct (Rlt_dec _ _); lra). cbn [rsum Nat.add]. rewrite Z. lra.
Qed.
Lemma adi_idle : forall fl n h l c v i out, sane n h l c -> v i = 0 -> (1 <= i < n)%nat ->
  compute Adi fl (frame n h l c v) = Ok out -> nth i out NaN = nth (i - 1) out NaN.
Proof.
  intros fl n h l c v [|i] out S V Hi E; [lia|]. replace (Datatypes.S i - 1)%nat with i by lia. rewrite adi_formula in E by auto. apply Ok_inj in E; subst out. rewrite !nth_tab by lia.
  unfold from, fromx. cbn [Nat.ltb Nat.leb]. f_equal. cbn [rsum Nat.add]. rewrite V. lra.
Qed.
Lemma vpt_idle : forall fl n h l c v i out, (forall j, (j < n)%nat -> c j <> 0) -> v i = 0 -> (2 <= i < n)%nat ->
  compute (Vpt None false) fl (frame n h l c v) = Ok out -> nth i out NaN = nth (i - 1) out NaN.
Proof.
  intros fl n h l c v [|[|i]] out C V Hi E; try lia. replace (S (S i) - 1)%nat with (S i) by lia. rewrite vpt_formula in E by auto. apply Ok_inj in E; subst out. rewrite !nth_tab by lia.
  unfold gaps. cbn [Nat.ltb Nat.leb]. f_equal. unfold vpt_value. cbn [rsum Nat.add]. rewrite V. lra.
Qed.

(** ** negative volume index *)
Lemma nvi_idle : forall fl n h l c v i out, (forall j, (j < n)%nat -> c j <> 0) -> v i = 0 -> 0 <= v (i - 1)%nat -> (1 <= i < n)%nat ->
  compute Nvi fl (frame n h l c v) = Ok out ->
  exists x, nth (i - 1) out NaN = Fin x /\ nth i out NaN = Fin (if Req_EM_T (v (i - 1)%nat) 0 then x else x * (c i / c (i - 1)%nat)).
Proof.
  intros fl n h l c v [|i] out C V P Hi E; [lia|]. replace (S i - 1)%nat with i in * by lia. rewrite nvi_formula in E by (auto || lia). apply Ok_inj in E; subst out. rewrite !nth_tab by lia.
  unfold from, fromx. cbn [Nat.ltb Nat.leb]. eexists. split; [reflexivity|]. f_equal. rewrite nvi_step, V.
  destruct (Rlt_dec 0 (v i)), (Req_EM_T (v i) 0); try lra; reflexivity.
Qed.

(** ** force index *)
Lemma fi_idle : forall fl w n h l c v i out, (1 <= w)%nat -> v i = 0 -> (1 + warm fl w < i < n)%nat ->
  compute (Fi (Z.of_nat w)) fl (frame n h l c v) = Ok out ->
  exists x, nth (i - 1) out NaN = Fin x /\ nth i out NaN = Fin ((INR w - 1) / (INR w + 1) * x).
Proof.
  intros fl w n h l c v [|i] out W V Hi E; [lia|]. replace (S i - 1)%nat with i by lia. rewrite fi_formula in E by auto. apply Ok_inj in E; subst out. rewrite !nth_tab by lia.
  unfold gaps. destruct (Nat.ltb_spec i (1 + warm fl w)); [lia|]. destruct (Nat.ltb_spec (S i) (1 + warm fl w)); [lia|].
  eexists. split; [reflexivity|]. f_equal. unfold ema, expavg. replace (S i - 1)%nat with (S (i - 1)) by lia. cbn [exp_go].
  replace (1 + S (i - 1))%nat with (S i) by lia. rewrite V. pose proof (pos_INR w). field. lra.
Qed.

(** ** ease of movement: a quotient by no volume *)
Definition emv_row (h l v : nat -> R) (i : nat) : xr :=
  if Req_EM_T (v i) 0 then ratio ((delta h i + delta l i) * (h i - l i)) 0 else Fin (emv_value h l v i).
Lemma emv_rows : forall n h l v, emv (tab n (from 0 h)) (tab n (from 0 l)) (tab n (from 0 v)) = tab n (fromx 1 (emv_row h l v)).
Proof.
  intros n h l v. unfold emv. rewrite !diff1_from, sadd_from, ssub_from, smul_from. cbn [fofZ XR Nat.max]. rewrite scal_from, sdiv_from. unfold muls. rewrite map_tab.
  apply tab_ext. intros i _. unfold fromx. cbn [Nat.max]. destruct (i <? 1)%nat; [reflexivity|]. unfold emv_row, ratio, emv_value.
  destruct (Req_EM_T (v i) 0) as [V|V], (Req_EM_T (2 * v i) 0) as [V'|V']; try lra.
  - destruct (Req_EM_T 0 0); [|lra].
    match goal with |- context [Rlt_dec 0 ?x] => destruct (Rlt_dec 0 x); [|destruct (Rlt_dec x 0)] end; cbn; try reflexivity.
    + unfold rsign. destruct (Rlt_dec 0 100000000); [reflexivity|lra].
    + unfold rsign. destruct (Rlt_dec 0 100000000); [reflexivity|lra].
  - reflexivity.
Qed.

(** one column, filled or not *)
Lemma shows_nth : forall fl z n f res out i, shows fl z (tab n f) res -> res = Ok out -> (i < n)%nat -> finite (f i) = false ->
  nth i out NaN = if fl then before (Fin (IZR z)) out i else f i.
Proof.
  intros fl z n f res out i (o & E & H) E' Hi Hf. rewrite E in E'. apply Ok_inj in E'. subst o. destruct fl.
  - destruct H as (L & H). rewrite len_tab in *. change NaN with (@fnan xr XR) at 1. rewrite H by auto. rewrite nth_tab by auto.
    replace (ffinite (f i)) with false by (destruct (f i); [reflexivity..|discriminate]). now destruct i.
  - subst. now rewrite nth_tab.
Qed.
Lemma eom_rows : forall fl w n h l c v,
  shows fl 0 (tab n (fromx 1 (emv_row h l v))) (compute (Eom w) fl (frame n h l c v)).
Proof. intros. cbn [compute]. cols. unfold ease_of_movement. rewrite emv_rows. apply shows_check; (reflexivity || lia). Qed.
Lemma eom_idle : forall fl w n h l c v i out, v i = 0 -> (1 <= i < n)%nat ->
  compute (Eom w) fl (frame n h l c v) = Ok out ->
  nth i out NaN = if fl then nth (i - 1) out NaN else ratio ((delta h i + delta l i) * (h i - l i)) 0.
Proof.
  intros fl w n h l c v i out V Hi E.
  assert (R : fromx 1 (emv_row h l v) i = ratio ((delta h i + delta l i) * (h i - l i)) 0).
  { unfold fromx. destruct (Nat.ltb_spec i 1); [lia|]. unfold emv_row. destruct (Req_EM_T (v i) 0); [reflexivity|contradiction]. }
  rewrite (shows_nth _ _ _ _ _ _ i (eom_rows fl w n h l c v) E ltac:(lia)).
  - destruct fl; [now apply before_S|exact R].
  - rewrite R. unfold ratio. destruct (Req_EM_T 0 0); [|lra]. destruct (Rlt_dec _ _); [reflexivity|]. now destruct (Rlt_dec _ _).
Qed.
Lemma obs_short : forall (l : list xr), In NaN l -> (length (obs l) < length l)%nat.
Proof.
  induction l as [|x l IH]; intros H; [contradiction|]. destruct H as [->|H].
  - pose proof (length_obs l). change (obs (NaN :: l)) with (obs l). cbn [length]. lia.
  - specialize (IH H). unfold obs in *. cbn [filter length]. destruct (negb _); cbn [length]; lia.
Qed.
Lemma sma_eom_idle : forall w n h l c v i j out, (1 <= w)%nat -> v i = 0 -> (i <= j < i + w)%nat -> (j < n)%nat ->
  compute (SmaEom (Z.of_nat w)) false (frame n h l c v) = Ok out -> nth j out NaN = NaN.
Proof.
  intros w n h l c v i j out W V Hj Hn E. cbn [compute] in E. revert E. cols. unfold sma_ease_of_movement. rewrite emv_rows. cbn [minp_of].
  rewrite rolling_tab by lia. cbn [bind check_fillna]. intros E. apply Ok_inj in E. subst out. rewrite nth_tab by auto.
  refine (proj1 (std_mean (F := xr) w _) _). eapply Nat.lt_le_trans; [apply obs_short|rewrite map_length, seq_length; unfold wlen; lia].
  apply in_map_iff. exists i. split; [|apply in_seq; unfold wlo, wlen; lia]. unfold fromx. destruct (i <? 1)%nat; [reflexivity|].
  unfold emv_row. destruct (Req_EM_T (v i) 0); [|contradiction]. unfold ratio. destruct (Req_EM_T 0 0); [|lra].
  destruct (Rlt_dec _ _); [reflexivity|]. now destruct (Rlt_dec _ _).
Qed.

(** ** windows without volume *)
Lemma wsum_idle : forall w v i f, idle w v i -> (forall j, v j = 0 -> f j = 0) -> wsum w f i = 0.
Proof.
  intros w v i f (Hw & H) Z. unfold wsum. assert (C : forall k, (k <= wlen w i)%nat -> rsum f (wlo w i) k = 0); [|now apply C].
  induction k; intros Hk; cbn [rsum]; [reflexivity|]. rewrite IHk by lia. rewrite Z; [lra|]. apply H. unfold wlo, wlen in *. lia.
Qed.
Lemma idle_row : forall fl z n w g res out i v, shows fl z (tab n (fromx (warm fl w) g)) res -> res = Ok out -> (i < n)%nat -> idle w v i -> g i = NaN ->
  nth i out NaN = if fl then before (Fin (IZR z)) out i else NaN.
Proof.
  intros fl z n w g res out i v S E Hi (Hw & _) G. assert (X : fromx (warm fl w) g i = NaN) by (unfold fromx; now destruct (_ <? _)%nat).
  rewrite (shows_nth _ _ _ _ _ _ i S E Hi) by now rewrite X. now rewrite X.
Qed.
Lemma ratio00 : forall a b, a = 0 -> b = 0 -> ratio a b = NaN.
Proof. intros a b -> ->. unfold ratio. destruct (Req_EM_T 0 0); [|lra]. destruct (Rlt_dec 0 0); [lra|reflexivity]. Qed.
Lemma cmf_idle : forall fl w n h l c v i out, (1 <= w)%nat -> sane n h l c -> idle w v i -> (i < n)%nat ->
  compute (Cmf (Z.of_nat w)) fl (frame n h l c v) = Ok out -> nth i out NaN = if fl then before (Fin 0) out i else NaN.
Proof.
  intros fl w n h l c v i out W S I Hi E. eapply idle_row; [apply (cmf_formula fl w n h l c v W S)|exact E|exact Hi|exact I|].
  apply ratio00; eapply wsum_idle; eauto. intros j ->. lra.
Qed.
Lemma vwap_idle : forall fl w n h l c v i out, (1 <= w)%nat -> idle w v i -> (i < n)%nat ->
  compute (Vwap (Z.of_nat w)) fl (frame n h l c v) = Ok out -> nth i out NaN = if fl then before (Fin 0) out i else NaN.
Proof.
  intros fl w n h l c v i out W I Hi E. eapply idle_row; [apply (vwap_formula fl w n h l c v W)|exact E|exact Hi|exact I|].
  apply ratio00; eapply wsum_idle; eauto. intros j ->. lra.
Qed.
Lemma mfi_idle : forall fl w n h l c v i out, (1 <= w)%nat -> idle w v i -> (i < n)%nat ->
  compute (Mfi (Z.of_nat w)) fl (frame n h l c v) = Ok out -> nth i out NaN = if fl then before (Fin 50) out i else NaN.
Proof.
  intros fl w n h l c v i out W I Hi E. eapply idle_row; [apply (mfi_formula fl w n h l c v W)|exact E|exact Hi|exact I|].
  assert (M : forall j, v j = 0 -> money_flow h l c v j = 0).
  { intros [|j] V; cbn [money_flow]; [reflexivity|]. rewrite V. destruct (Rlt_dec _ _); [lra|]. destruct (Rlt_dec _ _); lra. }
  unfold mfi_value. rewrite !(wsum_idle w v i) by (auto; intros j V; rewrite M by auto; unfold Rmax; destruct (Rle_dec _ _); lra).
  destruct (Req_EM_T 0 0); [reflexivity|lra].
Qed.
