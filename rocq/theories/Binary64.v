(** * Binary64: the rounded lemmas at the machine numbers, in the words of SpecBinary64.v. *)
From Coq Require Import Floats.
From Verif Require Import Lists Arith FloatArith Order FloatOrder Api Align Rounded RoundedInd RoundedAdx RoundedBands FloatPct FloatStoch SpecBinary64.

Lemma z0 : 0%float = fofZ 0. Proof. vm_compute. reflexivity. Qed.
Lemma z1 : 1%float = fofZ 1. Proof. vm_compute. reflexivity. Qed.
Lemma z100 : 100%float = fofZ 100. Proof. vm_compute. reflexivity. Qed.
Lemma zm100 : (-100)%float = fofZ (-100). Proof. vm_compute. reflexivity. Qed.

Lemma bet_between : forall (lo hi : float) l, Forall (bet lo hi) l -> Forall (between lo hi) l.
Proof.
  intros lo hi l H. eapply Forall_impl; [|exact H]. intros x Hx. unfold between. destruct (PrimFloat.is_nan x) eqn:E; auto.
Qed.
Lemma le_inf : forall x : float, Order.num x -> fle x infinity.
Proof.
  intros x N. unfold fle. rewrite FloatReal.val_leb. apply xleb_xle. replace (FloatReal.val infinity) with PInf by (rewrite val_SF; vm_compute; reflexivity).
  unfold Order.num in N. rewrite FloatReal.val_nan in N. destruct (FloatReal.val x); cbn in *; auto. discriminate.
Qed.
Lemma nn_between : forall l : list float, Forall nn l -> Forall (between 0 infinity) l.
Proof.
  intros l H. apply bet_between. eapply Forall_impl; [|exact H]. intros x Hx N. split; [apply Hx; auto|now apply le_inf].
Qed.
Lemma atleast_between : forall z (l : list float), Forall (atleast (fofZ z)) l -> Forall (between (fofZ z) infinity) l.
Proof.
  intros z l H. apply bet_between. eapply Forall_impl; [|exact H]. intros x Hx N. split; [apply Hx; auto|now apply le_inf].
Qed.
Lemma lower_below : forall x y : list float, lower x y -> Forall2 below x y.
Proof.
  intros x y H. induction H; constructor; auto. unfold below. destruct (PrimFloat.is_nan x) eqn:E; auto. destruct (PrimFloat.is_nan y) eqn:E'; auto.
  right. right. now apply H.
Qed.

Theorem machine_ranges : forall ind lo hi w fillna rows out, machine_range ind = Some (lo, hi, w) -> (100 * w <= 2 ^ 53)%Z ->
  compute ind fillna rows = Ok out -> Forall (between lo hi) out.
Proof.
  intros ind lo hi w fillna rows out R W E.
  destruct ind; try discriminate R; injection R as <- <- <-; cbn [compute] in E; (apply nn_between || apply bet_between); rewrite ?zm100, ?z100, ?z1, ?z0.
  - eapply rsi_bet; eauto. lia.
  - eapply stochrsi_bet; eauto. lia.
  - eapply aroon_up_bet; eauto. lia.
  - eapply aroon_down_bet; eauto. lia.
  - eapply aroon_ind_bet; eauto. lia.
  - eapply adx_bet; eauto.
  - eapply adx_pos_nn; eauto. lia.
  - eapply adx_neg_nn; eauto. lia.
  - eapply ulcer_nn; eauto.
  - eapply mfi_bet; eauto.
Qed.

Lemma lens_rows : forall rows : list (bar float),
  length (map b_high rows) = length (map b_close rows) /\ length (map b_low rows) = length (map b_close rows).
Proof. intros. now rewrite !map_length. Qed.
Lemma rows_ranged : forall rows : list (bar float), Forall low_high rows -> Forall2 ranged (map b_high rows) (map b_low rows).
Proof.
  induction 1 as [|b rows H]; constructor; auto. intros N1 N2. destruct H as [H|[H|H]]; [| |exact H]; unfold Order.num in *; cbn in *; congruence.
Qed.
Theorem machine_atr : forall w fillna rows out, (1 <= w)%Z -> (100 * w <= 2 ^ 53)%Z -> Forall low_high rows ->
  compute (Atr w) fillna rows = Ok out -> Forall (between 0 infinity) out.
Proof. intros w fillna rows out W W' H E. apply nn_between. eapply atr_nn; try exact E; [lia|]. now apply rows_ranged. Qed.

Theorem machine_bollinger : forall w dev rows m h l, PrimFloat.leb 0 dev = true -> compute (BbM w dev) false rows = Ok m ->
  compute (BbH w dev) false rows = Ok h -> compute (BbL w dev) false rows = Ok l -> Forall2 below l m /\ Forall2 below m h.
Proof. intros w dev rows m h l D Em Eh El. rewrite z0 in D. change (fle (fofZ 0) dev) in D. destruct (bb_lower _ _ _ _ _ _ D Em Eh El). split; now apply lower_below. Qed.
Theorem machine_keltner : forall w wa mult rows m h l, PrimFloat.leb 0 mult = true -> (1 <= wa)%Z -> (100 * wa <= 2 ^ 53)%Z -> Forall low_high rows ->
  compute (KcM w wa false mult) false rows = Ok m -> compute (KcH w wa false mult) false rows = Ok h ->
  compute (KcL w wa false mult) false rows = Ok l -> Forall2 below l m /\ Forall2 below m h.
Proof.
  intros w wa k rows m h l D W W' H Em Eh El. rewrite z0 in D. change (fle (fofZ 0) k) in D.
  assert (W2 : (1 <= wa < 2 ^ 63)%Z) by lia. destruct (lens_rows rows) as [L1 L2].
  destruct (kc_lower _ _ _ _ _ _ _ _ _ D W2 L2 L1 (rows_ranged _ H) Em Eh El). split; now apply lower_below.
Qed.
Lemma rows_sane : forall rows : list (bar float), Forall priced rows -> forall i, i < length (map b_close rows) ->
  sane_row (nth i (map b_high rows) fnan) (nth i (map b_low rows) fnan) (nth i (map b_close rows) fnan).
Proof.
  intros rows H. induction H as [|b rows (H1 & H2 & H3 & H4) H IH]; cbn [map length]; intros i Hi; [lia|].
  destruct i; [|apply IH; lia]. cbn [nth]. repeat split; auto.
  assert (P : fle (fofZ 0) (b_high b)) by (eapply fle_trans; [exact H1|eapply fle_trans; [exact H2|exact H3]]).
  apply FloatOrder.val_fin. unfold fle in P. rewrite FloatReal.val_leb, (FloatReal.val_small 0) in P by lia.
  change (fltb (b_high b) infinity = true) in H4. rewrite FloatReal.val_ltb in H4.
  replace (FloatReal.val infinity) with PInf in H4 by (rewrite val_SF; vm_compute; reflexivity).
  apply xleb_xle in P. apply xltb_xlt in H4. destruct H4 as [_ H4]. destruct (FloatReal.val (b_high b)); cbn in *; try easy. eauto.
Qed.
Theorem machine_donchian : forall w o fillna rows m h l, Forall priced rows -> compute (DcM w o) fillna rows = Ok m ->
  compute (DcH w o) fillna rows = Ok h -> compute (DcL w o) fillna rows = Ok l -> Forall2 below l m /\ Forall2 below m h.
Proof.
  intros w o fillna rows m h l H Em Eh El.
  destruct (dc_lower _ _ _ _ _ (rows_sane _ H) (lens_rows rows) _ _ _ _ Em Eh El). split; now apply lower_below.
Qed.
Theorem machine_donchian_pband : forall w o fillna rows out, Forall priced rows -> compute (DcP w o) fillna rows = Ok out -> Forall (between 0 1) out.
Proof.
  intros w o fillna rows out H E. apply bet_between. rewrite z1, z0.
  exact (dc_pband_bet _ _ _ _ _ (rows_sane _ H) (lens_rows rows) _ _ E).
Qed.

Lemma rows_bounded : forall rows : list (bar float), Forall bounded_row rows -> forall i, i < length (map b_close rows) ->
  sane (nth i (map b_low rows) fnan) (nth i (map b_close rows) fnan) (nth i (map b_high rows) fnan).
Proof.
  intros rows H. induction H as [|b rows (H1 & H2 & H3 & H4) H IH]; cbn [map length]; intros i Hi; [lia|].
  destruct i; [|apply IH; lia]. cbn [nth]. repeat split; auto.
Qed.
Theorem machine_stoch : forall w s fillna rows out, Forall bounded_row rows -> compute (Stoch w s) fillna rows = Ok out ->
  Forall (between 0 0x1.9000000000001p+6) out.
Proof.
  intros w s fillna rows out H E. apply bet_between. rewrite z0. exact (stoch_bet _ _ _ w fillna (rows_bounded _ H) (lens_rows rows) s _ E).
Qed.
Theorem machine_williams : forall n fillna rows out, Forall bounded_row rows -> compute (WilliamsR n) fillna rows = Ok out ->
  Forall (between (- 0x1.9000000000001p+6) 0) out.
Proof.
  intros n fillna rows out H E. apply bet_between. rewrite z0. exact (williams_bet _ _ _ n fillna (rows_bounded _ H) (lens_rows rows) _ E).
Qed.

Lemma rows_price : forall rows : list (bar float), Forall positive_close rows -> Forall price (map b_close rows).
Proof.
  induction 1 as [|b rows H]; constructor; auto. intros N. destruct H as [H|H]; [|exact H]. unfold Order.num in *; cbn in *; congruence.
Qed.
Lemma rows_nn : forall rows : list (bar float), Forall nonneg_close rows -> Forall nn (map b_close rows).
Proof.
  induction 1 as [|b rows H]; constructor; auto. intros N. destruct H as [H|H]; [|exact H]. unfold Order.num in *; cbn in *; congruence.
Qed.
Theorem machine_returns : forall ind fillna rows out, ind = DailyReturn \/ ind = CumReturn \/ (exists w, ind = Roc w) -> Forall positive_close rows ->
  compute ind fillna rows = Ok out -> Forall (between (-100) infinity) out.
Proof.
  intros ind fillna rows out I H E. rewrite zm100. apply atleast_between. apply rows_price in H.
  destruct I as [->|[->|(w & ->)]]; cbn [compute] in E; [eapply daily_return_ge|eapply cum_return_ge|eapply roc_ge]; eauto.
Qed.
Theorem machine_nvi : forall fillna rows out, Forall positive_close rows -> compute Nvi fillna rows = Ok out -> Forall (between 0 infinity) out.
Proof. intros fillna rows out H E. apply nn_between. exact (nvi_nn _ _ _ _ (rows_price _ H) E). Qed.
Theorem machine_ema : forall w fillna rows out, (100 * w <= 2 ^ 53)%Z -> Forall nonneg_close rows ->
  compute (Ema w) fillna rows = Ok out -> Forall (between 0 infinity) out.
Proof. intros w fillna rows out W H E. apply nn_between. eapply ema_nn; try exact E; [lia|]. now apply rows_nn. Qed.
