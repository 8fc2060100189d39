(** * Halt: the series after the price has stopped moving (C89). *)
From Coq Require Import Lra.
From Verif Require Import Lists Api SpecNum SpecHalt Rows Running Fill Tab Averages Memory Align Sar
  Oscillators Returns Lines Trend Directional Cycles Bands Channels Flows Momentum StochRsi TrueRange Raises.
Local Open Scope R_scope.

Lemma wmax_cst : forall w p i, (1 <= w)%nat -> wmax w (fun _ => p) i = p.
Proof. intros w p i H. destruct (wmax_is w (fun _ => p) i H) as [(j & _ & E) _]. exact E. Qed.
Lemma wmin_cst : forall w p i, (1 <= w)%nat -> wmin w (fun _ => p) i = p.
Proof. intros w p i H. destruct (wmin_is w (fun _ => p) i H) as [(j & _ & E) _]. exact E. Qed.
Lemma wmean_cst : forall w p i, (1 <= w)%nat -> wmean w (fun _ => p) i = p.
Proof. intros. apply wmean_const; auto. Qed.
Lemma wsum_cst : forall w f i x, (forall j, (wlo w i <= j <= i)%nat -> f j = x) -> wsum w f i = INR (wlen w i) * x.
Proof. intros. unfold wsum. apply rsum_const'. intros j Hj. apply H. unfold wlo, wlen in *. lia. Qed.
Lemma wsum_zero : forall w f i, (forall j, (wlo w i <= j <= i)%nat -> f j = 0) -> wsum w f i = 0.
Proof. intros. rewrite (wsum_cst w f i 0 H). lra. Qed.
Lemma ratio_00 : forall a b, a = 0 -> b = 0 -> ratio a b = NaN.
Proof. intros a b -> ->. unfold ratio. destruct (Req_EM_T _ _); [|lra]. destruct (Rlt_dec _ _); [lra|]. reflexivity. Qed.
Lemma ratio_fin : forall a b, b <> 0 -> ratio a b = Fin (a / b).
Proof. intros. unfold ratio. destruct (Req_EM_T _ _); [lra|]. reflexivity. Qed.
Lemma typical_cst : forall p i, typical (fun _ => p) (fun _ => p) (fun _ => p) i = p.
Proof. intros. unfold typical. lra. Qed.
Lemma wmean_eq : forall w f i x, (1 <= w)%nat -> (forall j, f j = x) -> wmean w f i = x.
Proof. intros. apply wmean_const; auto. Qed.
Lemma wstd_cst : forall w p i, (1 <= w)%nat -> wstd w (fun _ => p) i = 0.
Proof.
  intros. unfold wstd. rewrite (wmean_eq w _ i 0); [apply sqrt_0|auto|]. intros. rewrite wmean_cst by auto. lra.
Qed.
Lemma wmad_cst : forall w p i, (1 <= w)%nat -> wmad w (fun _ => p) i = 0.
Proof.
  intros. unfold wmad. apply wmean_eq; auto. intros. rewrite wmean_cst by auto. rewrite Rminus_diag_eq by auto. apply Rabs_R0.
Qed.
Lemma wmad_eq : forall w f i x, (1 <= w)%nat -> (forall j, f j = x) -> wmad w f i = 0.
Proof.
  intros. unfold wmad. apply wmean_eq; auto. intros. rewrite (wmean_eq w f i x) by auto. rewrite H0, Rminus_diag_eq by auto. apply Rabs_R0.
Qed.
Lemma max00 : Rmax 0 0 = 0.
Proof. apply Rmax_left. lra. Qed.
Lemma trange_cst : forall p i, trange (fun _ => p) (fun _ => p) (fun _ => p) i = 0.
Proof. intros p [|j]; cbn [trange]; unfold Rminus; rewrite !Rplus_opp_r; auto. rewrite Rabs_R0, !max00. auto. Qed.
Lemma trange_after_cst : forall p i q, q = p -> trange_after q (fun _ => p) (fun _ => p) (fun _ => p) i = 0.
Proof. intros p i q ->. unfold trange_after. destruct i; unfold Rminus; rewrite !Rplus_opp_r, Rabs_R0, !max00; auto. Qed.

(** row i of the call is x, from row m on *)
Definition settles (n m : nat) (r : result (list xr)) (x : xr) : Prop :=
  exists out, r = Ok out /\ length out = n /\ forall i, (m <= i < n)%nat -> nth i out NaN = x.
Lemma st_tab : forall n m g x r, r = Ok (tab n g) -> (forall i, (m <= i < n)%nat -> g i = x) -> settles n m r x.
Proof. intros n m g x r E H. eexists. split; [exact E|]. split; [apply len_tab|]. intros. rewrite nth_tab by lia. apply H. lia. Qed.
Lemma st_shows : forall n m g x z r, shows false z (tab n g) r -> (forall i, (m <= i < n)%nat -> g i = x) -> settles n m r x.
Proof. intros n m g x z r (out & E & ->) H. eapply st_tab; eauto. Qed.
Lemma st_shows_back : forall n m g x r, shows_back false (tab n g) r -> (forall i, (m <= i < n)%nat -> g i = x) -> settles n m r x.
Proof. intros n m g x r (out & E & ->) H. eapply st_tab; eauto. Qed.
Lemma from_ge : forall k g i x, (k <= i)%nat -> g i = x -> from k g i = Fin x.
Proof. intros. unfold from, fromx. destruct (Nat.ltb_spec i k); [lia|]. now subst. Qed.
Lemma fromx_ge : forall k g i x, (k <= i)%nat -> g i = x -> fromx k g i = x.
Proof. intros. unfold fromx. destruct (Nat.ltb_spec i k); [lia|]. now subst. Qed.
Lemma gaps_ge : forall fl z k g i x, (k <= i)%nat -> g i = x -> gaps fl z k g i = Fin x.
Proof. intros. unfold gaps. destruct (Nat.ltb_spec i k); [lia|]. now subst. Qed.
Lemma st_delayed : forall n m k r0 r x, delayed k r0 r -> settles n m r0 x -> settles n (m + k) r x.
Proof.
  intros n m k r0 r x D (out0 & -> & L & H). destruct D as (out & -> & L' & D). exists out. split; auto. split; [congruence|].
  intros i Hi. change NaN with (fnan : xr). rewrite D by lia. destruct (Nat.ltb_spec i k); [lia|]. apply H. lia.
Qed.

Section Flat.
Variables (n : nat) (p : R) (v : nat -> R).
Hypothesis Hp : 0 < p.
Hypothesis Hv : forall i, (i < n)%nat -> 0 < v i.
Let rows := frame n (fun _ => p) (fun _ => p) (fun _ => p) v.
Let sane_flat : sane n (fun _ => p) (fun _ => p) (fun _ => p).
Proof. intros i _. lra. Qed.
Let wsum_v : forall w i, (1 <= w)%nat -> (i < n)%nat -> 0 < wsum w v i.
Proof.
  intros w i Hw Hi. unfold wsum. assert (H : forall k a, (a + k <= n)%nat -> 0 <= rsum v a k).
  { induction k; intros a Hk; cbn; [lra|]. specialize (IHk a ltac:(lia)). pose proof (Hv (a + k)%nat ltac:(lia)). lra. }
  destruct (wlen w i) as [|k] eqn:E; [unfold wlen in E; lia|]. cbn [rsum].
  assert (wlo w i + k = i)%nat by (unfold wlo, wlen in *; lia). rewrite H0.
  pose proof (H k (wlo w i) ltac:(lia)). pose proof (Hv i Hi). lra.
Qed.

Lemma wma_cst : forall w i, (1 <= w)%nat -> wma_value w (fun _ => p) i = p.
Proof.
  intros w i Hw. unfold wma_value.
  assert (E : forall k, rsum (fun j => INR (S j) * p) 0 k = INR k * (INR k + 1) / 2 * p).
  { induction k; [cbn; lra|]. cbn [rsum]. rewrite IHk, Nat.add_0_l, S_INR. field. }
  rewrite E. assert (0 < INR w) by (apply lt_0_INR; lia). field. nra.
Qed.
Lemma first_max_cst : forall a k, first_max (fun _ => p) a k = a.
Proof. induction k; cbn; auto. rewrite IHk. destruct (Rlt_dec _ _); [lra|auto]. Qed.
Lemma first_min_cst : forall a k, first_min (fun _ => p) a k = a.
Proof. unfold first_min. induction k; cbn; auto. rewrite IHk. destruct (Rlt_dec _ _); [lra|auto]. Qed.
Lemma aroon_cst : forall w i, aroon_up_value (fun _ => p) w i = 0 /\ aroon_down_value (fun _ => p) w i = 0.
Proof. intros. unfold aroon_up_value, aroon_down_value. rewrite first_max_cst, first_min_cst, Nat.sub_diag. cbn. split; unfold Rdiv; ring. Qed.

Ltac nat_windows := repeat match goal with
  | H : (?a <= ?w)%Z |- _ => is_var w;
      let K := fresh "K" in let k := fresh "k" in
      destruct (Z_of_nat_complete w ltac:(lia)) as [k K]; subst w
  end.
Ltac mem := unfold SpecMemory.back, SpecMemory.lag, warm; rewrite ?Nat2Z.id; lia.

Lemma back_nat : forall k, SpecMemory.back (Z.of_nat k) = (k - 1)%nat.
Proof. intros. unfold SpecMemory.back. lia. Qed.
Ltac km := rewrite !back_nat; unfold SpecMemory.lag; rewrite !Nat2Z.id;
  repeat match goal with |- context [(?a - 1)%nat] => generalize (a - 1)%nat; intros ? end; lia.
Ltac w0 := unfold warm; lia.
Lemma f_sma : forall w m, (1 <= w)%nat -> (w - 1 <= m)%nat -> settles n m (compute (Sma (Z.of_nat w)) false rows) (Fin p).
Proof. intros. eapply st_tab; [apply sma_formula; auto|]. intros. apply from_ge; [w0|]. now apply wmean_cst. Qed.
Lemma f_wma : forall w m, (1 <= w)%nat -> (w - 1 <= m)%nat -> settles n m (compute (Wma (Z.of_nat w)) false rows) (Fin p).
Proof. intros. eapply st_tab; [apply wma_formula; auto|]. intros. apply gaps_ge; [lia|]. now apply wma_cst. Qed.
Lemma f_aroon : forall w m, (1 <= w)%nat -> (w <= m)%nat ->
  settles n m (compute (AroonUp (Z.of_nat w)) false rows) (Fin 0) /\ settles n m (compute (AroonDown (Z.of_nat w)) false rows) (Fin 0) /\
  settles n m (compute (AroonInd (Z.of_nat w)) false rows) (Fin 0).
Proof.
  intros w m Hw Hm. destruct (aroon_formula false w n (fun _ => p) (fun _ => p) (fun _ => p) v Hw) as (E1 & E2 & E3).
  split; [|split]; (eapply st_tab; [eassumption|]); intros i Hi; apply from_ge; auto; try lia; try apply aroon_cst.
  destruct (aroon_cst w i) as [-> ->]. lra.
Qed.
Lemma mid_cst : forall w i, (1 <= w)%nat -> midrange w (fun _ => p) (fun _ => p) i = p.
Proof. intros. unfold midrange. rewrite wmax_cst, wmin_cst by auto. lra. Qed.
Lemma f_ichi : forall w1 w2 w3 vis m, (1 <= w1)%nat -> (1 <= w2)%nat -> (1 <= w3)%nat ->
  ((w1 - 1 <= m)%nat -> settles n m (compute (IchiConv (Z.of_nat w1) (Z.of_nat w2) (Z.of_nat w3) vis) false rows) (Fin p)) /\
  ((w2 - 1 <= m)%nat -> settles n m (compute (IchiBase (Z.of_nat w1) (Z.of_nat w2) (Z.of_nat w3) vis) false rows) (Fin p)) /\
  ((Nat.max w1 w2 - 1 + (if vis then w2 else 0) <= m)%nat -> settles n m (compute (IchiA (Z.of_nat w1) (Z.of_nat w2) (Z.of_nat w3) vis) false rows) (Fin p)) /\
  ((w3 - 1 + (if vis then w2 else 0) <= m)%nat -> settles n m (compute (IchiB (Z.of_nat w1) (Z.of_nat w2) (Z.of_nat w3) vis) false rows) (Fin p)).
Proof.
  intros w1 w2 w3 vis m H1 H2 H3.
  destruct (ichi_formula false w1 w2 w3 vis n (fun _ => p) (fun _ => p) (fun _ => p) v H1 H2 H3) as (E1 & E2 & E3 & E4).
  destruct (ichi_visual false w1 w2 w3 n (fun _ => p) (fun _ => p) (fun _ => p) v H1 H2 H3) as (V3 & V4).
  split; [|split; [|split]]; intros Hm.
  - eapply st_tab; [exact E1|]. intros. apply from_ge; [w0|]. now apply mid_cst.
  - eapply st_tab; [exact E2|]. intros. apply from_ge; [w0|]. now apply mid_cst.
  - destruct vis.
    + eapply st_shows_back; [exact V3|]. intros i Hi. cbn beta. destruct (Nat.ltb_spec i w2); [lia|]. apply from_ge; [w0|]. rewrite !mid_cst by auto. lra.
    + eapply st_tab; [exact E3|]. intros. apply from_ge; [w0|]. rewrite !mid_cst by auto. lra.
  - destruct vis.
    + eapply st_tab; [exact V4|]. intros i Hi. apply from_ge; [w0|]. unfold SpecNum.back. destruct (Nat.ltb_spec i w2); [lia|]. now apply mid_cst.
    + eapply st_tab; [exact E4|]. intros. apply from_ge; [w0|]. now apply mid_cst.
Qed.
Lemma f_kst : forall r1 r2 r3 r4 w1 w2 w3 w4 s m, (1 <= w1)%nat -> (1 <= w2)%nat -> (1 <= w3)%nat -> (1 <= w4)%nat -> (1 <= s)%nat ->
  (w1 - 1 <= m)%nat -> (w2 - 1 <= m)%nat -> (w3 - 1 <= m)%nat -> (w4 - 1 <= m)%nat ->
  let call k := compute (k (Z.of_nat r1) (Z.of_nat r2) (Z.of_nat r3) (Z.of_nat r4) (Z.of_nat w1) (Z.of_nat w2) (Z.of_nat w3) (Z.of_nat w4) (Z.of_nat s)) false rows in
  settles n m (call Kst) (Fin 0) /\ settles n m (call KstSig) (Fin 0) /\ settles n m (call KstDiff) (Fin 0).
Proof.
  intros r1 r2 r3 r4 w1 w2 w3 w4 s m H1 H2 H3 H4 Hs M1 M2 M3 M4 call. assert (Hm : (Nat.max (Nat.max w1 w2) (Nat.max w3 w4) - 1 <= m)%nat) by lia.
  destruct (kst_formula false r1 r2 r3 r4 w1 w2 w3 w4 s n (fun _ => p) (fun _ => p) (fun _ => p) v H1 H2 H3 H4 Hs (fun _ _ => Hp)) as (E1 & E2 & E3).
  assert (L : forall i, (i < n)%nat -> 100 * (roc_mean r1 w1 n (fun _ => p) i + 2 * roc_mean r2 w2 n (fun _ => p) i + 3 * roc_mean r3 w3 n (fun _ => p) i + 4 * roc_mean r4 w4 n (fun _ => p) i) = 0).
  { intros i Hi. rewrite !(roc_mean_const _ _ n _ p) by auto. lra. }
  split; [|split]; (eapply st_tab; [eassumption|]); intros i Hi; cbv beta zeta; (apply from_ge; [w0|]).
  - apply L. lia.
  - apply wmean_from_const; auto; [w0|]. intros. apply L. lia.
  - cbv beta. rewrite L by lia. rewrite (wmean_from_const _ _ _ _ 0); [lra|auto|w0|]. intros. apply L. lia.
Qed.
Lemma f_dpo : forall w m, (1 <= w)%nat -> (w - 1 <= m)%nat -> settles n m (compute (Dpo (Z.of_nat w)) false rows) (Fin 0).
Proof. intros. eapply st_tab; [apply (dpo_const false w n _ _ _ v p); auto|]. intros. apply from_ge; [w0|]. reflexivity. Qed.
Lemma f_cci : forall w d m, (1 <= w)%nat -> (w - 1 <= m)%nat -> settles n m (compute (Cci (Z.of_nat w) (Fin d)) false rows) NaN.
Proof.
  intros. eapply st_shows; [apply cci_formula; auto|]. intros. apply fromx_ge; [w0|]. apply ratio_00.
  - rewrite (wmean_eq w _ i p) by auto using typical_cst. rewrite typical_cst. lra.
  - rewrite (wmad_eq w _ i p) by auto using typical_cst. lra.
Qed.
Lemma f_vortex : forall w m, (1 <= w)%nat -> (w <= m)%nat ->
  settles n m (compute (VortexPos (Z.of_nat w)) false rows) NaN /\ settles n m (compute (VortexNeg (Z.of_nat w)) false rows) NaN.
Proof.
  intros w m Hw Hm. destruct (vortex_formula false w n (fun _ => p) (fun _ => p) (fun _ => p) v Hw) as [E1 E2].
  split; (eapply st_shows; [eassumption|]); intros i Hi; (apply fromx_ge; [lia|]); apply ratio_00; apply wsum_zero; intros j Hj;
    (destruct (Nat.eq_dec n 0); [lia|]).
  1,3: destruct j; cbn; auto; unfold Rminus; rewrite Rplus_opp_r; apply Rabs_R0.
  all: apply trange_after_cst; apply mean_of_const; auto; lia.
Qed.
Lemma f_bb : forall w d m, (1 <= w)%nat -> (w - 1 <= m)%nat ->
  let call k := compute (k (Z.of_nat w) (Fin d)) false rows in
  settles n m (call BbM) (Fin p) /\ settles n m (call BbH) (Fin p) /\ settles n m (call BbL) (Fin p) /\
  settles n m (call BbW) (Fin 0) /\ settles n m (call BbP) NaN /\ settles n m (call BbHI) (Fin 0) /\ settles n m (call BbLI) (Fin 0).
Proof.
  intros w d m Hw Hm call. pose proof (fun h l c => bb_formula false w d n h l c v Hw) as B. destruct (B (fun _ => p) (fun _ => p) (fun _ => p)) as (E1 & E2 & E3).
  destruct (bb_indicators false w d n (fun _ => p) (fun _ => p) (fun _ => p) v Hw) as (E6 & E7).
  pose proof (bb_width_formula false w d n (fun _ => p) (fun _ => p) (fun _ => p) v Hw) as E4.
  pose proof (bb_pband_formula false w d n (fun _ => p) (fun _ => p) (fun _ => p) v Hw) as E5.
  repeat split; (first [eapply st_tab; [eassumption|] | eapply st_shows; [eassumption|]]); intros i Hi;
    (first [apply from_ge; [w0|] | apply fromx_ge; [w0|]]);
    unfold position, above, below; rewrite ?(ratio_fin _ (wmean w (fun _ => p) i)) by (rewrite wmean_cst by auto; lra);
    rewrite ?wmean_cst, ?wstd_cst by auto; try lra.
  - f_equal. lra.
  - destruct (Req_EM_T _ _); auto. lra.
  - destruct (_ <? _)%nat; auto. destruct (Rlt_dec _ _); lra.
  - destruct (_ <? _)%nat; auto. destruct (Rlt_dec _ _); lra.
Qed.
Lemma f_kc : forall w a mu m, (1 <= w)%nat -> (w - 1 <= m)%nat ->
  let call k := compute (k (Z.of_nat w) a true mu) false rows in
  settles n m (call KcM) (Fin p) /\ settles n m (call KcH) (Fin p) /\ settles n m (call KcL) (Fin p) /\
  settles n m (call KcW) (Fin 0) /\ settles n m (call KcP) NaN /\ settles n m (call KcHI) (Fin 0) /\ settles n m (call KcLI) (Fin 0).
Proof.
  intros w a mu m Hw Hm call.
  destruct (kc_bands_original false w a mu n (fun _ => p) (fun _ => p) (fun _ => p) v Hw) as (E1 & E2 & E3 & E6 & E7).
  destruct (kc_width false w a mu n (fun _ => p) (fun _ => p) (fun _ => p) v Hw) as (E4 & E5).
  assert (T : forall i, wmean w (typical (fun _ => p) (fun _ => p) (fun _ => p)) i = p) by (intros; apply wmean_eq; auto using typical_cst).
  assert (Z : forall i, wmean w (fun _ => p - p) i = 0) by (intros; apply wmean_eq; auto; intros; lra).
  repeat split; (first [eapply st_tab; [eassumption|] | eapply st_shows; [eassumption|]]); intros i Hi;
    (first [apply from_ge; [w0|] | apply fromx_ge; [w0|]]);
    unfold above, below; cbv beta; rewrite ?T, ?Z; try lra.
  - rewrite ratio_fin by lra. f_equal. lra.
  - apply ratio_00; lra.
  - cbn [Nat.ltb Nat.leb]. destruct (Rlt_dec _ _); lra.
  - cbn [Nat.ltb Nat.leb]. destruct (Rlt_dec _ _); lra.
Qed.
Lemma f_dc0 : forall w, (1 <= w)%nat ->
  let call k := compute (k (Z.of_nat w) 0%Z) false rows in
  settles n (w - 1) (call DcH) (Fin p) /\ settles n (w - 1) (call DcL) (Fin p) /\ settles n (w - 1) (call DcM) (Fin p) /\
  settles n (w - 1) (call DcW) (Fin 0) /\ settles n (w - 1) (call DcP) NaN.
Proof.
  intros w Hw call.
  destruct (dc_bands false w n (fun _ => p) (fun _ => p) (fun _ => p) v Hw) as (E1 & E2 & E3).
  destruct (dc_width false w n (fun _ => p) (fun _ => p) (fun _ => p) v Hw) as (E4 & E5).
  repeat split; (first [eapply st_tab; [eassumption|] | eapply st_shows; [eassumption|]]); intros i Hi;
    (first [apply from_ge; [w0|] | apply fromx_ge; [w0|]]);
    rewrite ?wmax_cst, ?wmin_cst, ?wmean_cst by auto; try lra.
  - rewrite ratio_fin by lra. f_equal. lra.
  - apply ratio_00; lra.
Qed.
Lemma f_dc : forall w o m, (1 <= w)%nat -> (m = w - 1 + o)%nat ->
  let call k := compute (k (Z.of_nat w) (Z.of_nat o)) false rows in
  settles n m (call DcH) (Fin p) /\ settles n m (call DcL) (Fin p) /\ settles n m (call DcM) (Fin p) /\
  settles n m (call DcW) (Fin 0) /\ settles n m (call DcP) NaN.
Proof.
  intros w o m Hw -> call. destruct (f_dc0 w Hw) as (E1 & E2 & E3 & E4 & E5).
  destruct o as [|o]; [rewrite Nat.add_0_r; now repeat split|].
  destruct (dc_delayed (Z.of_nat w) (S o) false rows ltac:(lia)) as (D1 & D2 & D3 & D4 & D5).
  repeat split; eapply st_delayed; eauto.
Qed.
Lemma f_ulcer : forall w m, (1 <= w)%nat -> (w - 1 <= m)%nat -> settles n m (compute (Ulcer (Z.of_nat w)) false rows) (Fin 0).
Proof.
  intros. eapply st_tab; [apply ulcer_formula; auto|].
  - intros. rewrite wmax_cst by auto. lra.
  - intros. apply gaps_ge; [lia|]. rewrite (wmean_eq w _ i 0); [apply sqrt_0|auto|]. intros j. unfold drawdown. rewrite wmax_cst by auto. unfold Rminus. rewrite Rplus_opp_r. unfold Rdiv. ring.
Qed.
Lemma f_cmf : forall w m, (1 <= w)%nat -> (w - 1 <= m)%nat -> settles n m (compute (Cmf (Z.of_nat w)) false rows) (Fin 0).
Proof.
  intros. eapply st_shows; [apply cmf_formula; auto|]. intros. apply fromx_ge; [w0|]. rewrite ratio_fin.
  - rewrite wsum_zero; [f_equal; unfold Rdiv; ring|]. intros. unfold location. destruct (Req_EM_T _ _); [ring|lra].
  - pose proof (wsum_v w i). specialize (H2 ltac:(auto) ltac:(lia)). lra.
Qed.
Lemma emv_cst : forall i, emv_value (fun _ => p) (fun _ => p) v i = 0.
Proof. intros. unfold emv_value, delta, Rminus. rewrite Rplus_opp_r. unfold Rdiv. ring. Qed.
Lemma f_eom : forall w m, (1 <= m)%nat -> settles n m (compute (Eom w) false rows) (Fin 0).
Proof.
  intros. eapply st_tab; [apply eom_formula|].
  - intros i Hi. pose proof (Hv i Hi). lra.
  - intros. apply gaps_ge; [lia|]. apply emv_cst.
Qed.
Lemma f_smaeom : forall w m, (1 <= w)%nat -> (w <= m)%nat -> settles n m (compute (SmaEom (Z.of_nat w)) false rows) (Fin 0).
Proof.
  intros. eapply st_tab; [apply sma_eom_formula; auto|].
  - intros i Hi. pose proof (Hv i Hi). lra.
  - intros. apply gaps_ge; [w0|]. apply wmean_from_const; auto; [lia|]. intros. apply emv_cst.
Qed.
Lemma f_mfi : forall w m, (1 <= w)%nat -> (w - 1 <= m)%nat -> settles n m (compute (Mfi (Z.of_nat w)) false rows) NaN.
Proof.
  intros w m Hw Hm. eapply st_shows; [apply mfi_formula; auto|]. intros i Hi. apply fromx_ge; [w0|].
  assert (Z : forall j, money_flow (fun _ => p) (fun _ => p) (fun _ => p) v j = 0).
  { intros [|j]; cbn; auto. rewrite !typical_cst. destruct (Rlt_dec _ _); [lra|auto]. }
  rewrite !wsum_zero by (intros; cbv beta; rewrite Z, ?Ropp_0; apply max00). unfold mfi_value.
  destruct (Req_EM_T _ _); [auto|lra].
Qed.
Lemma f_vwap : forall w m, (1 <= w)%nat -> (w - 1 <= m)%nat -> settles n m (compute (Vwap (Z.of_nat w)) false rows) (Fin p).
Proof.
  intros w m Hw Hm. eapply st_shows; [apply vwap_formula; auto|]. intros i Hi. apply fromx_ge; [w0|].
  pose proof (wsum_v w i Hw ltac:(lia)) as V. rewrite ratio_fin by lra.
  assert (E : forall a k, rsum (fun j => typical (fun _ => p) (fun _ => p) (fun _ => p) j * v j) a k = p * rsum v a k).
  { intros a. induction k; cbn [rsum]; [ring|]. rewrite IHk, typical_cst. ring. }
  f_equal. unfold wsum in *. rewrite E. field. lra.
Qed.
Lemma f_roc : forall w m, (w <= m)%nat -> settles n m (compute (Roc (Z.of_nat w)) false rows) (Fin 0).
Proof.
  intros. eapply st_tab; [apply roc_formula|].
  - intros. lra.
  - intros. apply gaps_ge; [lia|]. unfold Rminus. rewrite Rplus_opp_r. unfold Rdiv. ring.
Qed.
Lemma f_daily : settles n 1 (compute DailyReturn false rows) (Fin 0).
Proof.
  eapply st_tab; [apply daily_formula|].
  - intros. lra.
  - intros. apply gaps_ge; [lia|]. field. lra.
Qed.
Lemma f_log : settles n 1 (compute (DailyLogReturn xln) false rows) (Fin 0).
Proof.
  destruct (Nat.eq_dec n 0) as [E0|N].
  - unfold rows. rewrite E0. exists []. split; [reflexivity|]. split; [reflexivity|]. lia.
  - destruct (log_returns_add n (fun _ => p) (fun _ => p) (fun _ => p) v ltac:(lia) (fun _ _ => Hp)) as (g & E & G).
    eapply st_tab; [exact E|]. intros i Hi. apply from_ge; [lia|].
    assert (Z : forall j, (j < n)%nat -> rsum g 1 j = 0).
    { intros. rewrite G by auto. unfold Rdiv. rewrite Rinv_r by lra. rewrite ln_1. lra. }
    pose proof (Z i ltac:(lia)) as A. destruct i as [|i]; [lia|]. cbn [rsum] in A. rewrite Z in A by lia. cbn [Nat.add] in A. lra.
Qed.
Lemma f_ao : forall w1 w2 m, (1 <= w1)%nat -> (1 <= w2)%nat -> (Nat.max w1 w2 - 1 <= m)%nat ->
  settles n m (compute (AwesomeOsc (Z.of_nat w1) (Z.of_nat w2)) false rows) (Fin 0).
Proof.
  intros. eapply st_tab; [apply ao_formula; auto|]. intros. apply from_ge; [w0|]. cbv beta zeta. rewrite !wmean_cst by auto. lra.
Qed.
Lemma f_uo : forall w1 w2 w3 a b c m, (1 <= w1)%nat -> (1 <= w2)%nat -> (1 <= w3)%nat -> a + b + c <> 0 -> (Nat.max w1 (Nat.max w2 w3) <= m)%nat ->
  settles n m (compute (UltOsc (Z.of_nat w1) (Z.of_nat w2) (Z.of_nat w3) (Fin a) (Fin b) (Fin c)) false rows) NaN.
Proof.
  intros. eapply st_shows; [apply uo_formula; auto|]. intros. apply fromx_ge; [lia|].
  unfold uo_row. rewrite wsum_zero by (intros; apply trange_cst). destruct (Req_EM_T _ _); [auto|lra].
Qed.
Lemma Ok_inj : forall {B} (a b : B), Ok a = Ok b -> a = b. Proof. intros B a b E. now inversion E. Qed.
Lemma f_stoch : forall w s m, (1 <= w)%nat -> (w - 1 <= m)%nat -> settles n m (compute (Stoch (Z.of_nat w) s) false rows) NaN.
Proof.
  intros. eapply st_shows; [apply stoch_formula; auto|]. intros. apply fromx_ge; [w0|]. rewrite wmax_cst, wmin_cst by auto. apply ratio_00; lra.
Qed.
Lemma f_wr : forall w m, (1 <= w)%nat -> (w - 1 <= m)%nat -> settles n m (compute (WilliamsR (Z.of_nat w)) false rows) NaN.
Proof.
  intros w m Hw Hm. rewrite (wr_stoch (Z.of_nat w) 1%Z). destruct (f_stoch w 1%Z m Hw Hm) as (out & -> & L & H).
  eexists. split; [reflexivity|]. rewrite map_length. split; auto. intros i Hi.
  change (nth i (map (fun y : xr => fsub y (Fin 100)) out) ((fun y : xr => fsub y (Fin 100)) NaN) = NaN). rewrite map_nth, H by auto. reflexivity.
Qed.
Lemma f_signal : forall w s m, (1 <= w)%nat -> (1 <= s)%nat -> settles n m (compute (StochSignal (Z.of_nat w) (Z.of_nat s)) false rows) NaN.
Proof.
  intros w s m Hw Hs. destruct (stoch_formula false w (Z.of_nat s) n (fun _ => p) (fun _ => p) (fun _ => p) v Hw) as (k & E & K).
  cbn [compute] in *. fold rows in E. unfold stoch in E. unfold stoch_signal.
  destruct (stoch_run _ _ _ _ _) as [k'|]; [|discriminate]. cbn [rmap bind] in *. apply Ok_inj in E. cbn [check_fillna] in E. subst k'. subst k.
  change (minp_of false (Z.of_nat s)) with (Z.of_nat s). rewrite meanx_full by auto. cbn [rmap]. eapply st_tab; [reflexivity|].
  intros i Hi. unfold fromx at 1. destruct (_ <? _)%nat; auto. unfold wmeanx.
  destruct (forallb _ _) eqn:F; auto. rewrite forallb_forall in F. specialize (F i). rewrite in_seq in F.
  unfold wlo, wlen in F. rewrite wmax_cst, wmin_cst, ratio_00 in F by (auto; lra). specialize (F ltac:(lia)). discriminate.
Qed.
Lemma f_vdiff : forall w m, (1 <= w)%nat -> (w <= m)%nat -> settles n m (compute (VortexDiff (Z.of_nat w)) false rows) NaN.
Proof.
  intros w m Hw Hm. destruct (f_vortex w m Hw Hm) as [(o1 & E1 & L1 & H1) (o2 & E2 & L2 & H2)].
  cbn [compute] in *. unfold vortex_indicator_pos, vortex_indicator_neg, vortex_indicator_diff in *.
  destruct (vortex_run _ _ _ _ _) as [[a b]|]; [|discriminate]. cbn [bind check_fillna] in *. apply Ok_inj in E1, E2. subst.
  eexists. split; [reflexivity|]. split; [unfold ssub; apply len_map2; lia|]. intros i Hi.
  unfold ssub. rewrite (nth_map2 _ _ _ _ NaN NaN) by lia. rewrite H1, H2 by auto. reflexivity.
Qed.

Lemma rests_flat : forall ind x m, rests_at p ind x -> memory ind = Some m -> settles n m (compute ind false rows) x.
Proof.
  intros ind x m H M. destruct ind; cbn [rests_at] in H; try contradiction; cbn [memory] in M.
  all: repeat match goal with
    | H : _ /\ _ |- _ => destruct H
    | H : ?y = Fin _ |- _ => is_var y; subst y
    | H : ?y = NaN |- _ => is_var y; subst y
    | H : finite ?d = true |- _ => destruct d; try discriminate; clear H
    | H : match ?b with true => _ | false => False end |- _ => destruct b; try contradiction
    | H : exists _, _ |- _ => destruct H
    | H : (if (0 <=? ?z)%Z then _ else None) = Some _ |- _ => destruct (Z.leb_spec 0 z); [|discriminate]
    end.
  all: try (injection M as <-).
  all: nat_windows.
  all: try (match goal with H : (0 <= Z.min (Z.min ?r1 ?r2) (Z.min ?r3 ?r4))%Z |- _ =>
      destruct (Z_of_nat_complete r1 ltac:(lia)) as [? ->]; destruct (Z_of_nat_complete r2 ltac:(lia)) as [? ->];
      destruct (Z_of_nat_complete r3 ltac:(lia)) as [? ->]; destruct (Z_of_nat_complete r4 ltac:(lia)) as [? ->] end).
  all: subst.
  all: lazymatch goal with |- settles _ ?m (compute ?i _ _) _ => lazymatch i with
    | UltOsc _ _ _ _ _ _ => abstract (apply f_uo; auto; mem)
    | Stoch _ _ => abstract (apply f_stoch; mem)
    | StochSignal _ _ => abstract (apply f_signal; mem)
    | Roc _ => abstract (apply f_roc; mem)
    | AwesomeOsc _ _ => abstract (apply f_ao; mem)
    | WilliamsR _ => abstract (apply f_wr; mem)
    | AroonUp _ => abstract (apply f_aroon; mem)
    | AroonDown _ => abstract (apply f_aroon; mem)
    | AroonInd _ => abstract (apply f_aroon; mem)
    | Sma _ => abstract (apply f_sma; mem)
    | Wma _ => abstract (apply f_wma; mem)
    | IchiConv _ _ _ _ => abstract (apply f_ichi; mem)
    | IchiBase _ _ _ _ => abstract (apply f_ichi; mem)
    | IchiA _ _ _ _ => abstract (apply f_ichi; mem)
    | IchiB _ _ _ _ => abstract (apply f_ichi; mem)
    | Kst (Z.of_nat ?a) (Z.of_nat ?b) (Z.of_nat ?c) (Z.of_nat ?d) (Z.of_nat ?e) (Z.of_nat ?f) (Z.of_nat ?g) (Z.of_nat ?h) (Z.of_nat ?o) => abstract (eassert (K := f_kst a b c d e f g h o m ltac:(lia) ltac:(lia) ltac:(lia) ltac:(lia) ltac:(lia) ltac:(km) ltac:(km) ltac:(km) ltac:(km)); cbv beta zeta in K; destruct K as (K & _ & _); exact K)
    | KstSig (Z.of_nat ?a) (Z.of_nat ?b) (Z.of_nat ?c) (Z.of_nat ?d) (Z.of_nat ?e) (Z.of_nat ?f) (Z.of_nat ?g) (Z.of_nat ?h) (Z.of_nat ?o) => abstract (eassert (K := f_kst a b c d e f g h o m ltac:(lia) ltac:(lia) ltac:(lia) ltac:(lia) ltac:(lia) ltac:(km) ltac:(km) ltac:(km) ltac:(km)); cbv beta zeta in K; destruct K as (_ & K & _); exact K)
    | KstDiff (Z.of_nat ?a) (Z.of_nat ?b) (Z.of_nat ?c) (Z.of_nat ?d) (Z.of_nat ?e) (Z.of_nat ?f) (Z.of_nat ?g) (Z.of_nat ?h) (Z.of_nat ?o) => abstract (eassert (K := f_kst a b c d e f g h o m ltac:(lia) ltac:(lia) ltac:(lia) ltac:(lia) ltac:(lia) ltac:(km) ltac:(km) ltac:(km) ltac:(km)); cbv beta zeta in K; destruct K as (_ & _ & K); exact K)
    | Dpo _ => abstract (apply f_dpo; mem)
    | Cci _ _ => abstract (apply f_cci; mem)
    | VortexPos _ => abstract (apply f_vortex; mem)
    | VortexNeg _ => abstract (apply f_vortex; mem)
    | VortexDiff _ => abstract (apply f_vdiff; mem)
    | BbM _ _ => abstract (apply f_bb; mem)
    | BbH _ _ => abstract (apply f_bb; mem)
    | BbL _ _ => abstract (apply f_bb; mem)
    | BbW _ _ => abstract (apply f_bb; mem)
    | BbP _ _ => abstract (apply f_bb; mem)
    | BbHI _ _ => abstract (apply f_bb; mem)
    | BbLI _ _ => abstract (apply f_bb; mem)
    | KcM _ _ _ _ => abstract (apply f_kc; mem)
    | KcH _ _ _ _ => abstract (apply f_kc; mem)
    | KcL _ _ _ _ => abstract (apply f_kc; mem)
    | KcW _ _ _ _ => abstract (apply f_kc; mem)
    | KcP _ _ _ _ => abstract (apply f_kc; mem)
    | KcHI _ _ _ _ => abstract (apply f_kc; mem)
    | KcLI _ _ _ _ => abstract (apply f_kc; mem)
    | DcH _ _ => abstract (apply f_dc; mem)
    | DcL _ _ => abstract (apply f_dc; mem)
    | DcM _ _ => abstract (apply f_dc; mem)
    | DcW _ _ => abstract (apply f_dc; mem)
    | DcP _ _ => abstract (apply f_dc; mem)
    | Ulcer _ => abstract (apply f_ulcer; mem)
    | Cmf _ => abstract (apply f_cmf; mem)
    | Eom _ => abstract (apply f_eom; mem)
    | SmaEom _ => abstract (apply f_smaeom; mem)
    | Mfi _ => abstract (apply f_mfi; mem)
    | Vwap _ => abstract (apply f_vwap; mem)
    | DailyReturn => abstract (exact f_daily)
    | DailyLogReturn _ => abstract (exact f_log)
    end end.
Qed.
End Flat.

Lemma halted_frame : forall p rows, Forall (halted p) rows ->
  exists v, same_values rows (frame (length rows) (fun _ => p) (fun _ => p) (fun _ => p) v) /\ forall i, (i < length rows)%nat -> 0 < v i.
Proof.
  intros p rows H. exists (fun i => value (nth i (map b_volume rows) NaN)). split.
  - unfold same_values, frame, tab. revert rows H.
    assert (G : forall rows, Forall (halted p) rows -> forall g k, (forall i, (i < length rows)%nat -> g (k + i)%nat = nth i (map b_volume rows) NaN) ->
      Forall2 (fun a b : bar xr => b_high a = b_high b /\ b_low a = b_low b /\ b_close a = b_close b /\ b_volume a = b_volume b) rows
        (map (fun i => mkbar (Z.of_nat i) (Fin p) (Fin p) (Fin p) (Fin (value (g i)))) (seq k (length rows)))).
    { induction 1 as [|b rows (H1 & H2 & H3 & v & H4 & _) Hr IH]; intros g k G; cbn [length seq map]; constructor.
      - cbn. rewrite H1, H2, H3. specialize (G 0%nat ltac:(cbn; lia)). rewrite Nat.add_0_r in G. rewrite G. cbn. rewrite H4. auto.
      - apply IH. intros i Hi. specialize (G (S i) ltac:(cbn; lia)). cbn [map nth] in G. rewrite <- G. f_equal. lia. }
    intros rows H. apply (G rows H (fun i => nth i (map b_volume rows) NaN) 0%nat). auto.
  - intros i Hi. assert (E : In (nth i rows (mkbar 0 NaN NaN NaN NaN)) rows) by now apply nth_In.
    rewrite Forall_forall in H. destruct (H _ E) as (_ & _ & _ & v & V & P).
    rewrite (nth_indep _ NaN (b_volume (mkbar 0 NaN NaN NaN NaN : bar xr))) by now rewrite map_length. rewrite map_nth, V. exact P.
Qed.
Lemma memory_unlabelled : forall (ind : indicator xr) m, memory ind = Some m -> label_dependent ind = false.
Proof. intros ind m. destruct ind; cbn; try discriminate; auto. Qed.
Lemma halt_table : forall p ind x m past rows out, 0 < p -> Forall (halted p) rows -> rests_at p ind x -> memory ind = Some m ->
  compute ind false (past ++ rows) = Ok out ->
  forall i, (length past + m <= i < length past + length rows)%nat -> nth i out NaN = x.
Proof.
  intros p ind x m past rows out Hp H R M E i Hi. destruct (halted_frame p rows H) as (v & S & V).
  destruct (rests_flat (length rows) p v Hp V ind x m R M) as (o & Eo & L & N).
  rewrite <- (labels_irrelevant _ _ ind false _ _ (memory_unlabelled _ _ M) S) in Eo.
  pose proof (memory_table ind m (or_introl windowed_xr) M past rows o out Eo E) as Q.
  rewrite <- (N (i - length past)%nat) by lia.
  assert (A : nth (i - (length past + m)) (skipn (length past + m) out) NaN = nth (i - (length past + m)) (skipn m o) NaN) by now rewrite Q.
  rewrite !nth_skipn' in A. replace (length past + m + (i - (length past + m)))%nat with i in A by lia.
  replace (m + (i - (length past + m)))%nat with (i - length past)%nat in A by lia. exact A.
Qed.

(** ** RSI and the directional indicators stand still *)
Lemma wilder_flat : forall w f i, (1 <= i)%nat -> f i = 0 -> wilder w f 0 i = (1 - 1 / INR w) * wilder w f 0 (i - 1).
Proof.
  intros w f i Hi F. unfold wilder, expavg. rewrite !Nat.sub_0_r. destruct i as [|i]; [lia|]. cbn [exp_go].
  replace (S i - 1)%nat with i by lia. cbn [Nat.add]. rewrite F. ring.
Qed.
Lemma rsi_scale : forall q u d, q <> 0 -> rsi_value (q * u) (q * d) = rsi_value u d.
Proof.
  intros q u d Q. unfold rsi_value. destruct (Req_EM_T (q * d) 0) as [E|E], (Req_EM_T d 0) as [E'|E']; auto.
  - destruct (Rmult_integral _ _ E); contradiction.
  - subst. rewrite Rmult_0_r in E. lra.
  - replace (q * u / (q * d)) with (u / d); auto. field. auto.
Qed.
Lemma inv_lt1 : forall w, (2 <= w)%nat -> 1 - 1 / INR w <> 0.
Proof.
  intros w Hw. assert (H : 2 <= INR w) by (change 2 with (INR 2); now apply le_INR).
  assert (1 / INR w <= 1 / 2); [|lra]. unfold Rdiv. rewrite !Rmult_1_l. apply Rinv_le_contravar; lra.
Qed.
Lemma rsi_still : forall fl w n h l c v i out, (2 <= w)%nat -> (warm fl w < i < n)%nat -> c i = c (i - 1)%nat ->
  compute (Rsi (Z.of_nat w)) fl (frame n h l c v) = Ok out -> nth i out NaN = nth (i - 1) out NaN.
Proof.
  intros fl w n h l c v i out Hw Hi C E. rewrite rsi_formula in E by lia. apply Ok_inj in E. subst out.
  rewrite !nth_tab by lia. unfold from, fromx. destruct (Nat.ltb_spec i (warm fl w)); [lia|]. destruct (Nat.ltb_spec (i - 1) (warm fl w)); [lia|].
  f_equal. rewrite (wilder_flat w (gain c)), (wilder_flat w (loss c)) by first [lia | (unfold gain, loss, delta; destruct (Nat.eqb_spec i 0); auto; rewrite C; unfold Rminus; rewrite Rplus_opp_r, ?Ropp_0; apply max00)].
  apply rsi_scale. now apply inv_lt1.
Qed.
Lemma wsum_still : forall w x t, x (w + S t)%nat = 0 -> wilder_sum w x (S t) = (1 - 1 / INR w) * wilder_sum w x t.
Proof. intros. cbn [wilder_sum]. rewrite H. unfold Rdiv. ring. Qed.
Lemma di_still : forall w h l c i, (2 <= w)%nat -> (w < i)%nat ->
  l (i - 1)%nat <= c (i - 1)%nat <= h (i - 1)%nat -> h i = c (i - 1)%nat -> l i = c (i - 1)%nat ->
  di_value w (dm_plus h l) (dm_range h l c) i = di_value w (dm_plus h l) (dm_range h l c) (i - 1) /\
  di_value w (dm_minus h l) (dm_range h l c) i = di_value w (dm_minus h l) (dm_range h l c) (i - 1).
Proof.
  intros w h l c i Hw Hi Hs Hh Hl.
  assert (P : dm_plus h l i = 0).
  { unfold dm_plus. cbv zeta. destruct (Rlt_dec _ _); auto. apply Rmax_left. lra. }
  assert (Q : dm_minus h l i = 0).
  { unfold dm_minus. cbv zeta. destruct (Rlt_dec _ _); auto. apply Rmax_left. lra. }
  assert (T : dm_range h l c i = 0) by (unfold dm_range; rewrite Hh, Hl, Rmax_left, Rmin_left by lra; lra).
  pose proof (inv_lt1 w Hw) as N.
  assert (K : forall x, x i = 0 -> di_value w x (dm_range h l c) i = di_value w x (dm_range h l c) (i - 1)).
  { intros x X. unfold di_value. replace (i - w)%nat with (S (i - 1 - w)) by lia.
    rewrite !wsum_still by (replace (w + S (i - 1 - w))%nat with i by lia; auto).
    set (s := wilder_sum w x _). set (t := wilder_sum w (dm_range h l c) _).
    destruct (Req_EM_T (_ * t) 0) as [E|E], (Req_EM_T t 0) as [E'|E']; auto.
    - destruct (Rmult_integral _ _ E); contradiction.
    - rewrite E', Rmult_0_r in E. lra.
    - revert N. generalize (1 - 1 / INR w). intros q N. replace (q * s / (q * t)) with (s / t); auto. field. auto. }
  split; now apply K.
Qed.
Lemma di_rows_still : forall fl w n h l c v i p q, (2 <= w)%nat -> (S w < i < n)%nat ->
  l (i - 1)%nat <= c (i - 1)%nat <= h (i - 1)%nat -> h i = c (i - 1)%nat -> l i = c (i - 1)%nat ->
  compute (AdxPos (Z.of_nat w)) fl (frame n h l c v) = Ok p -> compute (AdxNeg (Z.of_nat w)) fl (frame n h l c v) = Ok q ->
  nth i p NaN = nth (i - 1) p NaN /\ nth i q NaN = nth (i - 1) q NaN.
Proof.
  intros fl w n h l c v i p q Hw Hi Hs Hh Hl Ep Eq.
  destruct (di_formula fl w n h l c v ltac:(lia)) as [Fp Fq]. rewrite Fp in Ep. rewrite Fq in Eq. apply Ok_inj in Ep, Eq. subst p q.
  destruct (di_still w h l c i Hw ltac:(lia) Hs Hh Hl) as [Dp Dq].
  rewrite !nth_tab by lia. destruct (Nat.leb_spec i w); [lia|]. destruct (Nat.leb_spec (i - 1) w); [lia|]. now rewrite Dp, Dq.
Qed.
