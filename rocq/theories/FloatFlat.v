(** * FloatFlat: an unchanging market in binary64. *)
From Coq Require Import Reals Lra Floats.
From Verif Require Import Lists Align Rows Running Rounded Arith FloatArith FloatReal Order FloatOrder Api FloatPct FloatEma FloatExact.
Local Open Scope R_scope.

(** missing or the number v *)
Definition cst (v : R) (x : float) : Prop := fisnan x = true \/ val x = Fin v.
Lemma cst_fnan : forall v, cst v fnan. Proof. intros. now left. Qed.
Lemma nan_val : forall x : float, fisnan x = true <-> val x = NaN.
Proof. intros. rewrite val_nan. destruct (val x); split; congruence. Qed.
Lemma cst_val : forall v x, cst v x <-> val x = NaN \/ val x = Fin v.
Proof. intros. unfold cst. now rewrite nan_val. Qed.
Lemma cst_Z : forall z, (Z.abs z <= 2 ^ 53)%Z -> cst (IZR z) (fofZ z).
Proof. intros. right. now apply val_small. Qed.

(** ** zeros *)
Lemma rsign0 : rsign 0 = 0%Z.
Proof. unfold rsign. destruct (Rlt_dec 0 0); [lra|]. destruct (Rlt_dec 0 0); [lra|auto]. Qed.
Lemma z_mul_l : forall x y, cst 0 x -> cst 0 (fmul x y).
Proof.
  intros x y H. rewrite cst_val in *. rewrite val_mul. destruct H as [-> | ->]; [now left|].
  destruct (val y); cbn [xmul xsign]; rewrite ?rsign0, ?Z.mul_0_l, ?Rmult_0_l; [left; reflexivity..|right; exact rx_0].
Qed.
Lemma z_mul_r : forall x y, cst 0 y -> cst 0 (fmul x y).
Proof.
  intros x y H. rewrite cst_val in *. rewrite val_mul. destruct H as [-> | ->]; [left; now destruct (val x)|].
  destruct (val x); cbn [xmul xsign]; rewrite ?rsign0, ?Z.mul_0_r, ?Rmult_0_r; [left; reflexivity..|right; exact rx_0].
Qed.
Lemma z_div : forall x y, cst 0 x -> cst 0 (fdiv x y).
Proof.
  intros x y H. rewrite cst_val in *. destruct H as [H|H].
  - left. apply nan_val. apply div_nan_l. now apply nan_val.
  - destruct (val y) eqn:Y.
    1,2,3: rewrite val_div, H, Y by congruence; cbn [xdiv rx]; auto; right; exact rx_0.
    destruct (Req_dec r 0) as [-> | Hr]; [left; now apply val_div_00|].
    rewrite val_div, H, Y by congruence. cbn [xdiv]. destruct Req_EM_T; [easy|]. unfold Rdiv. rewrite Rmult_0_l. right. exact rx_0.
Qed.
Lemma z_add : forall x y, cst 0 x -> cst 0 y -> cst 0 (fadd x y).
Proof.
  intros x y H1 H2. rewrite cst_val in *. rewrite val_add. destruct H1 as [-> | ->]; [now left|]. destruct H2 as [-> | ->]; [now left|].
  cbn [xadd]. rewrite Rplus_0_l. right. exact rx_0.
Qed.
Lemma same_sub : forall v x y, cst v x -> cst v y -> cst 0 (fsub x y).
Proof.
  intros v x y H1 H2. rewrite cst_val in *. rewrite val_sub. destruct H1 as [-> | ->]; [now left|]. destruct H2 as [-> | ->]; [now left|].
  unfold xsub. cbn [xadd xopp]. rewrite Rplus_opp_r. right. exact rx_0.
Qed.
Lemma same_div : forall v x y, v <> 0 -> cst v x -> cst v y -> cst 1 (fdiv x y).
Proof.
  intros v x y V H1 H2. destruct H2 as [H2|H2]; [left; now apply div_nan_r|]. destruct H1 as [H1|H1]; [left; now apply div_nan_l|].
  right. rewrite val_div, H1, H2 by congruence. cbn [xdiv]. destruct Req_EM_T; [easy|]. unfold Rdiv. rewrite Rinv_r by auto.
  pose proof (rx_id (fofZ 1)) as E. rewrite (val_small 1) in E by lia. exact E.
Qed.
Lemma z_abs : forall x, cst 0 x -> cst 0 (fabs x).
Proof. intros x H. rewrite cst_val in *. rewrite val_abs. destruct H as [-> | ->]; cbn; auto. rewrite Rabs_R0. auto. Qed.
Lemma z_opp : forall x, cst 0 x -> cst 0 (fopp x).
Proof. intros x H. rewrite cst_val in *. rewrite val_opp. destruct H as [-> | ->]; cbn; auto. rewrite Ropp_0. auto. Qed.
Lemma z_sqrt : forall x, cst 0 x -> cst 0 (fsqrt x).
Proof.
  intros x H. rewrite cst_val in *. rewrite val_sqrt. destruct H as [-> | ->]; auto. destruct Rlt_dec; [lra|]. rewrite sqrt_0, rnd_0. auto.
Qed.
Lemma z0 : cst 0 (fofZ 0). Proof. apply (cst_Z 0). lia. Qed.

(** ** series *)
Lemma f_map : forall (P Q : float -> Prop) f s, (forall x, P x -> Q (f x)) -> Forall P s -> Forall Q (map f s).
Proof. intros P Q f s H. induction 1; constructor; auto. Qed.
Lemma f_map2 : forall (P Q T : float -> Prop) f s t, (forall x y, P x -> Q y -> T (f x y)) -> Forall P s -> Forall Q t -> Forall T (map2 f s t).
Proof. intros P Q T f s t H Hs. revert t. induction Hs; intros t Ht; destruct Ht; constructor; auto. Qed.
Lemma f_left : forall (P T : float -> Prop) (f : float -> float -> float) s t, (forall x y, P x -> T (f x y)) -> Forall P s -> Forall T (map2 f s t).
Proof. intros P T f s t H Hs. revert t. induction Hs; intros [|]; constructor; auto. Qed.
Lemma f_firstn : forall (P : float -> Prop) k s, Forall P s -> Forall P (firstn k s).
Proof. intros P k s H. revert k. induction H; intros [|k]; constructor; auto. Qed.
Lemma f_skipn : forall (P : float -> Prop) k s, Forall P s -> Forall P (skipn k s).
Proof. intros P k s H. revert k. induction H; intros [|k]; cbn; auto. Qed.
Lemma f_repeat : forall (P : float -> Prop) k x, P x -> Forall P (repeat x k).
Proof. induction k; constructor; auto. Qed.
Lemma f_shift : forall v k s, Forall (cst v) s -> Forall (cst v) (shift k s).
Proof.
  intros v k s H. unfold shift, shift_fill. destruct (0 <=? k)%Z; apply Forall_app; split;
    auto using f_firstn, f_skipn, f_repeat, cst_fnan.
Qed.
Lemma f_prep : forall v s, Forall (cst v) s -> Forall (cst v) (prep s).
Proof. intros v s. apply f_map. intros x H. destruct (fisinf x); auto using cst_fnan. Qed.
Lemma f_window : forall v w i s, Forall (cst v) s -> Forall (cst v) (window_at w i s).
Proof. intros. unfold window_at. auto using f_firstn, f_skipn. Qed.
Lemma f_rolling : forall v v' w mp g s r, (forall k win, Forall (cst v) win -> cst v' (g k win)) ->
  Forall (cst v) s -> rolling w mp (by_window g) s = Ok r -> Forall (cst v') r.
Proof.
  intros v v' w mp g s r H Hs. unfold rolling. destruct (_ || _); [discriminate|]. intros E. injection E as <-. cbn [roll_rows].
  apply Forall_forall. intros x I. apply in_map_iff in I as (i & <- & _). apply H. now apply f_window, f_prep.
Qed.
Lemma f_obs : forall v s, Forall (cst v) s -> Forall (fun x => val x = Fin v) (obs s).
Proof.
  intros v s. unfold obs. induction 1 as [|x s H Hs IH]; [constructor|]. cbn [filter]. destruct (fisnan x) eqn:N; cbn; auto.
  constructor; auto. destruct H; congruence.
Qed.
Lemma f_obs0 : forall v s, Forall (cst v) s -> Forall (cst v) (obs s).
Proof. intros v s H. apply f_obs in H. eapply Forall_impl; [|exact H]. intros; now right. Qed.
Lemma f_fold2 : forall v f, (forall x y, cst v x -> cst v y -> cst v (f x y)) -> forall s x, Forall (cst v) s -> cst v x -> cst v (fold_left f s x).
Proof. intros v f Hf s x H. revert x. induction H; intros z Hz; cbn; auto. Qed.
Lemma f_max2 : forall v x y, cst v x -> cst v y -> cst v (fmax2 x y). Proof. intros. unfold fmax2. now destruct (fltb x y). Qed.
Lemma f_min2 : forall v x y, cst v x -> cst v y -> cst v (fmin2 x y). Proof. intros. unfold fmin2. now destruct (fltb y x). Qed.
Lemma f_nanmax : forall v s, Forall (cst v) s -> cst v (nanmax s).
Proof.
  intros v s H. apply f_obs0 in H. unfold nanmax. destruct (obs s); [apply cst_fnan|]. apply f_fold2; [apply f_max2|exact (Forall_inv_tail H)|exact (Forall_inv H)].
Qed.
Lemma f_nanmin : forall v s, Forall (cst v) s -> cst v (nanmin s).
Proof.
  intros v s H. apply f_obs0 in H. unfold nanmin. destruct (obs s); [apply cst_fnan|]. apply f_fold2; [apply f_min2|exact (Forall_inv_tail H)|exact (Forall_inv H)].
Qed.
Lemma f_agg_max : forall v k s, Forall (cst v) s -> cst v (win_max k s).
Proof. intros. unfold win_max. destruct (_ <? _)%nat; auto using cst_fnan, f_nanmax. Qed.
Lemma f_agg_min : forall v k s, Forall (cst v) s -> cst v (win_min k s).
Proof. intros. unfold win_min. destruct (_ <? _)%nat; auto using cst_fnan, f_nanmin. Qed.
Lemma z_sum : forall s, Forall (cst 0) s -> cst 0 (fsum s).
Proof. intros. apply fsum_closed; auto using z_add, z0. Qed.
Lemma z_rolling_mean : forall w mp s r, Forall (cst 0) s -> rolling w mp agg_mean s = Ok r -> Forall (cst 0) r.
Proof.
  intros w mp s r Hs E. apply Forall_rows. intros i Hi. pose proof (len_rolling _ _ _ _ _ E) as Lr.
  rewrite (nth_rolling_row _ _ _ _ _ _ _ E) by lia. cbn [calc_row]. unfold calc_mean.
  destruct (_ || _); auto using cst_fnan. apply f_prep in Hs. rewrite Forall_forall in Hs.
  assert (Q : (fun q => cst 0 (k_sum q) /\ cst 0 (k_add q) /\ cst 0 (k_rem q)) (nth i (run sum_put sum_take sum_start (Z.to_nat w) (prep s)) sum_start)).
  { apply (run_nth _ sum_put sum_take sum_start _ (prep s) (fun _ q => cst 0 (k_sum q) /\ cst 0 (k_add q) /\ cst 0 (k_rem q))).
    - apply len_shift.
    - repeat split; apply z0.
    - intros k q Hk (Q1 & Q2 & Q3).
      assert (X : cst 0 (nth k (prep s) fnan)) by (apply Hs, nth_In; auto).
      assert (Y : cst 0 (nth k (shift (Z.of_nat (Z.to_nat w)) (prep s)) fnan)).
      { assert (G : Forall (cst 0) (shift (Z.of_nat (Z.to_nat w)) (prep s))) by (apply f_shift; now apply Forall_forall).
        rewrite Forall_forall in G. apply G, nth_In. now rewrite len_shift. }
      unfold sum_take. destruct (fisnan (nth k (shift _ _) fnan)); unfold sum_put; destruct (fisnan (nth k (prep s) fnan));
        cbn [k_sum k_add k_rem]; repeat split; eauto 20 using z_add, same_sub, z_opp.
    - rewrite len_prep. lia. }
  destruct Q as (Q & _). destruct (_ && _); [apply z0|]. destruct (_ && _); [apply z0|]. now apply z_div.
Qed.
Lemma z_smean : forall s, Forall (cst 0) s -> cst 0 (smean s).
Proof.
  intros s H. unfold smean. destruct (obs s); auto using cst_fnan. apply z_div. unfold ssum. apply z_sum. apply Forall_map.
  eapply Forall_impl; [|exact H]. intros x X. destruct (fisnan x); auto using z0.
Qed.
Lemma f_ewm_go : forall v al m s k avg ow, Forall (cst v) s -> cst v avg -> Forall (cst v) (ewm_go al m k avg ow s).
Proof.
  intros v al m. induction s as [|x s IH]; intros k avg ow H A; [constructor|]. pose proof (Forall_inv H) as X. pose proof (Forall_inv_tail H) as Hs.
  cbn [ewm_go]. destruct (fisnan x) eqn:Nx, (fisnan avg) eqn:Na; cbn [negb].
  1,2,3: constructor; [destruct (_ <=? _)%nat; auto using cst_fnan|auto].
  destruct X as [X|X]; [congruence|]. destruct A as [A|A]; [congruence|].
  assert (E : feqb avg x = true) by (rewrite val_eqb, X, A; cbn; destruct Req_EM_T; auto).
  rewrite E. constructor; [destruct (_ <=? _)%nat; [now right|apply cst_fnan]|]. apply IH; auto. now right.
Qed.
Lemma f_ewm : forall v com mp s, Forall (cst v) s -> Forall (cst v) (ewm_com com mp s).
Proof. intros. unfold ewm_com. apply f_ewm_go; auto using f_prep, cst_fnan. Qed.
Lemma f_ema : forall v w b s r, Forall (cst v) s -> ema_ s w b = Ok r -> Forall (cst v) r.
Proof.
  intros v w b s r H E. unfold ema_, ewm_span in E. destruct (_ <? _)%Z; [discriminate|]. injection E as <-. now apply f_ewm.
Qed.
Lemma f_inv : forall v w mp s r, Forall (cst v) s -> ewm_inv_alpha w mp s = Ok r -> Forall (cst v) r.
Proof.
  intros v w mp s r H E. unfold ewm_inv_alpha in E. destruct (_ =? _)%Z; [discriminate|]. destruct (_ <? _)%Z; [discriminate|]. injection E as <-. now apply f_ewm.
Qed.
Lemma f_ffill : forall v s x, Forall (cst v) s -> cst v x -> Forall (cst v) (ffill_go x s).
Proof.
  induction s as [|y s IH]; intros x H X; [constructor|]. cbn [ffill_go]. pose proof (Forall_inv H). pose proof (Forall_inv_tail H).
  destruct (fisnan y); constructor; auto.
Qed.
Lemma f_bfill : forall v s, Forall (cst v) s -> Forall (cst v) (bfill s).
Proof.
  intros v s. induction 1 as [|y s H Hs IH]; [constructor|]. cbn [bfill]. constructor; auto. destruct (fisnan y); auto. destruct IH; cbn; auto using cst_fnan.
Qed.
Lemma f_check : forall v b z s, z = (-1)%Z \/ (v = IZR z /\ Z.abs z <= 2 ^ 53)%Z -> Forall (cst v) s -> Forall (cst v) (check_fillna b (FillInt z) s).
Proof.
  intros v b z s Hz H. unfold check_fillna. destruct b; auto. change (replace_inf s) with (prep s). apply f_prep in H.
  assert (G : Forall (cst v) (ffill (prep s))) by (apply f_ffill; auto using cst_fnan).
  destruct (z =? -1)%Z eqn:E; [now apply f_bfill|]. destruct Hz as [-> | [-> B]]; [discriminate|].
  revert G. apply f_map. intros x X. destruct (fisnan x); auto. now apply cst_Z.
Qed.
Lemma z_check : forall b s, Forall (cst 0) s -> Forall (cst 0) (check_fillna b (FillInt 0) s).
Proof. intros. apply f_check; auto. right. split; [reflexivity|lia]. Qed.

Section Flat.
Variables (p : R) (h l c v : list float).
Hypothesis p0 : p <> 0.
Hypothesis Hh : Forall (cst p) h.
Hypothesis Hl : Forall (cst p) l.
Hypothesis Hc : Forall (cst p) c.
Variable b : bool.

Lemma z_macd_run : forall s f g r1 r2 r3, macd_run c s f g b = Ok (r1, r2, r3) -> Forall (cst 0) r1 /\ Forall (cst 0) r2 /\ Forall (cst 0) r3.
Proof.
  intros s f g r1 r2 r3. unfold macd_run. destruct (ema_ c f b) as [xf|] eqn:Ef; [|discriminate]. destruct (ema_ c s b) as [xs|] eqn:Es; [|discriminate].
  cbn [bind]. destruct (ema_ (ssub xf xs) g b) as [xg|] eqn:Eg; [|discriminate]. cbn [bind]. intros E. injection E as <- <- <-.
  assert (A : Forall (cst 0) (ssub xf xs)) by (eapply f_map2; [apply same_sub|eapply f_ema; [exact Hc|exact Ef]|eapply f_ema; [exact Hc|exact Es]]).
  assert (B : Forall (cst 0) xg) by (eapply f_ema; eauto).
  repeat split; auto. eapply f_map2; [apply same_sub| |]; eauto.
Qed.
Lemma z_ppo_run : forall s f g r1 r2 r3, ppo_run c s f g b = Ok (r1, r2, r3) -> Forall (cst 0) r1 /\ Forall (cst 0) r2 /\ Forall (cst 0) r3.
Proof.
  intros s f g r1 r2 r3. unfold ppo_run. destruct (ema_ c f b) as [xf|] eqn:Ef; [|discriminate]. destruct (ema_ c s b) as [xs|] eqn:Es; [|discriminate].
  cbn [bind]. set (y := muls _ _). destruct (ema_ y g b) as [xg|] eqn:Eg; [|discriminate]. cbn [bind]. intros E. injection E as <- <- <-.
  assert (A : Forall (cst 0) y).
  { unfold y, muls. eapply f_map; [intros x; apply z_mul_l|]. eapply f_left; [intros x ?; apply z_div|].
    eapply f_map2; [apply same_sub|eapply f_ema; [exact Hc|exact Ef]|eapply f_ema; [exact Hc|exact Es]]. }
  assert (B : Forall (cst 0) xg) by (eapply f_ema; eauto).
  repeat split; auto. eapply f_map2; [apply same_sub| |]; eauto.
Qed.
Lemma f_rsi : forall w r, rsi_run c w b = Ok r -> Forall (cst 100) r.
Proof.
  intros w r. unfold rsi_run. set (up := map _ (diff1 c)). set (dn := map _ (diff1 c)).
  assert (D : Forall (cst 0) (diff1 c)) by (eapply f_map2; [apply same_sub|exact Hc|now apply f_shift]).
  assert (Dn : Forall (cst 0) dn) by (eapply f_map; [|exact D]; intros x X; apply z_opp; destruct (fltb _ _); auto using z0).
  destruct (ewm_inv_alpha _ _ up) as [eu|] eqn:Eu; [|discriminate]. destruct (ewm_inv_alpha _ _ dn) as [ed|] eqn:Ed; [|discriminate].
  cbn [bind]. intros E. injection E as <-. apply f_inv with (v := 0) in Ed; auto.
  generalize eu. clear Eu eu. intros eu. revert eu. induction Ed as [|x ed X Hd IH]; intros eu; [constructor|].
  destruct eu as [|y eu]; [constructor|]. cbn [sdiv map2]. constructor; [|apply IH].
  change (cst 100 (if feqb x (fofZ 0) then fofZ 100 else fsub (fofZ 100) (fdiv (fofZ 100) (fadd (fofZ 1) (fdiv y x))))). destruct X as [X|X].
  - assert (Q : feqb x (fofZ 0) = false) by now apply eqb_nan_l. rewrite Q. left. apply sub_nan_r, div_nan_r, add_nan_r, div_nan_r. exact X.
  - assert (Q : feqb x (fofZ 0) = true) by (rewrite val_eqb, X, (val_small 0) by lia; cbn; destruct Req_EM_T; auto). rewrite Q. apply (cst_Z 100). lia.
Qed.
Lemma f_pct : Forall (cst 0) (pct_change c).
Proof.
  unfold pct_change, ffill. assert (G : Forall (cst p) (ffill_go fnan c)) by (apply f_ffill; auto using cst_fnan).
  eapply f_map; [|eapply f_map2; [intros x y; apply same_div with (v := p); exact p0|exact G|now apply f_shift]].
  intros x X. eapply same_sub; [exact X|]. apply (cst_Z 1). lia.
Qed.
Lemma f_nvi : forall ch, Forall (cst 0) ch -> forall vp vv x, cst 1000 x -> Forall (cst 1000) (nvi_go x ch vp vv).
Proof.
  induction 1 as [|y ch Y Hch IH]; intros vp vv x X; [constructor|]. destruct vp as [|a vp]; [constructor|]. destruct vv as [|d vv]; [constructor|].
  cbn [nvi_go]. assert (N : cst 1000 (if fltb d a then fmul x (fadd (fofZ 1) y) else x)); [|constructor; auto]. destruct (fltb d a); auto.
  destruct X as [X|X]; [left; now apply mul_nan_l|]. destruct Y as [Y|Y]; [left; now apply mul_nan_r, add_nan_r|].
  right. rewrite val_mul, val_add, X, Y, (val_small 1) by lia. cbn [xadd]. rewrite Rplus_0_r.
  pose proof (rx_id (fofZ 1)) as E. rewrite (val_small 1) in E by lia. rewrite E. cbn [xmul]. rewrite Rmult_1_r.
  pose proof (rx_id (fofZ 1000)) as E'. rewrite (val_small 1000) in E' by lia. exact E'.
Qed.
Lemma z_tr : Forall (cst 0) (true_range h l (shift 1 c)).
Proof.
  unfold true_range.
  assert (G1 : Forall (cst 0) (ssub h l)) by (eapply f_map2; [apply same_sub|exact Hh|exact Hl]).
  assert (G2 : Forall (cst 0) (map fabs (ssub h (shift 1 c)))) by (eapply f_map; [apply z_abs|]; eapply f_map2; [apply same_sub|exact Hh|now apply f_shift]).
  assert (G3 : Forall (cst 0) (map fabs (ssub l (shift 1 c)))) by (eapply f_map; [apply z_abs|]; eapply f_map2; [apply same_sub|exact Hl|now apply f_shift]).
  revert G1 G2 G3. generalize (ssub h l) (map fabs (ssub h (shift 1 c))) (map fabs (ssub l (shift 1 c))).
  intros s t u G1. revert t u. induction G1; intros t u G2 G3; [constructor|]. destruct G2; [constructor|]. destruct G3; [constructor|].
  cbn [map3]. constructor; auto. apply f_nanmax. do 3 (apply Forall_cons; [assumption|]). constructor.
Qed.
Lemma z_atr_go : forall w tr x, Forall (cst 0) tr -> cst 0 x -> Forall (cst 0) (atr_go w x tr).
Proof.
  intros w tr x H. revert x. induction H as [|y tr Y H IH]; intros x X; [constructor|]. cbn [atr_go].
  match goal with |- Forall _ (?a :: _) => assert (N : cst 0 a) end.
  { apply z_div, z_add; auto. now apply z_mul_l. }
  constructor; auto.
Qed.
Lemma z_upd : forall k x s, cst 0 x -> Forall (cst 0) s -> Forall (cst 0) (upd k x s).
Proof.
  intros k x s X H. revert k. induction H; intros [|k]; cbn; try constructor; auto.
Qed.
Lemma z_nth : forall s i, Forall (cst 0) s -> cst 0 (nth i s fnan).
Proof. intros s i H. revert i. induction H; intros [|i]; cbn; auto using cst_fnan. Qed.
Lemma z_wrapped : forall n w tr, Forall (cst 0) tr -> Forall (cst 0) (atr_wrapped n w tr).
Proof.
  intros n w tr H. unfold atr_wrapped. set (a0 := upd _ _ _). assert (A : Forall (cst 0) a0).
  { unfold a0. apply z_upd; [apply z_smean; now apply f_firstn|apply f_repeat, z0]. }
  clearbody a0. revert a0 A. generalize (seq 0 (Z.to_nat (Z.of_nat n - w))). induction l0 as [|k ks IH]; intros a0 A; cbn [fold_left]; auto.
  apply IH. apply z_upd; auto. apply z_div, z_add; [apply z_mul_l|]; now apply z_nth.
Qed.
Lemma z_atr : forall w r, average_true_range h l c w b = Ok r -> Forall (cst 0) r.
Proof.
  intros w r. unfold average_true_range. pose proof z_tr as T.
  destruct (_ <=? _)%Z.
  - destruct (_ <? _)%Z; [discriminate|]. intros E. injection E as <-. now apply z_check, z_wrapped.
  - destruct (_ <? _)%nat; [discriminate|]. intros E. injection E as <-. apply z_check. apply Forall_app. split; [apply f_repeat, z0|].
    assert (S : cst 0 (smean (firstn (Z.to_nat w) (true_range h l (shift 1 c))))) by (apply z_smean; now apply f_firstn).
    constructor; auto. apply z_atr_go; auto. now apply f_skipn.
Qed.
Lemma z_cumsum : forall s x, Forall (cst 0) s -> cst 0 x -> Forall (cst 0) (cumsum_go x s).
Proof.
  intros s x H. revert x. induction H as [|y s Y H IH]; intros x X; [constructor|]. cbn [cumsum_go].
  destruct (fisnan y); constructor; auto using cst_fnan, z_add.
Qed.
Lemma f_donchian : forall w r1 r2, donchian_run h l w b = Ok (r1, r2) -> Forall (cst p) r1 /\ Forall (cst p) r2.
Proof.
  intros w r1 r2. unfold donchian_run. destruct (rolling _ _ agg_max h) eqn:E1; [|discriminate]. cbn [bind].
  destruct (rolling _ _ agg_min l) eqn:E2; [|discriminate]. cbn [bind]. intros E. injection E as <- <-.
  split; [eapply f_rolling; [|exact Hh|exact E1]|eapply f_rolling; [|exact Hl|exact E2]]; auto using f_agg_max, f_agg_min.
Qed.
Lemma f_offset : forall q o s, Forall (cst q) s -> Forall (cst q) (donchian_offset o s).
Proof. intros. unfold donchian_offset. destruct (negb _); auto using f_shift. Qed.
End Flat.
