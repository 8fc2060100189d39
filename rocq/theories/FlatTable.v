(** * FlatTable: the table of C85. *)
From Coq Require Import Reals Lra Floats.
From Verif Require Import Lists Arith FloatArith FloatReal Order FloatOrder Api FloatPct FloatEma FloatExact FloatFlat SpecBinary64.
Local Open Scope R_scope.

Lemma still_cst : forall p r x, val p = Fin r -> PrimFloat.is_nan x = true \/ PrimFloat.eqb x p = true -> cst r x.
Proof.
  intros p r x P [H|H]; [now left|]. right. change (feqb x p = true) in H. rewrite val_eqb, P in H. destruct (val x); cbn in H; try discriminate.
  destruct Req_EM_T; congruence.
Qed.
Lemma cst_shows : forall v r s, val v = Fin r -> Forall (cst r) s -> Forall (shows v) s.
Proof.
  intros v r s V. apply Forall_impl. intros x [H|H]; [now left|]. right. change (feqb x v = true). rewrite val_eqb, V, H. cbn. destruct Req_EM_T; auto.
Qed.
(** RSI with fillna=True has no gaps *)
Definition exactly (v : R) (x : float) : Prop := val x = Fin v.
Lemma x_ewm_go : forall v al m s k avg ow, Forall (exactly v) s -> (m <= 1)%nat -> exactly v avg \/ fisnan avg = true ->
  Forall (exactly v) (ewm_go al m k avg ow s).
Proof.
  intros v al m. induction s as [|x s IH]; intros k avg ow H M A; [constructor|]. pose proof (Forall_inv H) as X. pose proof (Forall_inv_tail H) as Hs.
  unfold exactly in *. cbn [ewm_go]. assert (Nx : fisnan x = false) by (rewrite val_nan, X; auto). rewrite Nx. cbn [negb].
  rewrite (proj2 (Nat.leb_le _ _)) by lia.
  destruct (fisnan avg) eqn:Na; cbn [negb].
  - constructor; auto.
  - destruct A as [A|A]; [|congruence].
    assert (E : feqb avg x = true) by (rewrite val_eqb, X, A; cbn; destruct Req_EM_T; auto). rewrite E. constructor; auto.
Qed.
Lemma x_prep : forall v s, Forall (exactly v) s -> prep s = s.
Proof.
  intros v s. induction 1 as [|x s H Hs IH]; [reflexivity|]. unfold prep in *. cbn [map]. rewrite IH, val_inf, H. reflexivity.
Qed.
Lemma rsi_filled : forall p c w r, Forall (cst p) c -> rsi_run c w true = Ok r -> Forall (exactly 100) r.
Proof.
  intros p c w r Hc. unfold rsi_run. set (up := map _ (diff1 c)). set (dn := map _ (diff1 c)).
  assert (D : Forall (cst 0) (diff1 c)) by (eapply f_map2; [apply same_sub|exact Hc|now apply f_shift]).
  assert (Dn : Forall (exactly 0) dn).
  { eapply f_map; [|exact D]. intros x X. assert (Q : fltb x (fofZ 0) = false).
    { rewrite val_ltb, (val_small 0) by lia. rewrite cst_val in X. destruct X as [-> | ->]; cbn; auto. destruct Rlt_dec; auto. lra. }
    rewrite Q. unfold exactly. rewrite val_opp, (val_small 0) by lia. cbn. now rewrite Ropp_0. }
  destruct (ewm_inv_alpha _ _ up) as [eu|] eqn:Eu; [|discriminate]. destruct (ewm_inv_alpha _ _ dn) as [ed|] eqn:Ed; [|discriminate].
  cbn [bind]. intros E. injection E as <-.
  assert (G : Forall (exactly 0) ed).
  { unfold ewm_inv_alpha in Ed. destruct (_ =? _)%Z; [discriminate|]. destruct (_ <? _)%Z; [discriminate|]. injection Ed as <-.
    unfold ewm_com. rewrite (x_prep _ _ Dn). apply x_ewm_go; auto. }
  generalize eu. clear Eu eu Ed. intros eu. revert eu. induction G as [|x ed X Hd IH]; intros eu; [constructor|].
  destruct eu as [|y eu]; [constructor|]. cbn [sdiv map2]. constructor; [|apply IH].
  change (exactly 100 (if feqb x (fofZ 0) then fofZ 100 else fsub (fofZ 100) (fdiv (fofZ 100) (fadd (fofZ 1) (fdiv y x))))).
  assert (Q : feqb x (fofZ 0) = true) by (rewrite val_eqb, X, (val_small 0) by lia; cbn; destruct Req_EM_T; auto). rewrite Q.
  apply val_small. lia.
Qed.
Lemma x_fill : forall v z s, Forall (exactly v) s -> check_fillna true (FillInt z) s = s.
Proof.
  intros v z s H. unfold check_fillna. change (replace_inf s) with (prep s). rewrite (x_prep v) by auto.
  assert (N : Forall (fun x => fisnan x = false) s) by (eapply Forall_impl; [|exact H]; intros x X; rewrite val_nan, X; reflexivity).
  clear H. assert (F : forall a, ffill_go a s = s).
  { induction N as [|x s Nx Hs IH]; intros a; [reflexivity|]. cbn [ffill_go]. now rewrite Nx, IH. }
  unfold ffill. rewrite F. destruct (_ =? _)%Z.
  - clear F. induction N as [|x s Nx Hs IH]; [reflexivity|]. cbn [bfill]. now rewrite Nx, IH.
  - clear F. unfold fillna_const. induction N as [|x s Nx Hs IH]; [reflexivity|]. cbn [map]. rewrite Nx. now f_equal.
Qed.

Lemma plus_zero : forall v x y, cst 0 x -> cst v y -> cst v (fadd x y).
Proof.
  intros v x y H1 H2. destruct H1 as [H1|H1]; [left; now apply add_nan_l|]. destruct H2 as [H2|H2]; [left; now apply add_nan_r|].
  right. rewrite val_add, H1, H2. cbn [xadd]. rewrite Rplus_0_l, <- H2. apply rx_id.
Qed.
Lemma z_emv : forall p h l v, Forall (cst p) h -> Forall (cst p) l -> Forall (cst 0) (emv h l v).
Proof.
  intros p h l v Hh Hl. unfold emv. eapply f_map; [intros x; apply z_mul_l|]. eapply f_left; [intros x ?; apply z_div|].
  eapply f_left; [intros x ?; apply z_mul_l|]. eapply f_map2; [apply z_add| |]; (eapply f_map2; [apply same_sub| |]); eauto using f_shift.
Qed.

Theorem still_market : forall p ind fillna rows v out, PrimFloat.ltb (PrimFloat.abs p) infinity = true -> PrimFloat.eqb p 0 = false ->
  Forall (still p) rows -> still_value p ind = Some v -> compute ind fillna rows = Ok out -> Forall (shows v) out.
Proof.
  intros p ind fillna rows v out P1 P2 H T E.
  assert (exists r, val p = Fin r /\ r <> 0) as (r & P & R0).
  { change (fltb (fabs p) infinity = true) in P1. rewrite val_ltb, val_abs in P1. replace (val infinity) with PInf in P1 by (rewrite val_SF; vm_compute; reflexivity).
    destruct (val p) as [| | |r] eqn:V; cbn in P1; try discriminate. exists r. split; auto. intros ->.
    change (feqb p (fofZ 0) = false) in P2. rewrite val_eqb, V, (val_small 0) in P2 by lia. cbn in P2. destruct Req_EM_T; [discriminate|easy]. }
  assert (Hh : Forall (cst r) (map b_high rows)).
  { rewrite Forall_map. eapply Forall_impl; [|exact H]. intros b (A & B & C). eapply still_cst; eauto. }
  assert (Hl : Forall (cst r) (map b_low rows)).
  { rewrite Forall_map. eapply Forall_impl; [|exact H]. intros b (A & B & C). eapply still_cst; eauto. }
  assert (Hc : Forall (cst r) (map b_close rows)).
  { rewrite Forall_map. eapply Forall_impl; [|exact H]. intros b (A & B & C). eapply still_cst; eauto. }
  assert (V0 : val 0%float = Fin 0) by (change 0%float with (fofZ 0 : float); apply (val_small 0); lia).
  assert (V100 : val 100%float = Fin 100) by (change 100%float with (fofZ 100 : float); apply (val_small 100); lia).
  assert (V1000 : val 1000%float = Fin 1000) by (change 1000%float with (fofZ 1000 : float); apply (val_small 1000); lia).
  clear H P1 P2. cbn [compute] in E.
  set (h := map b_high rows) in *. set (l := map b_low rows) in *. set (c := map b_close rows) in *. set (vo := map b_volume rows) in *.
  destruct ind; try discriminate T; cbn [still_value] in T; match type of T with Some ?a = Some v => assert (X : v = a) by congruence; rewrite X; clear X T end;
    cbn [compute] in E; fold h l c vo in E.
  - (* rsi *) apply cst_shows with 100; auto. unfold rsi in E. destruct (rsi_run c window fillna) as [x|] eqn:Q; [|discriminate]. injection E as <-.
    destruct fillna; [|eapply f_rsi; eauto]. pose proof (rsi_filled _ _ _ _ Hc Q) as G. rewrite (x_fill 100) by auto.
    eapply Forall_impl; [|exact G]. intros; now right.
  - (* roc *) apply cst_shows with 0; auto. unfold roc in E. injection E as <-. apply z_check. eapply f_map; [intros x; apply z_mul_l|].
    eapply f_left; [intros x ?; apply z_div|]. eapply f_map2; [apply same_sub|exact Hc|now apply f_shift].
  - unfold ppo in E. destruct (ppo_run _ _ _ _ _) as [[[r1 r2] r3]|] eqn:Q; [|discriminate]. injection E as <-.
    apply cst_shows with 0; auto. apply z_check. destruct (z_ppo_run r c Hc _ _ _ _ _ _ _ Q) as (D1 & D2 & D3); assumption.
  - unfold ppo_signal in E. destruct (ppo_run _ _ _ _ _) as [[[r1 r2] r3]|] eqn:Q; [|discriminate]. injection E as <-.
    apply cst_shows with 0; auto. apply z_check. destruct (z_ppo_run r c Hc _ _ _ _ _ _ _ Q) as (D1 & D2 & D3); assumption.
  - unfold ppo_hist in E. destruct (ppo_run _ _ _ _ _) as [[[r1 r2] r3]|] eqn:Q; [|discriminate]. injection E as <-.
    apply cst_shows with 0; auto. apply z_check. destruct (z_ppo_run r c Hc _ _ _ _ _ _ _ Q) as (D1 & D2 & D3); assumption.
  - unfold macd in E. destruct (macd_run _ _ _ _ _) as [[[r1 r2] r3]|] eqn:Q; [|discriminate]. injection E as <-.
    apply cst_shows with 0; auto. apply z_check. destruct (z_macd_run r c Hc _ _ _ _ _ _ _ Q) as (D1 & D2 & D3); assumption.
  - unfold macd_signal in E. destruct (macd_run _ _ _ _ _) as [[[r1 r2] r3]|] eqn:Q; [|discriminate]. injection E as <-.
    apply cst_shows with 0; auto. apply z_check. destruct (z_macd_run r c Hc _ _ _ _ _ _ _ Q) as (D1 & D2 & D3); assumption.
  - unfold macd_diff in E. destruct (macd_run _ _ _ _ _) as [[[r1 r2] r3]|] eqn:Q; [|discriminate]. injection E as <-.
    apply cst_shows with 0; auto. apply z_check. destruct (z_macd_run r c Hc _ _ _ _ _ _ _ Q) as (D1 & D2 & D3); assumption.
  - (* ema *) apply cst_shows with r; auto. eapply f_ema; [exact Hc|exact E].
  - (* atr *) apply cst_shows with 0; auto. eapply z_atr; [exact Hh|exact Hl|exact Hc|exact E].
  - unfold donchian_channel_hband in E. destruct (donchian_run _ _ _ _) as [[r1 r2]|] eqn:Q; [|discriminate]. injection E as <-.
    destruct (f_donchian r h l Hh Hl _ _ _ _ Q) as [D1 D2]. apply cst_shows with r; auto. now apply f_offset, f_check; [left|].
  - unfold donchian_channel_lband in E. destruct (donchian_run _ _ _ _) as [[r1 r2]|] eqn:Q; [|discriminate]. injection E as <-.
    destruct (f_donchian r h l Hh Hl _ _ _ _ Q) as [D1 D2]. apply cst_shows with r; auto. now apply f_offset, f_check; [left|].
  - unfold donchian_channel_mband in E. destruct (donchian_run _ _ _ _) as [[r1 r2]|] eqn:Q; [|discriminate]. injection E as <-.
    destruct (f_donchian r h l Hh Hl _ _ _ _ Q) as [D1 D2]. apply cst_shows with r; auto. apply f_offset, f_check; [now left|].
    eapply f_map2; [apply plus_zero| |exact D2]. eapply f_map; [intros x; apply z_div|]. eapply f_map2; [apply same_sub|exact D1|exact D2].
  - (* fi *) unfold force_index in E. destruct (ema_ _ _ _) as [x|] eqn:Q; [|discriminate]. injection E as <-. apply cst_shows with 0; auto. apply z_check.
    eapply f_ema; [|exact Q]. eapply f_left; [intros y ?; apply z_mul_l|]. eapply f_map2; [apply same_sub|exact Hc|now apply f_shift].
  - unfold ease_of_movement in E. injection E as <-. apply cst_shows with 0; auto. apply z_check. now apply z_emv with r.
  - unfold sma_ease_of_movement in E. destruct (rolling _ _ _ _) as [x|] eqn:Q; [|discriminate]. injection E as <-. apply cst_shows with 0; auto. apply z_check.
    eapply z_rolling_mean; [|exact Q]. now apply z_emv with r.
  - (* vpt *) unfold volume_price_trend in E. apply cst_shows with 0; auto. set (x := cumsum _) in E.
    assert (X : Forall (cst 0) x) by (apply z_cumsum; [eapply f_left; [intros y ?; apply z_mul_l|now apply f_pct with r]|apply z0]).
    match type of E with bind ?q _ = _ => destruct q as [y|] eqn:Q; [|discriminate] end. cbn [bind] in E. injection E as <-. apply z_check.
    assert (Y : Forall (cst 0) y).
    { destruct smoothing_factor as [k|]; [|congruence]. destruct (_ =? _)%Z; [congruence|]. exact (z_rolling_mean _ _ _ _ X Q). }
    destruct dropnans; auto. now apply f_obs0.
  - (* nvi *) unfold negative_volume_index in E. destruct c as [|x c'] eqn:C; [discriminate|].
    match type of E with Ok ?a = _ => assert (X : out = a) by congruence; rewrite X; clear X E end. rewrite <- C in *. clear C.
    apply cst_shows with 1000; auto. apply f_check; [right; split; [reflexivity|lia]|]. constructor; [apply (cst_Z 1000); lia|].
    apply f_nvi; [|apply (cst_Z 1000); lia]. pose proof (f_pct r c R0 Hc) as G. destruct G; [constructor|]. assumption.
  - (* daily return *) unfold daily_return in E. injection E as <-. apply cst_shows with 0; auto. apply z_check. eapply f_map; [intros x; apply z_mul_l|].
    eapply f_map; [intros x X; eapply same_sub; [exact X|apply (cst_Z 1); lia]|]. eapply f_map2; [intros x y; apply same_div; exact R0|exact Hc|now apply f_shift].
  - (* cumulative return *) unfold cumulative_return in E. destruct c as [|x c'] eqn:C; [discriminate|].
    match type of E with Ok ?a = _ => assert (X : out = a) by congruence; rewrite X; clear X E end. rewrite <- C in *.
    assert (X : cst r x) by (rewrite C in Hc; exact (Forall_inv Hc)).
    apply cst_shows with 0; auto. apply f_check; [now left|]. eapply f_map; [intros y; apply z_mul_l|].
    eapply f_map; [intros y Y; eapply same_sub; [exact Y|apply (cst_Z 1); lia]|]. eapply f_map; [|exact Hc]. intros y Y. apply same_div with r; auto.
Qed.
