(** * RoundedInd: the series whose range survives rounding (for any arithmetic
    with the laws of Order.v, any data, NaN and infinities included). *)
From Verif Require Import Lists Api Order Align Rounded.
Local Open Scope f_scope.

Section Ind.
Context {F : Type} {A : Arith F} {AL : ArithLaws F} {RL : RoundLaws F}.

(** ** StochRSI *)
Lemma stochrsi_bet : forall (c : list F) w s1 s2 fillna r, (w < 2 ^ 63)%Z -> stochrsi c w s1 s2 fillna = Ok r -> Forall (bet (#0) (#1)) r.
Proof.
  intros c w s1 s2 fillna r Hw E. unfold stochrsi, stochrsi_run in E.
  destruct (rsi c w fillna) as [q|] eqn:Eq; [|discriminate]. cbn [bind] in E.
  destruct (rolling w w agg_min q) as [lo|] eqn:El; [|discriminate]. cbn [bind] in E.
  destruct (rolling w w agg_max q) as [hi|] eqn:Eh; [|discriminate]. cbn [bind] in E.
  destruct (rolling s1 s1 _ _) as [k|]; [|discriminate]. cbn [bind] in E. injection E as <-.
  apply check_P; [apply bet_nan|apply bet_Z; lia|].
  pose proof (len_rolling _ _ _ _ _ El) as Ll. pose proof (len_rolling _ _ _ _ _ Eh) as Lh.
  assert (W : (0 <= w)%Z). { unfold rolling in El. destruct (Z.ltb_spec w 0); [|lia]. cbn in El. discriminate. }
  apply rsi_bet in Eq as B; auto.
  apply Forall_rows. intros i Hi. unfold sdiv, ssub in *.
  assert (H : i < length q) by (rewrite !length_map2 in Hi; lia).
  erewrite !nth_map2 with (da := fnan) (db := fnan) by (rewrite ?length_map2; lia).
  intros N. set (x := nth i q fnan) in *. set (l := nth i lo fnan) in *. set (h := nth i hi fnan) in *.
  assert (num x /\ num l /\ num h) as (Nx & Nl & Nh) by (nan; auto).
  assert (Bx : bet (#0) (#100) x). { apply (proj1 (Forall_forall _ _) B). now apply nth_In. }
  destruct (Bx Nx) as [B0 B1].
  assert (W1 : 0 < Z.to_nat w \/ w = 0%Z) by lia. destruct W1 as [W1| ->].
  - assert (Ix : In x (window_at (Z.to_nat w) i (prep q))).
    { replace x with (nth i (prep q) fnan); [apply own_window; auto; now rewrite len_prep|].
      rewrite nth_prep. fold x. rewrite fin_noinf; auto. eapply pos_fin; eauto. apply ofZ_fin; lia. }
    assert (L1 : l = win_min (Z.to_nat w) (window_at (Z.to_nat w) i (prep q))) by (now apply (nth_roll w w)).
    assert (H1 : h = win_max (Z.to_nat w) (window_at (Z.to_nat w) i (prep q))) by (now apply (nth_roll w w)).
    rewrite L1 in Nl. rewrite H1 in Nh. apply aggmin_spec in Nl. apply aggmax_spec in Nh.
    apply position_bet; auto; [rewrite L1; apply Nl|rewrite H1; apply Nh]; auto.
  - exfalso. assert (H1 : h = win_max 0 (window_at 0 i (prep q))) by (apply (nth_roll 0 0); auto).
    rewrite H1 in Nh. apply aggmax_spec in Nh. destruct Nh as [Nh _]. unfold window_at in Nh.
    rewrite skipn_all2 in Nh by (rewrite firstn_length; lia). destruct Nh.
Qed.

(** ** MFI *)
Lemma mfi_bet : forall (h l c v : list F) w fillna r, money_flow_index h l c v w fillna = Ok r -> Forall (bet (#0) (#100)) r.
Proof.
  intros h l c v w fillna r E. unfold money_flow_index in E.
  destruct (rolling w _ _ _) as [p|] eqn:Ep in E; [|discriminate]. cbn [bind] in E.
  destruct (rolling w _ _ _) as [n|] eqn:En in E; [|discriminate]. cbn [bind] in E. injection E as <-.
  apply check_P; [apply bet_nan|apply bet_Z; lia|].
  apply (roll_P (fun _ => True) nn) in Ep.
  2:{ intros win _. unfold win_apply. destruct (_ <=? _); [|apply nn_nan]. intros _. apply fsum_pos.
      apply Forall_map, Forall_forall. intros x _. destruct (#0 <=.? x) eqn:L; [exact L|]. apply leZ; lia. }
  2:{ apply Forall_forall; auto. }
  apply Forall_map. unfold sdiv. clear En. revert n. induction Ep; intros [|y n]; cbn; constructor; auto.
  apply pct_bet. now apply div_abs_nn.
Qed.

(** ** Aroon *)
Lemma argbest_lt : forall better (l : list F) i bi b, (bi < i)%nat -> (argbest_go better i bi b l < i + length l)%nat.
Proof.
  intros better l. induction l as [|x l IH]; intros i bi b H; cbn; [lia|].
  destruct (fisnan b); [lia|]. destruct (fisnan x); [lia|].
  destruct (better x b).
  - specialize (IH (S i) i x). lia.
  - specialize (IH (S i) bi b). lia.
Qed.
Lemma argmax_lt : forall l : list F, l <> [] -> (np_argmax l < length l)%nat.
Proof. intros [|x l] H; [congruence|]. cbn. apply (argbest_lt _ l 1 0). lia. Qed.
Lemma argmin_lt : forall l : list F, l <> [] -> (np_argmin l < length l)%nat.
Proof. intros [|x l] H; [congruence|]. cbn. apply (argbest_lt _ l 1 0). lia. Qed.
Lemma aroon_pct : forall w k, (1 <= w < 2 ^ 63)%Z -> (Z.of_nat k <= w)%Z -> bet (#0) (#100) (fofnat k /. fofZ w **. #100 : F).
Proof.
  intros w k Hw Hk N. unfold fofnat. assert (G : flt (#0) (fofZ w : F)) by now apply gtZ0.
  assert (Nq : num (fofZ (Z.of_nat k) /. fofZ w : F)) by (apply div_fin; auto; apply ofZ_fin; lia).
  assert (Q0 : fle (#0) (fofZ (Z.of_nat k) /. fofZ w : F)) by (apply div_pos; auto; apply leZ; lia).
  assert (Q1 : fle (fofZ (Z.of_nat k) /. fofZ w : F) (#1)) by (apply div_le_1; auto; apply leZ; lia).
  split; [apply mul_pos; auto; apply leZ; lia|].
  apply fle_trans with (#1 **. #100).
  - apply mul_le_l; auto; try (apply leZ; lia); try (apply ofZ_fin; lia). eapply pos_fin; eauto. apply ofZ_fin; lia.
  - apply (ofZ_mul 1 100); lia.
Qed.
Lemma aroon_run_bet : forall (h l : list F) w fillna u d, (w < 2 ^ 63)%Z -> aroon_run h l w fillna = Ok (u, d) ->
  Forall (bet (#0) (#100)) u /\ Forall (bet (#0) (#100)) d.
Proof.
  intros h l w fillna u d Hw E. unfold aroon_run in E.
  destruct (rolling _ _ _ h) as [u'|] eqn:Eu; [|discriminate]. cbn [bind] in E.
  destruct (rolling _ _ _ l) as [d'|] eqn:Ed; [|discriminate]. cbn [bind] in E.
  destruct (_ && _) eqn:Z0 in E; [discriminate|]. destruct (_ && _) eqn:Z1 in E; [discriminate|]. injection E as <- <-.
  assert (G : forall (arg : list F -> nat) (s r : list F), (forall l, l <> [] -> (arg l < length l)%nat) ->
    rolling (w + 1) (if fillna then 1%Z else (w + 1)%Z) (agg_apply (fun x => fofnat (arg x) /. fofZ w **. #100)) s = Ok r ->
    ((w =? 0)%Z && negb (length (obs (prep s)) =? 0) = false) -> ((w =? -1)%Z && negb (length s =? 0) = false) ->
    Forall (bet (#0) (#100)) r).
  { intros arg s r Ha Er C0 C1. apply Forall_rows. intros i Hi.
    pose proof (len_rolling _ _ _ _ _ Er) as Lr. rewrite (nth_roll _ _ _ _ _ _ Er) by lia.
    assert (W : (0 <= w + 1)%Z). { unfold rolling in Er. destruct (Z.ltb_spec (w + 1) 0); [|lia]. rewrite orb_true_r in Er. discriminate. }
    unfold win_apply. destruct (_ <=? _) eqn:Q; [|apply bet_nan].
    set (win := window_at (Z.to_nat (w + 1)) i (prep s)) in *.
    assert (Lw : length win = Nat.min (Z.to_nat (w + 1)) (S i)).
    { unfold win, window_at. rewrite skipn_length, firstn_length, len_prep. lia. }
    assert (w <> -1)%Z. { intros ->. cbn in C1. apply negb_false_iff, Nat.eqb_eq in C1. lia. }
    assert (w = 0 \/ 1 <= w)%Z as [-> |] by lia.
    - exfalso. cbn in C0. apply negb_false_iff, Nat.eqb_eq in C0. apply length_zero_iff_nil in C0.
      assert (O : obs win = []).
      { unfold win, window_at, obs. destruct (filter _ (skipn _ _)) as [|y t] eqn:Y; auto.
        assert (In y (y :: t)) by now left. rewrite <- Y in H0. apply filter_In in H0. destruct H0 as [I J].
        assert (K : In y (obs (prep s))). { apply filter_In. split; auto. rewrite <- (firstn_skipn (S i) (prep s)). apply in_or_app. left.
          rewrite <- (firstn_skipn (S i - Z.to_nat (0 + 1)) (firstn (S i) (prep s))). apply in_or_app. now right. }
        rewrite C0 in K. destruct K. }
      rewrite O in Q. cbn in Q. destruct fillna; cbn in Q; discriminate.
    - apply aroon_pct; [lia|]. assert (win <> []) by (intros X; rewrite X in Lw; cbn in Lw; lia).
      specialize (Ha win H1). lia. }
  split; [eapply (G np_argmax); eauto using argmax_lt|eapply (G np_argmin); eauto using argmin_lt].
  all: destruct (w =? 0)%Z, (w =? -1)%Z, (length (obs (prep h)) =? 0), (length (obs (prep l)) =? 0), (length h =? 0), (length l =? 0); cbn in *; auto; try discriminate.
Qed.
Lemma aroon_up_bet : forall (h l : list F) w fillna r, (w < 2 ^ 63)%Z -> aroon_up h l w fillna = Ok r -> Forall (bet (#0) (#100)) r.
Proof.
  intros h l w fillna r Hw E. unfold aroon_up in E. destruct (aroon_run h l w fillna) as [[u d]|] eqn:Er; [|discriminate]. cbn [bind] in E.
  injection E as <-. apply check_P; [apply bet_nan|apply bet_Z; lia|]. apply (aroon_run_bet _ _ _ _ _ _ Hw Er).
Qed.
Lemma aroon_down_bet : forall (h l : list F) w fillna r, (w < 2 ^ 63)%Z -> aroon_down h l w fillna = Ok r -> Forall (bet (#0) (#100)) r.
Proof.
  intros h l w fillna r Hw E. unfold aroon_down in E. destruct (aroon_run h l w fillna) as [[u d]|] eqn:Er; [|discriminate]. cbn [bind] in E.
  injection E as <-. apply check_P; [apply bet_nan|apply bet_Z; lia|]. apply (aroon_run_bet _ _ _ _ _ _ Hw Er).
Qed.
Lemma bet_sub : forall a b : F, bet (#0) (#100) a -> bet (#0) (#100) b -> bet (#-100) (#100) (a -. b).
Proof.
  intros a b Ha Hb N. assert (num a /\ num b) as [Na Nb] by (nan; auto). destruct (Ha Na) as [A0 A1], (Hb Nb) as [B0 B1].
  assert (I : fle (#0) (#100 : F)) by (apply leZ; lia).
  assert (F100 : fin (#100 : F)) by (apply ofZ_fin; lia). assert (F0 : fin (#0 : F)) by (apply ofZ_fin; lia).
  split.
  - apply fle_trans with (#0 -. #100).
    + apply fle_trans with (fopp (#100)); [apply (opp_Z 100)|]. apply sub_0_l_same. now apply fin_num.
    + apply sub_mono; auto. now apply sub_fin.
  - eapply fle_trans; [apply le_sub|]; eauto.
Qed.
Lemma aroon_ind_bet : forall (h l : list F) w fillna r, (w < 2 ^ 63)%Z -> aroon_indicator h l w fillna = Ok r -> Forall (bet (#-100) (#100)) r.
Proof.
  intros h l w fillna r Hw E. unfold aroon_indicator in E. destruct (aroon_run h l w fillna) as [[u d]|] eqn:Er; [|discriminate]. cbn [bind] in E.
  injection E as <-. apply check_P; [apply bet_nan|apply bet_Z; lia|]. apply aroon_run_bet in Er; auto. destruct Er as [Hu Hd].
  apply (Forall_map2 (bet (#0) (#100)) (bet (#0) (#100))); auto. apply bet_sub.
Qed.
End Ind.
