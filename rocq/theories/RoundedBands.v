(** * RoundedBands: the Donchian channel under rounding. *)
From Verif Require Import Lists Api Order Align Rounded RoundedInd RoundedAdx.
Local Open Scope f_scope.

Section Bands.
Context {F : Type} {A : Arith F} {AL : ArithLaws F} {RL : RoundLaws F}.

(** complete rows: finite, 0 <= low <= close <= high *)
Definition sane_row (h l c : F) : Prop := fin h /\ fle (#0) l /\ fle l c /\ fle c h.

Lemma prep_fin : forall s : list F, Forall fin s -> prep s = s.
Proof. induction 1; [reflexivity|]. cbn. rewrite fin_noinf by auto. f_equal. exact IHForall. Qed.
Lemma check_fin : forall b z (s : list F), Forall fin s -> check_fillna b (FillInt z) s = s.
Proof.
  intros b z s H. unfold check_fillna. destruct b; auto. change (replace_inf s) with (prep s). rewrite prep_fin by auto.
  assert (N : Forall num s) by (eapply Forall_impl; [|exact H]; intros; now apply fin_num).
  assert (E : forall a, ffill_go a s = s).
  { clear H. induction N; intros a; [reflexivity|]. cbn. unfold num in H. rewrite H. now rewrite IHN. }
  unfold ffill. rewrite E. destruct (z =? -1)%Z.
  - clear H E. induction N; [reflexivity|]. cbn. unfold num in H. rewrite H. now rewrite IHN.
  - clear H E. unfold fillna_const. induction N; [reflexivity|]. cbn. unfold num in H. rewrite H. f_equal. exact IHN.
Qed.
Lemma lower_shift : forall k (x y : list F), lower x y -> lower (shift k x) (shift k y).
Proof.
  intros k x y H. assert (L : length x = length y) by (clear -H; induction H; cbn; congruence). unfold shift, shift_fill. rewrite L.
  assert (R : forall n, lower (repeat fnan n) (repeat fnan n)).
  { induction n; constructor; auto. intros N. unfold num in N. rewrite isnan_nan in N. discriminate. }
  assert (Fi : forall n, lower (firstn n x) (firstn n y)).
  { intros n. clear L R. revert n. induction H; intros [|n]; cbn; auto; try (constructor; auto; apply IHForall2); apply IHForall2. }
  assert (Sk : forall n, lower (skipn n x) (skipn n y)).
  { intros n. clear L R Fi. revert n. induction H; intros [|n]; cbn; auto; try (constructor; auto; apply IHForall2); apply IHForall2. }
  destruct (0 <=? k)%Z; apply Forall2_app; auto; apply R || apply Fi || apply Sk.
Qed.
Lemma lower_offset : forall k (x y : list F), lower x y -> lower (donchian_offset k x) (donchian_offset k y).
Proof. intros k x y H. unfold donchian_offset. destruct (negb _); auto. now apply lower_shift. Qed.

Lemma win_in : forall w i (s : list F) x, In x (window_at w i s) -> In x s.
Proof.
  intros w i s x H. unfold window_at in H. rewrite <- (firstn_skipn (S i) s). apply in_or_app. left.
  rewrite <- (firstn_skipn (S i - w) (firstn (S i) s)). apply in_or_app. now right.
Qed.
Lemma nanmax_num : forall (l : list F) x, In x l -> num x -> num (nanmax l).
Proof.
  intros l x H N. unfold nanmax. pose proof (in_obs l x H N) as I. pose proof (obs_num l) as O. destruct (obs l) as [|y r]; [destruct I|].
  inversion O; subst. destruct (fold_max r y) as (M & _ & _); auto. now apply fle_num in M.
Qed.
Lemma nanmin_num : forall (l : list F) x, In x l -> num x -> num (nanmin l).
Proof.
  intros l x H N. unfold nanmin. pose proof (in_obs l x H N) as I. pose proof (obs_num l) as O. destruct (obs l) as [|y r]; [destruct I|].
  inversion O; subst. destruct (fold_min r y) as (M & _ & _); auto. now apply fle_num in M.
Qed.

Variables (h l c : list F) (w : Z) (fillna : bool).
Hypothesis rows : forall i, i < length c -> sane_row (nth i h fnan) (nth i l fnan) (nth i c fnan).
Hypothesis lens : length h = length c /\ length l = length c.

Lemma row_fin : forall i, i < length c -> fin (nth i l fnan) /\ fin (nth i c fnan) /\ fin (nth i h fnan).
Proof.
  intros i Hi. destruct (rows i Hi) as (H1 & H2 & H3 & H4).
  assert (fin (nth i c fnan)) by (eapply pos_fin; [eapply fle_trans; eauto| |]; eauto).
  repeat split; auto. eapply pos_fin; eauto.
Qed.
Lemma h_fin : Forall fin h.
Proof. destruct lens as [Lh Ll]. apply Forall_rows. intros i Hi. apply row_fin. lia. Qed.
Lemma l_fin : Forall fin l.
Proof. destruct lens as [Lh Ll]. apply Forall_rows. intros i Hi. apply row_fin. lia. Qed.

Lemma dc_rows : forall hs ls, donchian_run h l w fillna = Ok (hs, ls) -> length hs = length c /\ length ls = length c /\
  (fillna = true -> Forall fin hs /\ Forall fin ls) /\
  forall i, i < length c -> num (nth i hs fnan) -> num (nth i ls fnan) ->
    fin (nth i hs fnan) /\ fle (#0) (nth i ls fnan) /\ fle (nth i ls fnan) (nth i c fnan) /\ fle (nth i c fnan) (nth i hs fnan).
Proof.
  intros hs ls E. unfold donchian_run in E. destruct (rolling w _ agg_max h) as [hs'|] eqn:Eh; [|discriminate]. cbn [bind] in E.
  destruct (rolling w _ agg_min l) as [ls'|] eqn:El; [|discriminate]. cbn [bind] in E. injection E as <- <-.
  destruct lens as [Lh Ll]. pose proof (len_rolling _ _ _ _ _ Eh) as L1. pose proof (len_rolling _ _ _ _ _ El) as L2.
  assert (W : (0 <= donchian_minp w fillna <= w)%Z).
  { unfold rolling in Eh. destruct (Z.ltb_spec (donchian_minp w fillna) 0); [discriminate|]. destruct (Z.ltb_spec w (donchian_minp w fillna)); [discriminate|]. lia. }
  split; [lia|]. split; [lia|]. split; [intros T; split|].
  - subst fillna. cbn in W. apply Forall_rows. intros i Hi. rewrite (nth_roll _ _ _ _ _ _ Eh) by lia. rewrite prep_fin by apply h_fin.
    cbn. destruct (row_fin i ltac:(lia)) as (_ & _ & Fh). pose proof (own_window (Z.to_nat w) i h ltac:(lia) ltac:(lia)) as O.
    unfold win_max. destruct (_ <? _) eqn:Q.
    + exfalso. apply Nat.ltb_lt in Q. apply in_obs in O; [|now apply fin_num]. destruct (obs _); [destruct O|]. cbn in Q. lia.
    + pose proof (nanmax_num _ _ O (fin_num _ Fh)) as N. apply nanmax_spec in N as [I _].
      apply (proj1 (Forall_forall _ _) h_fin). eapply win_in; eauto.
  - subst fillna. cbn in W. apply Forall_rows. intros i Hi. rewrite (nth_roll _ _ _ _ _ _ El) by lia. rewrite prep_fin by apply l_fin.
    cbn. destruct (row_fin i ltac:(lia)) as (Fh & _ & _). pose proof (own_window (Z.to_nat w) i l ltac:(lia) ltac:(lia)) as O.
    unfold win_min. destruct (_ <? _) eqn:Q.
    + exfalso. apply Nat.ltb_lt in Q. apply in_obs in O; [|now apply fin_num]. destruct (obs _); [destruct O|]. cbn in Q. lia.
    + pose proof (nanmin_num _ _ O (fin_num _ Fh)) as N. apply nanmin_spec in N as [I _].
      apply (proj1 (Forall_forall _ _) l_fin). eapply win_in; eauto.
  - intros i Hi Nh Nl. rewrite (nth_roll _ _ _ _ _ _ Eh) in * by lia. rewrite (nth_roll _ _ _ _ _ _ El) in * by lia.
    rewrite (prep_fin h h_fin) in *. rewrite (prep_fin l l_fin) in *.
    apply aggmax_spec in Nh. apply aggmin_spec in Nl. destruct Nh as [Ih Mh], Nl as [Il Ml].
    assert (W1 : 0 < Z.to_nat w).
    { destruct (Z.to_nat w); [|lia]. exfalso. unfold window_at in Ih. rewrite skipn_all2 in Ih by (rewrite firstn_length; lia). destruct Ih. }
    destruct (rows i Hi) as (R1 & R2 & R3 & R4). destruct (row_fin i Hi) as (Fl & Fc & Fh).
    apply win_in in Ih, Il. repeat split.
    + now apply (proj1 (Forall_forall _ _) h_fin).
    + destruct (In_nth _ _ fnan Il) as (j & Hj & <-). apply rows. lia.
    + eapply fle_trans; [|exact R3]. apply Ml; [apply own_window; lia|now apply fin_num].
    + eapply fle_trans; [exact R4|]. apply Mh; [apply own_window; lia|now apply fin_num].
Qed.
Lemma nth_lower : forall xs ys : list F, length xs = length ys ->
  (forall i, i < length xs -> num (nth i xs fnan) -> num (nth i ys fnan) -> fle (nth i xs fnan) (nth i ys fnan)) -> lower xs ys.
Proof.
  intros xs. induction xs as [|x xs IH]; intros [|y ys] L H; try discriminate; constructor.
  - apply (H 0). cbn. lia.
  - apply IH; [now injection L|]. intros i Hi. apply (H (S i)). cbn. lia.
Qed.
Lemma mid_between : forall a b : F, fle (#0) a -> fle a b -> fin b -> fle a ((b -. a) /. #2 +. a) /\ fle ((b -. a) /. #2 +. a) b.
Proof.
  intros a b H1 H2 Fb. assert (Fa : fin a) by (eapply pos_fin; eauto).
  assert (N : num (b -. a)) by now apply sub_fin. assert (S0 : fle (#0) (b -. a)) by now apply sub_pos.
  assert (S1 : fle (b -. a) b) by now apply le_sub. assert (Fs : fin (b -. a)) by (eapply pos_fin; eauto).
  assert (Q : fle (#0) ((b -. a) /. #2)) by (apply div_pos; [auto|apply ltZ; lia|apply div_fin; auto; apply ltZ; lia]).
  split; [|now apply mid_le]. apply ge_add_l; auto. now apply add_pos_num.
Qed.

Lemma dc_lower : forall o mb hb lb, donchian_channel_mband h l c w o fillna = Ok mb -> donchian_channel_hband h l c w o fillna = Ok hb ->
  donchian_channel_lband h l c w o fillna = Ok lb -> lower lb mb /\ lower mb hb.
Proof.
  intros o mb hb lb. unfold donchian_channel_mband, donchian_channel_hband, donchian_channel_lband.
  destruct (donchian_run h l w fillna) as [[hs ls]|] eqn:E; [|discriminate]. cbn [bind].
  intros E1 E2 E3. injection E1 as <-. injection E2 as <-. injection E3 as <-.
  destruct (dc_rows _ _ E) as (L1 & L2 & Ff & R).
  set (ms := sadd (divs (ssub hs ls) (#2)) ls).
  assert (Lm : length ms = length c). { unfold ms, sadd, divs, ssub. rewrite length_map2, map_length, length_map2. lia. }
  assert (Nm : forall i, i < length c -> nth i ms fnan = (nth i hs fnan -. nth i ls fnan) /. #2 +. nth i ls fnan).
  { intros i Hi. unfold ms, sadd, divs, ssub.
    rewrite nth_map2 with (da := fnan) (db := fnan) by (rewrite ?map_length, ?length_map2; lia). f_equal.
    rewrite nth_indep with (d' := fnan /. #2) by (rewrite map_length, length_map2; lia). rewrite map_nth with (f := fun x => x /. #2).
    f_equal. apply nth_map2; lia. }
  assert (B : forall i, i < length c -> num (nth i hs fnan) -> num (nth i ls fnan) -> fle (nth i ls fnan) (nth i ms fnan) /\ fle (nth i ms fnan) (nth i hs fnan)).
  { intros i Hi N1 N2. destruct (R i Hi N1 N2) as (R1 & R2 & R3 & R4). rewrite Nm by auto. apply mid_between; auto. eapply fle_trans; eauto. }
  assert (Fm : fillna = true -> Forall fin ms).
  { intros T. destruct (Ff T) as [F1 F2]. apply Forall_rows. intros i Hi.
    assert (G1 : fin (nth i hs fnan)) by (apply (proj1 (Forall_forall _ _) F1), nth_In; lia).
    assert (G2 : fin (nth i ls fnan)) by (apply (proj1 (Forall_forall _ _) F2), nth_In; lia).
    destruct (B i ltac:(lia) (fin_num _ G1) (fin_num _ G2)). eapply fin_between; eauto. }
  assert (Ck : forall s, (fillna = true -> Forall fin s) -> check_fillna fillna (FillInt (-1)) s = s).
  { intros s Hs. destruct fillna; [now apply check_fin, Hs|reflexivity]. }
  rewrite !Ck by (auto || apply Ff).
  split; apply lower_offset; apply nth_lower; try lia; intros i Hi N1 N2; rewrite ?Lm, ?L2 in Hi.
  - apply B; auto. rewrite Nm in N2 by auto. nan. auto.
  - apply B; auto. rewrite Nm in N1 by auto. nan. auto.
Qed.
Lemma dc_pband_bet : forall o r, donchian_channel_pband h l c w o fillna = Ok r -> Forall (bet (#0) (#1)) r.
Proof.
  intros o r. unfold donchian_channel_pband. destruct (donchian_run h l w fillna) as [[hs ls]|] eqn:E; [|discriminate]. cbn [bind].
  intros E1. injection E1 as <-. destruct (dc_rows _ _ E) as (L1 & L2 & Ff & R).
  assert (P : Forall (bet (#0) (#1)) (sdiv (ssub c ls) (ssub hs ls))).
  { apply Forall_rows. intros i Hi. unfold sdiv, ssub in *. rewrite !length_map2 in Hi.
    erewrite !nth_map2 with (da := fnan) (db := fnan) by (rewrite ?length_map2; lia).
    intros N. destruct (R i ltac:(lia)) as (R1 & R2 & R3 & R4); [nan; auto|nan; auto|]. now apply position_bet. }
  assert (Q : Forall (bet (#0) (#1)) (check_fillna fillna (FillInt 0) (sdiv (ssub c ls) (ssub hs ls)))) by
    (apply check_P; auto; [apply bet_nan|apply bet_Z; lia]).
  unfold donchian_offset. destruct (negb _); auto. apply shift_P; auto. apply bet_nan.
Qed.
End Bands.
