(** * RoundedAdx: ADX family, ATR, Ulcer index, bands, returns and NVI under
    rounding (any arithmetic with the laws of Order.v). *)
From Verif Require Import Lists Api Rows Order Align Rounded RoundedInd.
Local Open Scope f_scope.

Section Adx.
Context {F : Type} {A : Arith F} {AL : ArithLaws F} {RL : RoundLaws F}.

Lemma filter_length_le' : forall {X} (f : X -> bool) l, length (filter f l) <= length l.
Proof. intros X f l. induction l; cbn; auto. destruct (f a); cbn; lia. Qed.

(** ** ADX family *)
Lemma smooth_step_nn : forall (p w : F), nn p -> fle (#1) w -> nn (p -. p /. w).
Proof.
  intros p w Hp Hw N. assert (num p /\ num (p /. w)) as [Np Nq] by (nan; auto). apply sub_pos; auto.
  apply fle_trans with (p /. #1); [|now apply div_1_same].
  assert (S : same (p /. #1) p) by now apply div_1_same.
  apply div_mono2; auto using fle_refl, one_pos. now apply same_num in S.
Qed.
Lemma smooth_go_nn : forall (w : F) xs p, fle (#1) w -> nn p -> Forall nn xs -> Forall nn (adx_smooth_go w p xs).
Proof.
  intros w xs. induction xs as [|x xs IH]; intros p Hw Hp H; [constructor|]. inversion H; subst. cbn.
  assert (nn (p -. p /. w +. x)) by (apply add_nn; auto using smooth_step_nn). auto.
Qed.
Lemma smooth_nn : forall w m (x : list F), (1 <= Z.of_nat w < 2 ^ 63)%Z -> Forall nn x -> Forall nn (adx_smooth w m x).
Proof.
  intros w m x Hw H. unfold adx_smooth.
  assert (F0 : nn (fsum (firstn w (obs x)))) by (apply fsum_nn, Forall_firstn, Forall_filter; auto).
  destruct (m =? 1); [now constructor|]. constructor; auto. apply Forall_app. split.
  - apply smooth_go_nn; auto; [now apply geZ1|]. now apply Forall_skipn.
  - constructor; auto. apply nn_Z; lia.
Qed.
Lemma npmax_ge : forall a b : F, num (npmax2 a b) -> fle b (npmax2 a b).
Proof.
  intros a b N. unfold npmax2 in *. destruct (fisnan a) eqn:Ea; [unfold num in N; congruence|].
  destruct (fisnan b) eqn:Eb; [unfold num in N; congruence|]. now apply max2_spec.
Qed.
Lemma npmin_le : forall a b : F, num (npmin2 a b) -> fle (npmin2 a b) b.
Proof.
  intros a b N. unfold npmin2 in *. destruct (fisnan a) eqn:Ea; [unfold num in N; congruence|].
  destruct (fisnan b) eqn:Eb; [unfold num in N; congruence|]. now apply min2_spec.
Qed.
Lemma ddm_nn : forall h l c : list F, Forall nn (ssub (map2 npmax2 h c) (map2 npmin2 l c)).
Proof.
  intros h. induction h as [|x h IH]; intros l c; [constructor|]. destruct c as [|z c]; [constructor|]. destruct l as [|y l]; [constructor|].
  cbn. constructor; [|apply IH]. intros N. apply sub_pos; auto. assert (num (npmax2 x z) /\ num (npmin2 y z)) as [N1 N2] by (nan; auto).
  eapply fle_trans; [now apply npmin_le|now apply npmax_ge].
Qed.
Lemma abs_map2_nn : forall (f : F -> F -> F) u d, Forall nn (map2 (fun x y => fabs (f x y)) u d).
Proof. intros f u. induction u; intros [|y d]; cbn; constructor; auto using abs_nn. Qed.
Lemma adx_run_nn : forall (h l c : list F) w st, (w < 2 ^ 63)%Z -> adx_run h l c w = Ok st ->
  (1 <= w)%Z /\ Forall nn (adx_trs st) /\ Forall nn (adx_dip st) /\ Forall nn (adx_din st).
Proof.
  intros h l c w st Hw E. unfold adx_run in E. destruct (Z.eqb_spec w 0); [discriminate|]. cbn [get_min_max bind] in E.
  destruct (Z.ltb_spec w 0); [discriminate|]. destruct (_ || _); [discriminate|]. destruct (_ =? _)%Z; [discriminate|].
  injection E as <-. cbn [adx_trs adx_dip adx_din]. split; [lia|].
  repeat split; apply smooth_nn; try lia.
  - apply ddm_nn.
  - apply (abs_map2_nn (fun u d => (if (d <.? u) && (#0 <.? u) then #1 else #0) **. u)).
  - apply (abs_map2_nn (fun u d => (if (u <.? d) && (#0 <.? d) then #1 else #0) **. d)).
Qed.
Lemma pct_nn : forall x y : F, nn x -> nn y -> nn (adx_pct x y).
Proof.
  intros x y Hx Hy. unfold adx_pct. destruct (y =.? #0) eqn:E; cbn [negb]; [apply nn_Z; lia|]. intros N.
  assert (num y) by (nan; auto). apply mul_nn; auto; [apply nn_Z; lia|]. apply div_nn; auto. now apply not0_pos.
Qed.
Lemma line_nn : forall n w (x t : list F), Forall nn x -> Forall nn t -> Forall nn (adx_line n w x t).
Proof.
  intros. unfold adx_line. apply Forall_app. split.
  - apply Forall_forall. intros y Hy. apply repeat_spec in Hy. subst. apply nn_Z; lia.
  - apply Forall_firstn, Forall_skipn. apply (Forall_map2 nn nn); auto using pct_nn.
Qed.
Lemma adx_pos_nn : forall (h l c : list F) w fillna r, (w < 2 ^ 63)%Z -> adx_pos h l c w fillna = Ok r -> Forall nn r.
Proof.
  intros h l c w fillna r Hw E. unfold adx_pos in E. destruct (adx_run h l c w) as [st|] eqn:Es; [|discriminate]. cbn [bind] in E. injection E as <-.
  apply adx_run_nn in Es; auto. destruct Es as (_ & T & P & N). apply check_P; [apply nn_nan|apply nn_Z; lia|]. now apply line_nn.
Qed.
Lemma adx_neg_nn : forall (h l c : list F) w fillna r, (w < 2 ^ 63)%Z -> adx_neg h l c w fillna = Ok r -> Forall nn r.
Proof.
  intros h l c w fillna r Hw E. unfold adx_neg in E. destruct (adx_run h l c w) as [st|] eqn:Es; [|discriminate]. cbn [bind] in E. injection E as <-.
  apply adx_run_nn in Es; auto. destruct Es as (_ & T & P & N). apply check_P; [apply nn_nan|apply nn_Z; lia|]. now apply line_nn.
Qed.

Lemma dx_bet : forall p q : F, nn p -> nn q -> bet (#0) (#100) (adx_dx p q).
Proof.
  intros p q Hp Hq. unfold adx_dx. destruct ((p +. q) =.? #0) eqn:E; cbn [negb]; [apply bet_Z; lia|]. intros N.
  assert (num (p +. q) /\ num (p -. q) /\ num p /\ num q /\ num ((p -. q) /. (p +. q))) as (N1 & N2 & N3 & N4 & N5) by (nan; auto 6).
  specialize (Hp N3). specialize (Hq N4).
  assert (S : flt (#0) (p +. q)). { apply not0_pos; auto. intros _. now apply add_pos. }
  assert (U : fle ((p -. q) /. (p +. q)) (#1)).
  { apply div_le_1; auto. eapply fle_trans; [now apply le_sub|now apply ge_add]. }
  assert (L : fle (#-1) ((p -. q) /. (p +. q))).
  { apply div_ge_m1; auto. apply fle_trans with (fopp q); [apply opp_le; now apply ge_add_l|].
    eapply fle_trans; [apply sub_0_l_same; auto|]. apply sub_mono; auto using fle_refl.
    apply (same_num (#0 -. q) (fopp q)). now apply sub_0_l_same. }
  assert (B : fle (fabs ((p -. q) /. (p +. q))) (#1)).
  { apply abs_le; auto. apply fle_trans with (fopp (#-1)); [now apply opp_le|]. apply (opp_Z (-1)). }
  assert (P : fle (#0) (fabs ((p -. q) /. (p +. q)))) by now apply abs_pos.
  assert (I : fle (#0) (#100 : F)) by (apply leZ; lia).
  split; [now apply mul_pos|]. apply fle_trans with (#100 **. #1); [|apply mul_1_same, numZ; lia].
  apply mul_mono2; auto using fle_refl, fin_num. - apply fle_refl, numZ; lia. - apply mul_fin; apply ofZ_fin; lia.
Qed.
Lemma sum_100 : forall l : list F, (100 * Z.of_nat (length l) <= 2 ^ 53)%Z -> Forall (bet (#0) (#100)) l ->
  bet (#0) (fofZ (100 * Z.of_nat (length l))) (fsum l).
Proof.
  intros l B. apply (totals_count (fun k x => bet (#0) (fofZ (100 * Z.of_nat k)) x) (bet (#0) (#100)) (length l)); auto using fsum_totals.
  - apply bet_Z; lia.
  - intros j k x y K Hx Hy N. assert (num x /\ num y) as [Nx Ny] by (nan; auto).
    destruct (Hx Nx) as [X0 X1], (Hy Ny) as [Y0 Y1]. split; [now apply add_pos|].
    assert (S : same (fofZ (100 * Z.of_nat j) +. fofZ (100 * Z.of_nat k) : F) (fofZ (100 * Z.of_nat j + 100 * Z.of_nat k))) by (apply ofZ_add; lia).
    eapply fle_trans; [apply add_mono; eauto; now apply same_num in S|].
    replace (100 * Z.of_nat (j + k))%Z with (100 * Z.of_nat j + 100 * Z.of_nat k)%Z by lia. apply S.
Qed.
Lemma npmean_bet : forall l : list F, (100 * Z.of_nat (length l) <= 2 ^ 53)%Z -> Forall (bet (#0) (#100)) l -> bet (#0) (#100) (npmean l).
Proof.
  intros l B H. unfold npmean. destruct l as [|x l].
  - cbn. intros N. unfold num, fofnat in N. cbn [length Z.of_nat] in N.
    assert (Z0 : same (fsum (@nil F)) (#0)) by (unfold fsum; cbn [length pairwise Nat.ltb Nat.leb fold_left]; exact (ofZ_add 0 0 ltac:(lia) ltac:(lia) ltac:(lia))).
    rewrite div_00 in N; [discriminate|apply Z0|split; apply leZ; lia].
  - remember (x :: l) as s. assert (L : (1 <= Z.of_nat (length s))%Z) by (subst; cbn [length]; lia).
    assert (S : bet (#0) (fofZ (100 * Z.of_nat (length s))) (fsum s)).
    { now apply sum_100. }
    intros N. unfold fofnat in *. assert (num (fsum s)) by (nan; auto). destruct (S H0) as [S0 S1].
    assert (G : flt (#0) (fofZ (Z.of_nat (length s)) : F)) by (apply gtZ0; lia).
    assert (D : same (fofZ (100 * Z.of_nat (length s)) /. fofZ (Z.of_nat (length s)) : F) (#100)) by (apply ofZ_div; lia).
    split; [now apply div_pos|]. eapply fle_trans; [|apply D]. apply div_mono; auto. now apply same_num in D.
Qed.
Lemma adx_step_bet : forall w (p d : F), (1 <= w)%Z -> (100 * w <= 2 ^ 53)%Z -> bet (#0) (#100) p -> bet (#0) (#100) d ->
  bet (#0) (#100) (((p **. (fofZ w -. #1)) +. d) /. fofZ w).
Proof.
  intros w p d Hw B Hp Hd N. assert (num p /\ num d /\ num (p **. (fofZ w -. #1)) /\ num ((p **. (fofZ w -. #1)) +. d)) as (Np & Nd & Nm & Na) by (nan; auto).
  destruct (Hp Np) as [P0 P1], (Hd Nd) as [D0 D1]. assert (G : flt (#0) (fofZ w : F)) by (apply gtZ0; lia).
  assert (S : same (fofZ w -. #1 : F) (fofZ (w - 1))) by (apply ofZ_sub; lia).
  assert (S0 : fle (#0) (fofZ w -. #1 : F)) by (eapply fle_trans; [apply (leZ 0 (w - 1)); lia|apply S]).
  assert (M : fle (p **. (fofZ w -. #1)) (fofZ (100 * (w - 1)))).
  { assert (T : same (#100 **. fofZ (w - 1) : F) (fofZ (100 * (w - 1)))) by (apply ofZ_mul; lia).
    eapply fle_trans; [|apply T]. apply mul_mono2; auto. - apply S. - now apply same_num in T. }
  assert (Sm : fle ((p **. (fofZ w -. #1)) +. d) (fofZ (100 * w))).
  { assert (T : same (fofZ (100 * (w - 1)) +. #100 : F) (fofZ (100 * (w - 1) + 100))) by (apply ofZ_add; lia).
    replace (100 * w)%Z with (100 * (w - 1) + 100)%Z by lia. eapply fle_trans; [|apply T]. apply add_mono; auto. now apply same_num in T. }
  assert (D : same (fofZ (100 * w) /. fofZ w : F) (#100)) by (apply ofZ_div; lia).
  split.
  - apply div_pos; auto. apply add_pos; auto. now apply mul_pos.
  - eapply fle_trans; [|apply D]. apply div_mono; auto. now apply same_num in D.
Qed.
Lemma adx_go_bet : forall w l (p : F), (1 <= w)%Z -> (100 * w <= 2 ^ 53)%Z -> bet (#0) (#100) p -> Forall (bet (#0) (#100)) l ->
  Forall (bet (#0) (#100)) (adx_go (fofZ w) p l).
Proof.
  intros w l. induction l as [|x l IH]; intros p Hw B Hp H; [constructor|]. inversion H; subst. cbn.
  assert (bet (#0) (#100) (((p **. (fofZ w -. #1)) +. x) /. fofZ w)) by now apply adx_step_bet. auto.
Qed.
Lemma adx_bet : forall (h l c : list F) w fillna r, (100 * w <= 2 ^ 53)%Z -> adx h l c w fillna = Ok r -> Forall (bet (#0) (#100)) r.
Proof.
  intros h l c w fillna r Hw E. unfold adx in E. destruct (adx_run h l c w) as [st|] eqn:Es; [|discriminate]. cbn [bind] in E.
  apply adx_run_nn in Es; [|lia]. destruct Es as (W & T & P & N).
  destruct (_ <=? _) eqn:Q in E; [discriminate|]. injection E as <-.
  assert (D : Forall (bet (#0) (#100)) (map2 adx_dx (map2 adx_pct (adx_dip st) (adx_trs st)) (map2 adx_pct (adx_din st) (adx_trs st)))).
  { apply (Forall_map2 nn nn); auto using dx_bet; apply (Forall_map2 nn nn); auto using pct_nn. }
  set (di := map2 adx_dx _ _) in *.
  assert (F1 : bet (#0) (#100) (npmean (firstn (Z.to_nat w) di))).
  { apply npmean_bet; [|now apply Forall_firstn]. rewrite firstn_length. lia. }
  assert (R0 : forall k, Forall (bet (#0) (#100)) (repeat (#0 : F) k)).
  { intros k. apply Forall_forall. intros y Hy. apply repeat_spec in Hy. subst. apply bet_Z; lia. }
  apply check_P; [apply bet_nan|apply bet_Z; lia|]. apply Forall_app. split; auto. apply Forall_app. split; auto. constructor; auto.
  unfold fofnat. rewrite Z2Nat.id by lia. apply adx_go_bet; auto. now apply Forall_firstn, Forall_skipn.
Qed.

(** ** ATR *)
Definition ranged (h l : F) : Prop := num h -> num l -> fle l h.
Lemma tr_nn : forall h l c : list F, Forall2 ranged h l -> Forall nn (true_range h l c).
Proof.
  intros h l c H. unfold true_range. revert c. induction H as [|x y h l Hxy H IH]; intros [|z c]; cbn; try constructor; [|apply IH].
  intros N. pose proof (nanmax_spec _ N) as [I _]. set (m := nanmax _) in *. clearbody m.
  destruct I as [<-|[<-|[<-|[]]]]; try (now apply abs_nn).
  apply sub_pos; auto. nan. auto.
Qed.
Lemma obs_pos : forall l : list F, Forall nn l -> Forall (fle (#0)) (obs l).
Proof.
  intros l H. apply Forall_forall. intros x Hx. pose proof (proj1 (Forall_forall _ _) (obs_num l) x Hx) as N.
  apply filter_In in Hx. destruct Hx as [Hx _]. apply (proj1 (Forall_forall _ _) H); auto.
Qed.
Lemma smean_nn : forall l : list F, (Z.of_nat (length l) < 2 ^ 63)%Z -> Forall nn l -> nn (smean l).
Proof.
  intros l B H. unfold smean. pose proof (obs_pos l H) as P. assert (L : length (obs l) <= length l) by apply filter_length_le'.
  destruct (obs l) as [|x r] eqn:E; [apply nn_nan|]. apply div_nn; [|apply gtZ0; cbn [length] in *; lia]. unfold ssum. apply fsum_nn.
  apply Forall_map. eapply Forall_impl; [|exact H]. intros z Z. destruct (fisnan z); auto. apply nn_Z; lia.
Qed.
Lemma atr_step_nn : forall w (p t : F), (1 <= w < 2 ^ 63)%Z -> nn p -> nn t -> nn ((p **. (fofZ w -. #1) +. t) /. fofZ w).
Proof.
  intros w p t Hw Hp Ht. apply div_nn; [|now apply gtZ0]. apply add_nn; auto. apply mul_nn; auto. intros N. apply sub_pos; auto. now apply geZ1.
Qed.
Lemma atr_go_nn : forall w t (p : F), (1 <= w < 2 ^ 63)%Z -> nn p -> Forall nn t -> Forall nn (atr_go (fofZ w) p t).
Proof.
  intros w t. induction t as [|x t IH]; intros p Hw Hp H; [constructor|]. inversion H; subst. cbn.
  assert (nn ((p **. (fofZ w -. #1) +. x) /. fofZ w)) by now apply atr_step_nn. auto.
Qed.
Lemma atr_nn : forall (h l c : list F) w fillna r, (1 <= w < 2 ^ 63)%Z -> Forall2 ranged h l ->
  average_true_range h l c w fillna = Ok r -> Forall nn r.
Proof.
  intros h l c w fillna r Hw Hr E. unfold average_true_range in E. destruct (Z.leb_spec w 0); [lia|].
  destruct (_ <? _); [discriminate|]. injection E as <-. apply check_P; [apply nn_nan|apply nn_Z; lia|].
  pose proof (tr_nn h l (shift 1 c) Hr) as T. set (tr := true_range _ _ _) in *. clearbody tr.
  assert (F1 : nn (smean (firstn (Z.to_nat w) tr))) by (apply smean_nn; [rewrite firstn_length; lia|now apply Forall_firstn]).
  apply Forall_app. split.
  - apply Forall_forall. intros y Hy. apply repeat_spec in Hy. subst. apply nn_Z; lia.
  - constructor; auto. unfold fofnat. rewrite Z2Nat.id by lia. apply atr_go_nn; auto. now apply Forall_skipn.
Qed.

(** ** Ulcer index *)
Lemma ulcer_nn : forall (c : list F) w fillna r, ulcer_index c w fillna = Ok r -> Forall nn r.
Proof.
  intros c w fillna r E. unfold ulcer_index in E. destruct (rolling w 1 _ _) as [u|]; [|discriminate]. cbn [bind] in E.
  destruct (rolling w w _ _) as [x|] eqn:Ex; [|discriminate]. cbn [bind] in E. injection E as <-.
  apply check_P; [apply nn_nan|apply nn_Z; lia|]. eapply (roll_P (fun _ => True)); [|apply Forall_forall; auto|exact Ex].
  intros win _. unfold win_apply. destruct (_ <=? _); [|apply nn_nan]. intros N. now apply sqrt_pos.
Qed.

(** ** bands *)
(** row by row, where both are numbers, the first is at most the second *)
Definition lower (xs ys : list F) : Prop := Forall2 (fun x y => num x -> num y -> fle x y) xs ys.
Lemma lower_add : forall (m s : list F) k, length m = length s -> Forall nn s -> fle (#0) k ->
  lower (ssub m (scal k s)) m /\ lower m (sadd m (scal k s)).
Proof.
  intros m. induction m as [|x m IH]; intros [|y s] k L H K; try discriminate; [split; constructor|]. inversion H; subst.
  destruct (IH s k) as [I1 I2]; auto. assert (P : nn (k **. y)) by (apply mul_nn; auto; intros _; auto).
  split; constructor; auto; intros Na Nb.
  - apply le_sub; auto. apply P. nan. auto.
  - apply ge_add; auto. apply P. nan. auto.
Qed.
Lemma std_nn : forall w m (s r : list F), rolling w m agg_std0 s = Ok r -> Forall nn r.
Proof.
  intros w m s r E. apply Forall_rows. intros i Hi. pose proof (len_rolling _ _ _ _ _ E) as L.
  rewrite (nth_rolling_row _ _ _ _ _ _ _ E) by lia. cbn [calc_row]. unfold calc_std0.
  destruct (_ || _); [apply nn_nan|]. destruct (_ <.? #0); [apply nn_Z; lia|]. intros N. now apply sqrt_pos.
Qed.
Lemma bb_lower : forall (c : list F) w k m h l, fle (#0) k -> bollinger_mavg c w k false = Ok m ->
  bollinger_hband c w k false = Ok h -> bollinger_lband c w k false = Ok l -> lower l m /\ lower m h.
Proof.
  intros c w k m h l K. unfold bollinger_mavg, bollinger_hband, bollinger_lband, bollinger_run.
  destruct (rolling w _ agg_mean c) as [a|] eqn:Ea; [|discriminate]. destruct (rolling w _ agg_std0 c) as [s|] eqn:Es; [|discriminate].
  cbn. intros E1 E2 E3. injection E1 as <-. injection E2 as <-. injection E3 as <-.
  apply lower_add; auto.
  - now rewrite (len_rolling _ _ _ _ _ Ea), (len_rolling _ _ _ _ _ Es).
  - exact (std_nn _ _ _ _ Es).
Qed.
Lemma kc_lower : forall (h l c : list F) w wa k mb hb lb, fle (#0) k -> (1 <= wa < 2 ^ 63)%Z -> length l = length c -> length h = length c ->
  Forall2 ranged h l -> keltner_channel_mband h l c w wa false false k = Ok mb ->
  keltner_channel_hband h l c w wa false false k = Ok hb -> keltner_channel_lband h l c w wa false false k = Ok lb -> lower lb mb /\ lower mb hb.
Proof.
  intros h l c w wa k mb hb lb K Hw Ll Lh Hr. unfold keltner_channel_mband, keltner_channel_hband, keltner_channel_lband, keltner_run.
  destruct (ewm_span w _ c) as [t|] eqn:Et; [|discriminate]. destruct (average_true_range h l c wa false) as [a|] eqn:Ea; [|discriminate].
  cbn. intros E1 E2 E3. injection E1 as <-. injection E2 as <-. injection E3 as <-.
  apply lower_add; auto.
  - now rewrite (len_ewm_span _ _ _ _ Et), (atr_len h l c wa false a).
  - eapply atr_nn; eauto.
Qed.

(** ** returns and NVI *)
Definition atleast (lo x : F) : Prop := num x -> fle lo x.
Lemma atleast_Z : forall a z, (- 2 ^ 63 < a)%Z -> (a <= z)%Z -> (z < 2 ^ 63)%Z -> atleast (fofZ a) (fofZ z : F).
Proof. intros. intros _. apply leZ; lia. Qed.
Lemma atleast_nan : forall lo, atleast lo (fnan : F).
Proof. intros lo H. unfold num in H. rewrite isnan_nan in H. discriminate. Qed.
Definition price (x : F) : Prop := num x -> flt (#0) x.
Lemma m1 : same (F := F) (#0 -. #1) (#(-1)). Proof. apply (ofZ_sub 0 1); lia. Qed.
Lemma minus_one : forall x : F, nn x -> atleast (#-1) (x -. #1).
Proof.
  intros x H N. assert (num x) by (nan; auto). eapply fle_trans; [apply m1|]. apply sub_mono; auto; [apply leZ; lia|].
  apply (same_num _ _ m1).
Qed.
Lemma percent : forall x : F, atleast (#-1) x -> atleast (#-100) (x **. #100).
Proof.
  intros x H N. assert (num x) by (nan; auto). assert (S : same (F := F) (#(-1) **. #100) (#(-100))) by (apply (ofZ_mul (-1) 100); lia).
  eapply fle_trans; [apply S|]. apply mul_mono; auto; [apply leZ; lia|]. now apply same_num in S.
Qed.
Lemma ratio_nn : forall x y : F, nn x -> price y -> nn (x /. y).
Proof. intros x y Hx Hy N. apply div_nn; auto. apply Hy. nan. auto. Qed.
Lemma price_nn : forall x : F, price x -> nn x.
Proof. intros x H N. now apply lt_le, H. Qed.
Lemma shift_P : forall (P : F -> Prop) k x s, P x -> Forall P s -> Forall P (shift_fill k x s).
Proof.
  intros P k x s Hx H. unfold shift_fill. destruct (0 <=? k)%Z; apply Forall_app; split;
    try (now apply Forall_firstn); try (now apply Forall_skipn); apply Forall_forall; intros y Hy; apply repeat_spec in Hy; now subst.
Qed.
Lemma price_nan : price (fnan : F).
Proof. intros H. unfold num in H. rewrite isnan_nan in H. discriminate. Qed.
Lemma daily_return_ge : forall (c : list F) fillna r, Forall price c -> daily_return c fillna = Ok r -> Forall (atleast (#-100)) r.
Proof.
  intros c fillna r H E. unfold daily_return in E. injection E as <-. apply check_P; [apply atleast_nan|apply atleast_Z; lia|].
  apply Forall_map. unfold subs. apply Forall_map. apply (Forall_map2 price price); [|auto|apply shift_P; auto using price_nan].
  intros a b Ha Hb. apply percent, minus_one, ratio_nn; auto using price_nn.
Qed.
Lemma change_ratio : forall a b : F, price a -> price b -> atleast (#-1) ((a -. b) /. b).
Proof.
  intros a b Ha Hb N. assert (num a /\ num b /\ num (a -. b)) as (Na & Nb & Nd) by (nan; auto). apply div_ge_m1; auto.
  eapply fle_trans; [apply sub_0_l_same; auto|]. apply sub_mono; auto using fle_refl, lt_le.
  apply (same_num _ _ (sub_0_l_same b Nb)).
Qed.
Lemma roc_ge : forall (c : list F) w fillna r, Forall price c -> roc c w fillna = Ok r -> Forall (atleast (#-100)) r.
Proof.
  intros c w fillna r H E. unfold roc in E. injection E as <-. apply check_P; [apply atleast_nan|apply atleast_Z; lia|].
  apply Forall_map. assert (S : Forall price (shift w c)) by (apply shift_P; auto using price_nan). unfold sdiv, ssub.
  revert S. generalize (shift w c). induction H; intros [|y s] S; cbn; constructor; inversion S; subst; auto.
  now apply percent, change_ratio.
Qed.
Lemma cum_return_ge : forall (c : list F) fillna r, Forall price c -> cumulative_return c fillna = Ok r -> Forall (atleast (#-100)) r.
Proof.
  intros c fillna r H E. unfold cumulative_return in E. destruct c as [|c0 t] eqn:Ec; [discriminate|]. rewrite <- Ec in *. injection E as <-.
  apply check_back_P; [apply atleast_nan|]. assert (H0 : price c0) by (rewrite Ec in H; now inversion H). clear Ec. unfold muls, subs, divs. rewrite !map_map. apply Forall_map_i with (P := price); [|exact H]. intros x Hx. apply percent, minus_one, ratio_nn; auto using price_nn.
Qed.
Lemma nvi_go_nn : forall (p : F) ch vp v, nn p -> Forall (atleast (#-1)) ch -> Forall nn (nvi_go p ch vp v).
Proof.
  intros p ch. revert p. induction ch as [|x ch IH]; intros p vp v Hp H; [constructor|]. inversion H; subst.
  destruct vp as [|a vp]; [constructor|]. destruct v as [|b v]; [constructor|]. cbn.
  assert (nn (if b <.? a then p **. (#1 +. x) else p)).
  { destruct (b <.? a); auto. apply mul_nn; auto. intros N. assert (num x) by (nan; auto).
    assert (S : same (F := F) (#1 +. #(-1)) (#0)) by (apply (ofZ_add 1 (-1)); lia).
    eapply fle_trans; [apply S|]. apply add_mono; auto; [apply leZ; lia|]. now apply same_num in S. }
  constructor; auto.
Qed.
Lemma nvi_nn : forall (c v : list F) fillna r, Forall price c -> negative_volume_index c v fillna = Ok r -> Forall nn r.
Proof.
  intros c v fillna r H E. unfold negative_volume_index in E. destruct c as [|c0 c]; [discriminate|].
  match type of E with Ok ?a = _ => assert (X : r = a) by congruence; rewrite X; clear X E end.
  apply check_P; [apply nn_nan|apply nn_Z; lia|]. constructor; [apply nn_Z; lia|]. apply nvi_go_nn; [apply nn_Z; lia|].
  assert (Q : Forall (atleast (#-1)) (pct_change (c0 :: c))); [|destruct (pct_change (c0 :: c)); [constructor|now inversion Q]].
  unfold pct_change. assert (D : Forall price (ffill (c0 :: c))) by (apply ffill_P; auto using price_nan).
  unfold subs. apply Forall_map. apply (Forall_map2 price price); auto; [|apply shift_P; auto using price_nan].
  intros a b Ha Hb. apply minus_one, ratio_nn; auto using price_nn.
Qed.
Lemma ema_nn : forall (c : list F) w fillna r, (w < 2 ^ 63)%Z -> Forall nn c -> ema_indicator c w fillna = Ok r -> Forall nn r.
Proof.
  intros c w fillna r Hw H E. unfold ema_indicator, ema_ in E. eapply ewm_span_nn; eauto.
Qed.
End Adx.
