(** * Rounded: ranges and orderings that survive rounding.

    Everything here is proved for any arithmetic with the laws of Order.v, so
    for exact arithmetic and for binary64, on arbitrary data (NaN and
    infinities included). *)
From Verif Require Import Lists Api Rows Order.
Local Open Scope f_scope.

(** [fisnan] of a result false: the operands are numbers *)
Ltac nan := unfold num in *; repeat match goal with
  | H : fisnan (fadd ?x ?y) = false |- _ =>
      assert (fisnan x = false) by (destruct (fisnan x) eqn:?; auto; rewrite add_nan_l in H; auto);
      assert (fisnan y = false) by (destruct (fisnan y) eqn:?; auto; rewrite add_nan_r in H; auto);
      revert H
  | H : fisnan (fsub ?x ?y) = false |- _ =>
      assert (fisnan x = false) by (destruct (fisnan x) eqn:?; auto; rewrite sub_nan_l in H; auto);
      assert (fisnan y = false) by (destruct (fisnan y) eqn:?; auto; rewrite sub_nan_r in H; auto);
      revert H
  | H : fisnan (fmul ?x ?y) = false |- _ =>
      assert (fisnan x = false) by (destruct (fisnan x) eqn:?; auto; rewrite mul_nan_l in H; auto);
      assert (fisnan y = false) by (destruct (fisnan y) eqn:?; auto; rewrite mul_nan_r in H; auto);
      revert H
  | H : fisnan (fdiv ?x ?y) = false |- _ =>
      assert (fisnan x = false) by (destruct (fisnan x) eqn:?; auto; rewrite div_nan_l in H; auto);
      assert (fisnan y = false) by (destruct (fisnan y) eqn:?; auto; rewrite div_nan_r in H; auto);
      revert H
  | H : fisnan (fabs ?x) = false |- _ => rewrite abs_nan in H
  | H : fisnan (fopp ?x) = false |- _ => rewrite opp_nan in H
  end; intros.

Section Rounded.
Context {F : Type} {A : Arith F} {AL : ArithLaws F} {RL : RoundLaws F}.
(** NaN or non-negative; NaN or within bounds *)
Definition nn (x : F) : Prop := num x -> fle (#0) x.
Definition bet (lo hi x : F) : Prop := num x -> fle lo x /\ fle x hi.

(** ** constants *)
Lemma numZ : forall z, (Z.abs z < 2 ^ 63)%Z -> num (fofZ z).
Proof. intros. apply fin_num. now apply ofZ_fin. Qed.
Lemma leZ : forall a b, (- 2 ^ 63 < a)%Z -> (a <= b)%Z -> (b < 2 ^ 63)%Z -> fle (fofZ a) (fofZ b).
Proof. exact ofZ_mono. Qed.
Lemma ltZ : forall a b, (- 2 ^ 53 <= a)%Z -> (a < b)%Z -> (b <= 2 ^ 53)%Z -> flt (fofZ a) (fofZ b).
Proof. exact ofZ_small. Qed.
Lemma le_lt_trans : forall x y z, fle x y -> flt y z -> flt x z.
Proof.
  intros x y z H1 H2. apply flt_fle in H2. destruct H2 as [H2 H3]. apply flt_fle. split; [eapply fle_trans; eauto|].
  intros H. apply H3. eapply fle_trans; eauto.
Qed.
Lemma lt_le_trans : forall x y z, flt x y -> fle y z -> flt x z.
Proof.
  intros x y z H1 H2. apply flt_fle in H1. destruct H1 as [H1 H3]. apply flt_fle. split; [eapply fle_trans; eauto|].
  intros H. apply H3. eapply fle_trans; eauto.
Qed.
Lemma lt_le : forall x y, flt x y -> fle x y.
Proof. intros x y H. now apply flt_fle in H. Qed.
Lemma same_le : forall x y z, same x y -> fle y z -> fle x z.
Proof. intros x y z [H _] L. eapply fle_trans; eauto. Qed.
Lemma le_same : forall x y z, fle x y -> same y z -> fle x z.
Proof. intros x y z L [H _]. eapply fle_trans; eauto. Qed.
Lemma same_sym : forall x y, same x y -> same y x.
Proof. intros x y [H1 H2]. now split. Qed.
Lemma same_num : forall x y, same x y -> num x /\ num y.
Proof. intros x y [H _]. now apply fle_num. Qed.
Lemma not_le : forall x y, num x -> num y -> ~ fle x y -> flt y x.
Proof. intros x y Hx Hy H. apply flt_fle. split; auto. destruct (fle_total x y Hx Hy); tauto. Qed.

(** ** signs *)
Lemma add_pos : forall a b, fle (#0) a -> fle (#0) b -> fle (#0) (a +. b).
Proof.
  intros a b Ha Hb. assert (Z0 : num (#0 : F)) by (apply numZ; lia).
  apply fle_trans with (#0 +. #0); [apply add_0_same, Z0|]. apply add_mono; auto.
  - apply add_pos_num; apply fle_refl; auto.
  - now apply add_pos_num.
Qed.
Lemma add_nn : forall a b, nn a -> nn b -> nn (a +. b).
Proof. intros a b Ha Hb H. nan. apply add_pos; auto. Qed.
Lemma mul_nn : forall a b, nn a -> nn b -> nn (a **. b).
Proof. intros a b Ha Hb H. apply mul_pos; auto; nan; auto. Qed.
Lemma div_nn : forall a b, nn a -> flt (#0) b -> nn (a /. b).
Proof. intros a b Ha Hb H. apply div_pos; auto; nan; auto. Qed.
Lemma div_abs_nn : forall a b, nn a -> nn (a /. fabs b).
Proof. intros a b Ha H. apply div_abs; auto; nan; auto. Qed.
Lemma abs_nn : forall a, nn (fabs a).
Proof. intros a H. apply abs_pos. nan. auto. Qed.
Lemma nn_Z : forall z, (0 <= z < 2 ^ 63)%Z -> nn (fofZ z).
Proof. intros z H _. apply leZ; lia. Qed.
Lemma nn_nan : nn fnan.
Proof. intros H. unfold num in H. rewrite isnan_nan in H. discriminate. Qed.
Lemma opp_pos : forall a, fle a (#0) -> fle (#0) (fopp a).
Proof.
  intros a H. apply fle_trans with (fopp (#0)); [|now apply opp_le]. apply (opp_Z 0).
Qed.
Lemma opp_neg : forall a, fle (#0) a -> fle (fopp a) (#0).
Proof.
  intros a H. apply fle_trans with (fopp (#0)); [now apply opp_le|]. apply (opp_Z 0).
Qed.
Lemma ge_add : forall a b, fle (#0) b -> num (a +. b) -> fle a (a +. b).
Proof.
  intros a b H N. assert (Na : num a) by (nan; auto).
  apply fle_trans with (a +. #0); [apply add_0_same; auto|]. apply add_mono; auto using fle_refl.
  apply (same_num (a +. #0) a). now apply add_0_same.
Qed.
Lemma ge_add_l : forall a b, fle (#0) a -> num (a +. b) -> fle b (a +. b).
Proof.
  intros a b H N. assert (Na : num b) by (nan; auto).
  apply fle_trans with (#0 +. b); [apply add_0_l_same; auto|]. apply add_mono; auto using fle_refl.
  apply (same_num (#0 +. b) b). now apply add_0_l_same.
Qed.
Lemma le_sub : forall a b, fle (#0) b -> num (a -. b) -> fle (a -. b) a.
Proof.
  intros a b H N. assert (Na : num a) by (nan; auto).
  apply fle_trans with (a -. #0); [|apply sub_0_same; auto]. apply sub_mono; auto using fle_refl.
  apply (same_num (a -. #0) a). now apply sub_0_same.
Qed.
Lemma pos_fin : forall x b, fle (#0) x -> fle x b -> fin b -> fin x.
Proof. intros x b H1 H2 H3. eapply fin_between; eauto. apply ofZ_fin. lia. Qed.
Lemma mul_le_l : forall a b c, fle a b -> fle (#0) c -> fin a -> fin b -> fin c -> fle (a **. c) (b **. c).
Proof. intros. apply mul_mono; auto using mul_fin. Qed.

(** 100 - 100/(1+r) *)
Lemma pct_bet : forall r, nn r -> bet (#0) (#100) (#100 -. (#100 /. (#1 +. r))).
Proof.
  intros r Hr N. assert (Nr : num r) by (nan; auto). specialize (Hr Nr).
  assert (H1 : fle (#1) (#1 +. r)) by (apply ge_add; auto; apply add_pos_num; auto; apply leZ; lia).
  assert (H0 : flt (#0) (#1 +. r)) by (eapply lt_le_trans; eauto; apply ltZ; lia).
  assert (Q0 : fle (#0) (#100 /. (#1 +. r))) by (apply div_pos; auto; [apply leZ; lia|nan; auto]).
  assert (Q1 : fle (#100 /. (#1 +. r)) (#100)).
  { assert (S : same (#100 /. #1) (#100 : F)) by (apply div_1_same, numZ; lia).
    eapply le_same; [|exact S]. apply div_mono2; auto.
    - apply leZ; lia. - apply leZ; lia. - apply ltZ; lia. - apply div_fin; auto. apply ofZ_fin; lia. - now apply same_num in S. }
  split; [apply sub_pos|apply le_sub]; auto.
Qed.

(** ** lists *)
Lemma nn_of_bet : forall hi x, bet (#0) hi x -> nn x.
Proof. intros hi x H N. now apply H. Qed.
Lemma bet_nan : forall lo hi, bet lo hi fnan.
Proof. intros lo hi H. unfold num in H. rewrite isnan_nan in H. discriminate. Qed.
Lemma prep_P : forall (P : F -> Prop) s, P fnan -> Forall P s -> Forall P (prep s).
Proof. intros P s N H. apply Forall_map. eapply Forall_impl; [|exact H]. cbn. intros a Ha. now destruct fisinf. Qed.
Lemma ffill_P : forall (P : F -> Prop) s a, P a -> Forall P s -> Forall P (ffill_go a s).
Proof.
  intros P s. induction s as [|x s IH]; intros a Ha H; [constructor|]. inversion H; subst. cbn.
  destruct (fisnan x); constructor; auto.
Qed.
Lemma bfill_P : forall (P : F -> Prop) s, P fnan -> Forall P s -> Forall P (bfill s).
Proof.
  intros P s N H. induction H; [constructor|]. cbn. constructor; auto. destruct (fisnan x); auto.
  destruct IHForall; auto.
Qed.
Lemma check_P : forall (P : F -> Prop) fillna z s, P fnan -> P (fofZ z) -> Forall P s ->
  Forall P (check_fillna fillna (FillInt z) s).
Proof.
  intros P fillna z s N Hz H. unfold check_fillna. destruct fillna; auto.
  assert (R : Forall P (replace_inf s)) by now apply prep_P.
  assert (Q : Forall P (ffill (replace_inf s))) by now apply ffill_P.
  destruct (z =? -1)%Z; [now apply bfill_P|].
  apply Forall_map. eapply Forall_impl; [|exact Q]. cbn. intros a Ha. now destruct fisnan.
Qed.
Lemma check_back_P : forall (P : F -> Prop) fillna s, P fnan -> Forall P s -> Forall P (check_fillna fillna (FillInt (-1)) s).
Proof.
  intros P fillna s N H. unfold check_fillna. destruct fillna; auto. cbn.
  apply bfill_P; auto. apply ffill_P; auto. now apply prep_P.
Qed.
Lemma roll_P : forall (P Q : F -> Prop) w m g s r, (forall win, Forall P win -> Q (g (Z.to_nat m) win)) ->
  Forall P (prep s) -> rolling w m (by_window g) s = Ok r -> Forall Q r.
Proof.
  intros P Q w m g s r H HP E. unfold rolling in E. destruct (_ || _); [discriminate|]. injection E as <-. cbn [roll_rows].
  apply Forall_forall. intros x Hx. apply in_map_iff in Hx. destruct Hx as (i & <- & _).
  apply H. unfold window_at. now apply Forall_skipn, Forall_firstn.
Qed.

(** ** sums of non-negative terms *)
Lemma fsum_pos : forall l, Forall (fle (#0)) l -> fle (#0) (fsum l).
Proof. intros. apply fsum_closed; auto using add_pos. apply leZ; lia. Qed.
Lemma fsum_nn : forall l, Forall nn l -> nn (fsum l).
Proof. intros. apply fsum_closed; auto using add_nn. apply nn_Z; lia. Qed.

(** ** exponential windows *)
Lemma ewm_nn : forall al m s, flt (#0) al -> fle al (#1) -> Forall nn s ->
  forall k a o, nn a -> fle (#0) o -> fle o (#1) -> Forall nn (ewm_go al m k a o s).
Proof.
  intros al m s P1 P2 H. assert (Fa : fin al) by (eapply pos_fin; eauto using lt_le; apply ofZ_fin; lia).
  assert (B : fle (#0) (#1 -. al) /\ fle (#1 -. al) (#1)).
  { assert (num (#1 -. al)) by (apply sub_fin; auto; apply ofZ_fin; lia). split; [now apply sub_pos|apply le_sub; auto using lt_le]. }
  destruct B as [B0 B1]. assert (Fb : fin (#1 -. al)) by (eapply pos_fin; eauto; apply ofZ_fin; lia).
  induction H as [|x s Hx H IH]; intros k a o Ha O0 O1; [constructor|]. cbn [ewm_go].
  assert (Fo : fin o) by (eapply pos_fin; eauto; apply ofZ_fin; lia).
  set (ow := o **. (#1 -. al)).
  assert (W0 : fle (#0) ow) by (apply mul_pos; auto; now apply mul_fin).
  assert (W1 : fle ow (#1)).
  { apply fle_trans with (#1 **. #1); [|apply mul_1_same, numZ; lia]. apply mul_mono2; auto; apply mul_fin; auto; apply ofZ_fin; lia. }
  assert (I01 : fle (#0) (#1 : F)) by (apply leZ; lia). assert (I11 : fle (#1) (#1 : F)) by (apply leZ; lia).
  assert (St : nn (if a =.? x then a else (ow **. a +. al **. x) /. (ow +. al))).
  { destruct (a =.? x); auto. apply div_nn.
    - apply add_nn; apply mul_nn; auto; intros _; auto using lt_le.
    - eapply lt_le_trans; [exact P1|]. apply ge_add_l; auto. apply add_pos_num; auto using lt_le. }
  destruct (negb (fisnan a)), (negb (fisnan x)); cbn [fst snd]; (constructor; [destruct (_ <=? _); auto using nn_nan|apply IH; auto]).
Qed.
Lemma pos1 : fle (#0) (#1 : F). Proof. apply leZ; lia. Qed.
Lemma one_pos : flt (#0) (#1 : F). Proof. apply ltZ; lia. Qed.
Lemma com_alpha : forall com, fle (#0) com -> fin (#1 +. com) -> flt (#0) (#1 /. (#1 +. com)) /\ fle (#1 /. (#1 +. com)) (#1).
Proof.
  intros com H1 H2. assert (G : fle (#1) (#1 +. com)) by (apply ge_add; auto using add_pos_num, pos1).
  assert (O : flt (#0) (#1 +. com)) by (eapply lt_le_trans; eauto using one_pos).
  split; [now apply inv_lt|]. apply div_le_1; auto. apply div_fin; auto. apply ofZ_fin; lia.
Qed.
Lemma geZ1 : forall w, (1 <= w < 2 ^ 63)%Z -> fle (#1) (fofZ w).
Proof. intros. apply leZ; lia. Qed.
Lemma gtZ0 : forall w, (1 <= w < 2 ^ 63)%Z -> flt (#0) (fofZ w).
Proof. intros. eapply lt_le_trans; [exact one_pos|now apply geZ1]. Qed.
Lemma span_alpha : forall w, (1 <= w < 2 ^ 63)%Z ->
  let al := #1 /. (#1 +. (fofZ w -. #1) /. #2) in flt (#0) al /\ fle al (#1).
Proof.
  intros w Hw al. assert (F1 : fin (#1 : F)) by (apply ofZ_fin; lia). assert (Fw : fin (fofZ w)) by (apply ofZ_fin; lia).
  assert (N : num (fofZ w -. #1)) by now apply sub_fin. assert (S0 : fle (#0) (fofZ w -. #1)) by (apply sub_pos; auto; now apply geZ1).
  assert (S1 : fle (fofZ w -. #1) (fofZ w)) by (apply le_sub; auto using pos1).
  assert (Fs : fin (fofZ w -. #1)) by (eapply pos_fin; eauto).
  assert (T : flt (#0) (#2 : F)) by (apply ltZ; lia).
  assert (Nd : num ((fofZ w -. #1) /. #2)) by now apply div_fin.
  assert (C0 : fle (#0) ((fofZ w -. #1) /. #2)) by now apply div_pos.
  assert (C1 : fle ((fofZ w -. #1) /. #2) (fofZ w)).
  { apply fle_trans with (fofZ w /. #1); [|apply div_1_same, numZ; lia]. apply div_mono2; auto using one_pos.
    - apply leZ; lia. - apply div_fin; auto using one_pos. }
  apply com_alpha; auto. eapply pos_fin; [| |apply (inc_fin w); lia].
  - apply add_pos; auto using pos1.
  - apply add_mono; auto using fle_refl, add_pos_num, pos1, fin_num, lt_le, gtZ0.
Qed.
Lemma inv_alpha : forall w, (1 <= w < 2 ^ 63)%Z -> let a0 := #1 /. fofZ w in
  let al := #1 /. (#1 +. (#1 -. a0) /. a0) in flt (#0) al /\ fle al (#1).
Proof.
  intros w Hw a0 al. assert (F1 : fin (#1 : F)) by (apply ofZ_fin; lia). assert (Fw : fin (fofZ w)) by (apply ofZ_fin; lia).
  assert (A0 : flt (#0) a0) by (apply inv_lt; auto using gtZ0).
  assert (A1 : fle a0 (#1)) by (apply div_le_1; auto using geZ1, gtZ0; apply div_fin; auto using gtZ0).
  assert (Fa : fin a0) by (eapply pos_fin; eauto using lt_le).
  assert (N : num (#1 -. a0)) by now apply sub_fin. assert (S0 : fle (#0) (#1 -. a0)) by (apply sub_pos; auto).
  assert (S1 : fle (#1 -. a0) (#1)) by (apply le_sub; auto using lt_le).
  assert (Fs : fin (#1 -. a0)) by (eapply pos_fin; eauto).
  assert (Nd : num ((#1 -. a0) /. a0)) by now apply div_fin.
  assert (C0 : fle (#0) ((#1 -. a0) /. a0)) by now apply div_pos.
  assert (C1 : fle ((#1 -. a0) /. a0) (#1 /. a0)) by (apply div_mono; auto; now apply div_fin).
  apply com_alpha; auto. assert (I : fle (#0) (#1 /. a0)) by (apply div_pos; auto using pos1; now apply div_fin).
  eapply pos_fin; [| |apply (inv_inv_fin w); lia].
  - apply add_pos; auto using pos1.
  - apply add_mono; auto using fle_refl, add_pos_num, pos1, fin_num.
Qed.
Lemma ewm_span_nn : forall w m s r, (w < 2 ^ 63)%Z -> Forall nn s -> ewm_span w m s = Ok r -> Forall nn r.
Proof.
  intros w m s r Hw H E. unfold ewm_span in E. destruct (Z.ltb_spec w 1); [discriminate|]. injection E as <-.
  destruct (span_alpha w ltac:(lia)) as [P Q]. apply ewm_nn; auto using nn_nan, pos1, fle_refl, prep_P. apply leZ; lia.
Qed.
Lemma ewm_inv_nn : forall w m s r, (w < 2 ^ 63)%Z -> Forall nn s -> ewm_inv_alpha w m s = Ok r -> Forall nn r.
Proof.
  intros w m s r Hw H E. unfold ewm_inv_alpha in E. destruct (Z.eqb_spec w 0); [discriminate|]. destruct (Z.ltb_spec w 0); [discriminate|].
  injection E as <-. destruct (inv_alpha w ltac:(lia)) as [P Q]. apply ewm_nn; auto using nn_nan, pos1, fle_refl, prep_P. apply leZ; lia.
Qed.

(** ** RSI *)
Lemma not0_pos : forall x, nn x -> num x -> (x =.? #0) = false -> flt (#0) x.
Proof.
  intros x H N E. apply not_le; auto; [apply numZ; lia|]. intros L. assert (S : same x (#0)) by (split; auto).
  apply eqb_fle in S. congruence.
Qed.
Lemma nan_bet : forall lo hi x, fisnan x = true -> bet lo hi x.
Proof. intros lo hi x H N. unfold num in N. congruence. Qed.
Lemma rsi_run_bet : forall c w fillna r, (w < 2 ^ 63)%Z -> rsi_run c w fillna = Ok r -> Forall (bet (#0) (#100)) r.
Proof.
  intros c w fillna r Hw E. unfold rsi_run in E.
  destruct (ewm_inv_alpha w _ (map _ _)) as [u|] eqn:Eu in E; [|discriminate]. cbn [bind] in E.
  destruct (ewm_inv_alpha w _ (map _ _)) as [d|] eqn:Ed in E; [|discriminate]. cbn [bind] in E. injection E as <-.
  apply ewm_inv_nn in Eu; auto.
  2:{ apply Forall_map, Forall_forall. intros x _. destruct (#0 <.? x) eqn:L; [|apply nn_Z; lia]. intros _. now apply lt_le. }
  apply ewm_inv_nn in Ed; auto.
  2:{ apply Forall_map, Forall_forall. intros x _ _. apply opp_pos. destruct (x <.? #0) eqn:L; [now apply lt_le|apply leZ; lia]. }
  unfold sdiv. revert d Ed. induction Eu as [|x u Hx Hu IH]; intros [|y d] Hd; cbn; try constructor; inversion Hd; subst; auto.
  destruct (y =.? #0) eqn:Ey; [intros _; split; apply leZ; lia|].
  destruct (fisnan y) eqn:Ny.
  - apply nan_bet. apply sub_nan_r, div_nan_r, add_nan_r, div_nan_r; auto.
  - apply pct_bet. apply div_nn; auto. now apply not0_pos.
Qed.
Lemma bet_Z : forall a z b, (- 2 ^ 63 < a)%Z -> (a <= z)%Z -> (z <= b)%Z -> (b < 2 ^ 63)%Z -> bet (fofZ a) (fofZ b) (fofZ z).
Proof. intros. intros _. split; apply leZ; lia. Qed.
Lemma rsi_bet : forall c w fillna r, (w < 2 ^ 63)%Z -> rsi c w fillna = Ok r -> Forall (bet (#0) (#100)) r.
Proof.
  intros c w fillna r Hw E. unfold rsi in E. destruct (rsi_run c w fillna) as [s|] eqn:Es; [|discriminate]. injection E as <-.
  apply check_P; [apply bet_nan|apply bet_Z; lia|]. eapply rsi_run_bet; eauto.
Qed.

(** ** rolling extremes *)
Lemma not_lt : forall x y, num x -> num y -> (x <.? y) = false -> fle y x.
Proof.
  intros x y Hx Hy H. destruct (y <=.? x) eqn:E; [exact E|]. assert (flt x y); [|unfold flt in *; congruence].
  apply not_le; auto. unfold fle. congruence.
Qed.
Lemma max2_spec : forall x y, num x -> num y -> fle x (fmax2 x y) /\ fle y (fmax2 x y) /\ (fmax2 x y = x \/ fmax2 x y = y).
Proof. intros x y Hx Hy. unfold fmax2. destruct (x <.? y) eqn:L; repeat split; auto using fle_refl, lt_le, not_lt. Qed.
Lemma min2_spec : forall x y, num x -> num y -> fle (fmin2 x y) x /\ fle (fmin2 x y) y /\ (fmin2 x y = x \/ fmin2 x y = y).
Proof. intros x y Hx Hy. unfold fmin2. destruct (y <.? x) eqn:L; repeat split; auto using fle_refl, lt_le, not_lt. Qed.
Lemma fold_max : forall l x, num x -> Forall num l -> let m := fold_left fmax2 l x in
  fle x m /\ Forall (fun y => fle y m) l /\ (m = x \/ In m l).
Proof.
  induction l as [|y l IH]; intros x Hx H m; [cbn; auto using fle_refl|]. inversion H; subst.
  destruct (max2_spec x y) as (M1 & M2 & M3); auto.
  assert (Nm : num (fmax2 x y)) by (destruct M3 as [->| ->]; auto).
  destruct (IH (fmax2 x y)) as (I1 & I2 & I3); auto. unfold m. cbn [fold_left]. repeat split.
  - eapply fle_trans; eauto. - constructor; auto. eapply fle_trans; eauto.
  - cbn. destruct I3 as [-> |]; auto. destruct M3 as [-> | ->]; auto.
Qed.
Lemma fold_min : forall l x, num x -> Forall num l -> let m := fold_left fmin2 l x in
  fle m x /\ Forall (fun y => fle m y) l /\ (m = x \/ In m l).
Proof.
  induction l as [|y l IH]; intros x Hx H m; [cbn; auto using fle_refl|]. inversion H; subst.
  destruct (min2_spec x y) as (M1 & M2 & M3); auto.
  assert (Nm : num (fmin2 x y)) by (destruct M3 as [->| ->]; auto).
  destruct (IH (fmin2 x y)) as (I1 & I2 & I3); auto. unfold m. cbn [fold_left]. repeat split.
  - eapply fle_trans; eauto. - constructor; auto. eapply fle_trans; eauto.
  - cbn. destruct I3 as [-> |]; auto. destruct M3 as [-> | ->]; auto.
Qed.
Lemma obs_num : forall l : list F, Forall num (obs l).
Proof. intros. apply Forall_forall. intros x H. apply filter_In in H. destruct H as [_ H]. now apply negb_true_iff in H. Qed.
Lemma in_obs : forall (l : list F) x, In x l -> num x -> In x (obs l).
Proof. intros. apply filter_In. split; auto. now apply negb_true_iff. Qed.
Lemma nanmax_spec : forall l : list F, num (nanmax l) -> In (nanmax l) l /\ forall y, In y l -> num y -> fle y (nanmax l).
Proof.
  intros l N. unfold nanmax in *. pose proof (obs_num l) as O. assert (I : forall y, In y (obs l) -> In y l) by (intros; now apply filter_In in H).
  destruct (obs l) as [|x r] eqn:E; [unfold num in N; rewrite isnan_nan in N; discriminate|]. inversion O; subst.
  destruct (fold_max r x) as (M1 & M2 & M3); auto. split.
  - apply I. cbn. destruct M3 as [-> |]; auto.
  - intros y Hy Ny. apply in_obs in Hy; auto. rewrite E in Hy. destruct Hy as [<-|Hy]; auto. now apply (proj1 (Forall_forall _ _) M2).
Qed.
Lemma nanmin_spec : forall l : list F, num (nanmin l) -> In (nanmin l) l /\ forall y, In y l -> num y -> fle (nanmin l) y.
Proof.
  intros l N. unfold nanmin in *. pose proof (obs_num l) as O. assert (I : forall y, In y (obs l) -> In y l) by (intros; now apply filter_In in H).
  destruct (obs l) as [|x r] eqn:E; [unfold num in N; rewrite isnan_nan in N; discriminate|]. inversion O; subst.
  destruct (fold_min r x) as (M1 & M2 & M3); auto. split.
  - apply I. cbn. destruct M3 as [-> |]; auto.
  - intros y Hy Ny. apply in_obs in Hy; auto. rewrite E in Hy. destruct Hy as [<-|Hy]; auto. now apply (proj1 (Forall_forall _ _) M2).
Qed.
Lemma aggmax_spec : forall m (l : list F), num (win_max m l) -> In (win_max m l) l /\ forall y, In y l -> num y -> fle y (win_max m l).
Proof. intros m l N. unfold win_max in *. destruct (_ <? _); [unfold num in N; rewrite isnan_nan in N; discriminate|]. now apply nanmax_spec. Qed.
Lemma aggmin_spec : forall m (l : list F), num (win_min m l) -> In (win_min m l) l /\ forall y, In y l -> num y -> fle (win_min m l) y.
Proof. intros m l N. unfold win_min in *. destruct (_ <? _); [unfold num in N; rewrite isnan_nan in N; discriminate|]. now apply nanmin_spec. Qed.
(** the row itself is in its window *)
Lemma own_window : forall w i (s : list F), 0 < w -> i < length s -> In (nth i s fnan) (window_at w i s).
Proof.
  intros w i s Hw Hi. unfold window_at. assert (E : firstn (S i) s = firstn i s ++ [nth i s fnan]).
  { rewrite <- (firstn_skipn i s) at 1. rewrite firstn_app, firstn_firstn, firstn_length. replace (Nat.min (S i) i) with i by lia.
    replace (S i - Nat.min i (length s)) with 1 by lia. f_equal.
    rewrite <- (nth_firstn_lt s (S i) i) by lia. rewrite nth_firstn_lt by lia.
    replace (nth i s fnan) with (nth 0 (skipn i s) fnan) by (rewrite nth_skipn'; f_equal; lia).
    destruct (skipn i s) eqn:X; [|reflexivity]. assert (length (skipn i s) = 0) by now rewrite X. rewrite skipn_length in H. lia. }
  rewrite E, skipn_app, firstn_length. apply in_or_app. right. replace (S i - w - Nat.min i (length s)) with 0 by lia. now left.
Qed.
Lemma nth_roll : forall w m g (s r : list F) i, rolling w m (by_window g) s = Ok r -> i < length s ->
  nth i r fnan = g (Z.to_nat m) (window_at (Z.to_nat w) i (prep s)).
Proof. intros. now apply nth_by_window with (d := fnan) (i := i) in H. Qed.
Lemma nth_prep : forall (s : list F) i, nth i (prep s) fnan = if fisinf (nth i s fnan) then fnan else nth i s fnan.
Proof.
  intros. unfold prep.
  transitivity (nth i (map (fun x => if fisinf x then fnan else x) s) ((fun x => if fisinf x then fnan else x) fnan)).
  - f_equal. now rewrite isinf_nan.
  - now rewrite map_nth with (f := fun x => if fisinf x then fnan else x).
Qed.
Lemma fin_noinf : forall x, fin x -> fisinf x = false.
Proof. intros x H. unfold fin, ffinite in H. destruct (fisnan x), (fisinf x); auto. Qed.
Lemma num_fin : forall x, num x -> fisinf x = false -> fin x.
Proof. intros x H I. unfold fin, ffinite. unfold num in H. now rewrite H, I. Qed.

(** (x - lo)/(hi - lo) *)
Lemma position_bet : forall lo x hi, fle lo x -> fle x hi -> bet (#0) (#1) ((x -. lo) /. (hi -. lo)).
Proof.
  intros lo x hi H1 H2 N. assert (num (x -. lo) /\ num (hi -. lo)) as [N1 N2] by (nan; auto).
  assert (P1 : fle (#0) (x -. lo)) by now apply sub_pos.
  assert (P2 : fle (x -. lo) (hi -. lo)) by (apply sub_mono; auto; apply fle_num in H1; now apply fle_refl).
  assert (D : flt (#0) (hi -. lo)).
  { apply not_le; auto; [apply numZ; lia|]. intros L. unfold num in N. rewrite div_00 in N; [discriminate| |]; split; auto.
    - eapply fle_trans; eauto. - eapply fle_trans; eauto. }
  split; [now apply div_pos|now apply div_le_1].
Qed.
Lemma Forall_rows : forall (P : F -> Prop) l, (forall i, i < length l -> P (nth i l fnan)) -> Forall P l.
Proof. intros P l H. apply Forall_nth. intros i d Hi. rewrite (nth_indep l d fnan Hi). auto. Qed.
End Rounded.

