(** * FloatStoch: the stochastic and Williams %R in binary64. *)
From Coq Require Import Floats.
From Verif Require Import Lists Arith FloatArith Order FloatOrder Api Align Rounded RoundedInd RoundedAdx RoundedBands FloatPct.
Local Open Scope f_scope.

Lemma nth_scal : forall (k : float) s i, i < length s -> nth i (scal k s) fnan = k **. nth i s fnan.
Proof. intros k s. unfold scal. induction s as [|x s IH]; intros i Hi; cbn in *; [lia|]. destruct i; auto. apply IH. lia. Qed.

Section Stoch.
Variables (h l c : list float) (w : Z) (fillna : bool).
Hypothesis rows : forall i, i < length c -> sane (nth i l fnan) (nth i c fnan) (nth i h fnan).
Hypothesis lens : length h = length c /\ length l = length c.

Lemma sane_fin : forall i, i < length c -> fin (nth i l fnan) /\ fin (nth i h fnan).
Proof. intros i Hi. destruct (span_ok _ _ _ (rows i Hi)) as (H1 & _ & H3 & _). auto. Qed.
Lemma hs_fin : Forall fin h.
Proof. destruct lens as [Lh Ll]. apply Forall_rows. intros i Hi. apply sane_fin. lia. Qed.
Lemma ls_fin : Forall fin l.
Proof. destruct lens as [Lh Ll]. apply Forall_rows. intros i Hi. apply sane_fin. lia. Qed.

Lemma win_sane : forall m hs ls i, rolling w m agg_max h = Ok hs -> rolling w m agg_min l = Ok ls -> i < length c ->
  Order.num (nth i hs fnan) -> Order.num (nth i ls fnan) -> sane (nth i ls fnan) (nth i c fnan) (nth i hs fnan).
Proof.
  intros m hs ls i Eh El Hi Nh Nl. destruct lens as [Lh Ll].
  rewrite (nth_roll _ _ _ _ _ _ Eh) in * by lia. rewrite (nth_roll _ _ _ _ _ _ El) in * by lia.
  rewrite (prep_fin h hs_fin) in *. rewrite (prep_fin l ls_fin) in *.
  apply aggmax_spec in Nh. apply aggmin_spec in Nl. destruct Nh as [Ih Mh], Nl as [Il Ml].
  assert (W1 : 0 < Z.to_nat w).
  { destruct (Z.to_nat w); [|lia]. exfalso. unfold window_at in Ih. rewrite skipn_all2 in Ih by (rewrite firstn_length; lia). destruct Ih. }
  destruct (rows i Hi) as (R1 & R2 & R3 & R4). destruct (sane_fin i Hi) as (Fl & Fh).
  apply win_in in Ih, Il. repeat split.
  - destruct (In_nth _ _ fnan Il) as (j & Hj & <-). apply rows. lia.
  - eapply fle_trans; [|exact R2]. apply Ml; [apply own_window; lia|now apply fin_num].
  - eapply fle_trans; [exact R3|]. apply Mh; [apply own_window; lia|now apply fin_num].
  - destruct (In_nth _ _ fnan Ih) as (j & Hj & <-). apply rows. lia.
Qed.

Lemma stoch_bet : forall s r, stoch h l c w s fillna = Ok r -> Forall (bet (#0) next100) r.
Proof.
  intros s r E. unfold stoch, stoch_run in E. destruct (rolling w _ agg_min l) as [ls|] eqn:El; [|discriminate]. cbn [bind] in E.
  destruct (rolling w _ agg_max h) as [hs|] eqn:Eh; [|discriminate]. cbn [bind rmap] in E. injection E as <-.
  pose proof (len_rolling _ _ _ _ _ Eh) as L1. pose proof (len_rolling _ _ _ _ _ El) as L2. destruct lens as [Lh Ll].
  apply check_P; [apply bet_nan|intros _; vm_compute; auto|].
  apply Forall_rows. intros i Hi. unfold sdiv, ssub in *. rewrite length_map2 in Hi. unfold scal in Hi. rewrite map_length, !length_map2 in Hi.
  rewrite nth_map2 with (da := fnan) (db := fnan) by (unfold scal; rewrite ?map_length, ?length_map2; lia).
  rewrite nth_scal by (rewrite length_map2; lia).
  rewrite !nth_map2 with (da := fnan) (db := fnan) by lia.
  intros N. assert (Order.num (nth i hs fnan) /\ Order.num (nth i ls fnan)) as [N1 N2] by (nan; auto).
  apply stoch_pos; auto. eapply win_sane; eauto. lia.
Qed.
Lemma williams_bet : forall r, williams_r h l c w fillna = Ok r -> Forall (bet (fopp next100) (#0)) r.
Proof.
  intros r E. unfold williams_r in E. destruct (rolling w _ agg_max h) as [hs|] eqn:Eh; [|discriminate]. cbn [bind] in E.
  destruct (rolling w _ agg_min l) as [ls|] eqn:El; [|discriminate]. cbn [bind] in E. injection E as <-.
  pose proof (len_rolling _ _ _ _ _ Eh) as L1. pose proof (len_rolling _ _ _ _ _ El) as L2. destruct lens as [Lh Ll].
  apply check_P; [apply bet_nan|intros _; vm_compute; auto|].
  apply Forall_rows. intros i Hi. unfold sdiv, ssub in *. rewrite length_map2 in Hi. unfold scal in Hi. rewrite map_length, !length_map2 in Hi.
  rewrite nth_map2 with (da := fnan) (db := fnan) by (unfold scal; rewrite ?map_length, ?length_map2; lia).
  rewrite nth_scal by (rewrite length_map2; lia).
  rewrite !nth_map2 with (da := fnan) (db := fnan) by lia.
  intros N. assert (Order.num (nth i hs fnan) /\ Order.num (nth i ls fnan)) as [N1 N2] by (nan; auto).
  apply will_pos; auto. eapply win_sane; eauto. lia.
Qed.
End Stoch.
