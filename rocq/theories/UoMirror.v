(** * UoMirror: the ultimate oscillator on the mirrored market (C71). *)
From Coq Require Import Reals Lra.
From Verif Require Import Lists Api SpecNum SpecMirror Tab TrueRange Mirror.
Local Open Scope R_scope.

Lemma mirrored_frame : forall n h l c v, mirrored (frame n h l c v) = frame n (fun i => - l i) (fun i => - h i) (fun i => - c i) v.
Proof. intros. unfold mirrored, frame, tab. now rewrite map_map. Qed.
Lemma trange_mirror : forall h l c i, trange (fun i => - l i) (fun i => - h i) (fun i => - c i) i = trange h l c i.
Proof.
  intros h l c [|i]; cbn [trange]; [lra|].
  replace (- l (S i) - - h (S i)) with (h (S i) - l (S i)) by lra. rewrite (Rmax_comm (Rabs (- l _ - _))). f_equal.
  f_equal; rewrite <- Rabs_Ropp; f_equal; lra.
Qed.
Lemma pressure_mirror : forall n h l c i, sane n h l c -> (1 <= i < n)%nat ->
  pressure (fun i => - h i) (fun i => - c i) i = trange h l c i - pressure l c i.
Proof.
  intros n h l c [|i] H Hi; [lia|]. cbn [trange pressure]. pose proof (H i ltac:(lia)). pose proof (H (S i) ltac:(lia)).
  unfold Rmax, Rmin, Rabs. repeat destruct (Rle_dec _ _); repeat destruct (Rcase_abs _); lra.
Qed.
Lemma rsum_diff : forall f g a k, rsum (fun j => f j - g j) a k = rsum f a k - rsum g a k.
Proof. intros f g a k. induction k; cbn [rsum]; [lra|]. rewrite IHk. lra. Qed.
Lemma wsum_tr : forall h l c w i, wsum w (trange (fun i => - l i) (fun i => - h i) (fun i => - c i)) i = wsum w (trange h l c) i.
Proof. intros. apply rsum_ext. intros. apply trange_mirror. Qed.
Lemma wsum_bp : forall n h l c w i, sane n h l c -> (w <= i < n)%nat ->
  wsum w (pressure (fun i => - h i) (fun i => - c i)) i = wsum w (trange h l c) i - wsum w (pressure l c) i.
Proof.
  intros n h l c w i H Hi. unfold wsum. rewrite <- rsum_diff. apply rsum_ext. intros j Hj. unfold wlo, wlen in Hj. eapply pressure_mirror; eauto. lia.
Qed.
Lemma uo_row_mirror : forall n h l c w1 w2 w3 k1 k2 k3 i, sane n h l c -> k1 + k2 + k3 <> 0 -> (w1 <= i)%nat -> (w2 <= i)%nat -> (w3 <= i < n)%nat ->
  uo_row (fun i => - l i) (fun i => - h i) (fun i => - c i) w1 w2 w3 k1 k2 k3 i = seen (Complement 100) (uo_row h l c w1 w2 w3 k1 k2 k3 i).
Proof.
  intros n h l c w1 w2 w3 k1 k2 k3 i H K H1 H2 H3. unfold uo_row. rewrite !wsum_tr, !(wsum_bp n h l c) by (auto; lia).
  destruct (Req_EM_T (wsum w1 _ i) 0); auto. destruct (Req_EM_T (wsum w2 _ i) 0); auto. destruct (Req_EM_T (wsum w3 _ i) 0); auto.
  cbn [seen]. f_equal. field. auto.
Qed.
Theorem uo_mirror : forall w1 w2 w3 k1 k2 k3 n h l c v, (1 <= w1)%nat -> (1 <= w2)%nat -> (1 <= w3)%nat -> sane n h l c -> k1 + k2 + k3 <> 0 ->
  let uo := UltOsc (Z.of_nat w1) (Z.of_nat w2) (Z.of_nat w3) (Fin k1) (Fin k2) (Fin k3) in
  compute uo false (mirrored (frame n h l c v)) = rmap (map (seen (Complement 100))) (compute uo false (frame n h l c v)).
Proof.
  intros w1 w2 w3 k1 k2 k3 n h l c v W1 W2 W3 S K uo. rewrite mirrored_frame.
  assert (S' : sane n (fun i => - l i) (fun i => - h i) (fun i => - c i)). { intros j Hj. specialize (S j Hj). lra. }
  destruct (uo_formula false w1 w2 w3 k1 k2 k3 n h l c v W1 W2 W3 S K) as (o & Eo & Ho).
  destruct (uo_formula false w1 w2 w3 k1 k2 k3 n _ _ _ v W1 W2 W3 S' K) as (o' & Eo' & Ho').
  unfold uo. rewrite Eo, Eo'. subst o o'. cbn [rmap]. f_equal. unfold tab. rewrite map_map. apply map_ext_in. intros i Hi. apply in_seq in Hi.
  unfold fromx. destruct (Nat.ltb_spec i (Nat.max w1 (Nat.max w2 w3))); auto. apply uo_row_mirror with n; auto; lia.
Qed.
