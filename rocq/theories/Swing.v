(** * Swing: full swings from arbitrarily small moves (C99). *)
From Verif Require Import Lists Api SpecNum SpecSteady SpecSwing SpecRobust SpecMemory SpecRaise Raises Tab Averages Oscillators Flows Halt Steady.
Local Open Scope R_scope.

Lemma swings_ok : forall ind m hi lo (rows : list (bar xr)), swings ind m hi lo -> exists out, compute ind false rows = Ok out.
Proof.
  intros ind m hi lo rows S. enough (N : failing_check ind false rows = None)
    by (pose proof (raises_exactly ind false rows eq_refl) as R; rewrite N in R; exact R).
  assert (Z0 : forall w, (1 <= w)%Z -> (w <? 0)%Z = false /\ (w =? 0)%Z = false /\ (w <? 1)%Z = false /\ (w <? -1)%Z = false /\ (w =? -1)%Z = false).
  { intros w Hw. repeat split; (apply Z.ltb_ge || apply Z.eqb_neq); lia. }
  destruct ind; cbn [swings] in S; try contradiction; repeat match goal with
    | H : match ?k with _ => _ end |- _ => destruct k; try contradiction
    | H : _ /\ _ |- _ => destruct H
    | H : (2 <= ?w)%Z |- _ => assert (1 <= w)%Z by lia; clear H
    end;
  repeat match goal with H : (1 <= ?w)%Z |- _ => destruct (Z0 w H) as (? & ? & ? & ? & ?); clear H end;
  unfold failing_check, roll_bad, span_bad, roll1_bad; cbn [first_failure app];
  repeat match goal with H : ?x = false |- _ => rewrite H; clear H end; reflexivity.
Qed.

Definition line (p b : R) (j : nat) : R := p + b * INR j.
Lemma steady_line : forall n p b v, (forall j, 0 < v j) -> steady p b 0 0 (frame n (line p b) (line p b) (line p b) v).
Proof.
  intros n p b v V. exists v. split; [exact V|]. unfold same_values, frame, tab. rewrite map_length, seq_length.
  induction (seq 0 n) as [|j s IH]; cbn [map]; constructor; auto. cbn [b_high b_low b_close b_volume]. unfold line.
  repeat split; f_equal; ring.
Qed.
Lemma mad_pos : forall w, (2 <= w)%Z -> 0 < mad w.
Proof.
  intros w Hw. unfold mad. assert (M : (0 <= w mod 2 < 2)%Z) by (apply Z.mod_pos_bound; lia).
  assert (1 <= IZR (w * w) - IZR (w mod 2)) by (rewrite <- minus_IZR; apply IZR_le; nia).
  assert (2 <= IZR w) by (apply IZR_le; lia). apply Rdiv_lt_0_compat; lra.
Qed.
Lemma dev_pos : forall w, (2 <= w)%Z -> 0 < dev (IZR w).
Proof. intros w Hw. unfold dev. assert (2 <= IZR w) by (apply IZR_le; lia). apply sqrt_lt_R0. nra. Qed.

(** one direction *)
Section Way.
Variables (n : nat) (p b : R) (v : nat -> R).
Hypothesis V : forall j, 0 < v j.
Lemma way : forall ind m x out i, compute ind false (frame n (line p b) (line p b) (line p b) v) = Ok out -> memory ind = Some m ->
  (m <= i < n)%nat -> trend_shows b 0 0 (p + b * INR i) ind x -> nth i out NaN = x.
Proof.
  intros ind m x out i E M Hi T.
  apply (steady_table p b 0 0 ind m [] (frame n (line p b) (line p b) (line p b) v) out x i); auto; try lra.
  - now apply steady_line.
  - unfold frame. now rewrite len_tab.
Qed.
End Way.

Definition end_of (up : bool) (hi lo : R) : R := if up then hi else lo.
Lemma swing_way : forall (up : bool) ind m hi lo n p b v out i, swings ind m hi lo -> (forall j, 0 < v j) -> 0 < b -> b * INR (n + m) < p ->
  let c := line p (if up then b else - b) in
  compute ind false (frame n c c c v) = Ok out -> (m <= i < n)%nat -> nth i out NaN = Fin (end_of up hi lo).
Proof.
  intros up ind m hi lo n p b v out i S V B P c E Hi.
  assert (A : Rabs (if up then b else - b) = b) by (destruct up; [now apply Rabs_pos_eq; lra|rewrite Rabs_Ropp; apply Rabs_pos_eq; lra]).
  assert (NZ : (if up then b else - b) <> 0) by (destruct up; lra).
  set (s := if up then b else - b) in *.
  assert (LOW : b * INR m < p + s * INR i).
  { assert (I : INR i <= INR n) by (apply le_INR; lia). rewrite plus_INR in P. pose proof (pos_INR i). unfold s. destruct up; nra. }
  assert (W2 : forall w, (2 <= w)%Z -> 1 <= IZR w - 1) by (intros w Hw; pose proof (IZR_le 2 w Hw); lra).
  assert (RISE : forall w, (2 <= w)%Z -> rise s w = end_of up (b * (IZR w - 1)) 0 /\ fall s w = end_of up 0 (b * (IZR w - 1))).
  { intros w Hw. unfold rise, fall, s. destruct up; cbn [end_of];
      rewrite ?Ropp_involutive, (Rmax_right 0 b), (Rmax_left 0 (- b)) by lra; split; ring. }
  assert (NSUM : forall w, (2 <= w)%Z -> 0 < rise s w + fall s w).
  { intros w Hw. destruct (RISE w Hw) as [-> ->]. specialize (W2 w Hw). destruct up; cbn [end_of]; nra. }
  destruct ind; cbn [swings] in S; try contradiction; repeat match goal with
    | H : match ?k with _ => _ end |- _ => destruct k; try contradiction
    | H : _ /\ _ |- _ => destruct H
    end; subst hi lo.
  - (* Rsi *)
    destruct (Z_of_nat_complete window ltac:(lia)) as [w ->]. subst m. destruct up; cbn [end_of].
    + eapply (rsi_rising false w n); [lia|unfold warm; lia| |exact E]. intros j Hj. unfold c, line, s.
      replace (INR j) with (INR (j - 1) + 1) by (rewrite minus_INR by lia; cbn; lra). nra.
    + eapply (rsi_falling false w n _ _ _ _ i i); [lia|unfold warm; lia| |lia| |now right|exact E].
      * intros j Hj. unfold c, line, s. replace (INR j) with (INR (j - 1) + 1) by (rewrite minus_INR by lia; cbn; lra). nra.
      * unfold c, line, s. replace (INR i) with (INR (i - 1) + 1) by (rewrite minus_INR by lia; cbn; lra). nra.
  - (* Tsi *)
    destruct (Z_of_nat_complete window_slow ltac:(lia)) as [ws ->]. destruct (Z_of_nat_complete window_fast ltac:(lia)) as [wf ->].
    subst m. destruct up; cbn [end_of].
    + eapply (tsi_rising false ws wf n); [lia|lia|unfold warm; lia| |exact E]. intros j Hj. unfold c, line, s.
      replace (INR j) with (INR (j - 1) + 1) by (rewrite minus_INR by lia; cbn; lra). nra.
    + eapply (tsi_falling false ws wf n); [lia|lia|unfold warm; lia| |exact E]. intros j Hj. unfold c, line, s.
      replace (INR j) with (INR (j - 1) + 1) by (rewrite minus_INR by lia; cbn; lra). nra.
  - (* UltOsc *)
    eapply way; [exact V|exact E|reflexivity|unfold back; lia|]. cbn [trend_shows].
    assert (T : step_range s 0 0 = b).
    { unfold step_range. replace (s + 0) with s by ring. replace (s - 0) with s by ring. rewrite A. unfold Rmax; repeat destruct Rle_dec; lra. }
    rewrite T. repeat split; auto; [lra|]. f_equal. unfold s. destruct up; cbn [end_of]; [rewrite Rmax_right|rewrite Rmax_left]; try lra; field; lra.
  - (* Stoch *)
    specialize (NSUM window ltac:(lia)). eapply way; [exact V|exact E|reflexivity|unfold back; lia|]. cbn [trend_shows].
    split; [lia|]. split; [lra|]. f_equal. destruct (RISE window ltac:(lia)) as [R1 R2]. rewrite R1, R2. match type of R1 with rise _ ?w = _ => pose proof (W2 w ltac:(lia)) end. destruct up; cbn [end_of]; field; repeat split; lra.
  - (* WilliamsR *)
    specialize (NSUM lbp ltac:(lia)). eapply way; [exact V|exact E|reflexivity|unfold back; lia|]. cbn [trend_shows].
    split; [lia|]. split; [lra|]. f_equal. destruct (RISE lbp ltac:(lia)) as [R1 R2]. rewrite R1, R2. match type of R1 with rise _ ?w = _ => pose proof (W2 w ltac:(lia)) end. destruct up; cbn [end_of]; field; repeat split; lra.
  - eapply way; [exact V|exact E|reflexivity|unfold SpecMemory.lag; lia|]. cbn [trend_shows]. split; [lia|]. unfold s. destruct up; cbn [end_of]; [left|right]; split; auto; lra.
  - eapply way; [exact V|exact E|reflexivity|unfold SpecMemory.lag; lia|]. cbn [trend_shows]. split; [lia|]. unfold s. destruct up; cbn [end_of]; [left|right]; split; auto; lra.
  - eapply way; [exact V|exact E|reflexivity|unfold SpecMemory.lag; lia|]. cbn [trend_shows]. split; [lia|]. unfold s. destruct up; cbn [end_of]; [left|right]; split; auto; lra.
  - (* Cci *)
    pose proof (mad_pos window ltac:(lia)). eapply way; [exact V|exact E|reflexivity|unfold back; lia|]. cbn [trend_shows].
    repeat split; auto; try lia. rewrite A. f_equal. unfold s. destruct up; cbn [end_of]; field; repeat split; lra.
  - (* BbP *)
    pose proof (dev_pos window ltac:(lia)). eapply way; [exact V|exact E|reflexivity|unfold back; lia|]. cbn [trend_shows].
    repeat split; auto; try lia. rewrite A. f_equal. unfold s. destruct up; cbn [end_of]; field; repeat split; lra.
  - (* DcP *)
    specialize (NSUM window ltac:(lia)). eapply way; [exact V|exact E|reflexivity|unfold back, SpecMemory.lag; lia|]. cbn [trend_shows].
    split; [lia|]. split; [lra|]. f_equal. destruct (RISE window ltac:(lia)) as [R1 R2]. rewrite R1, R2. match type of R1 with rise _ ?w = _ => pose proof (W2 w ltac:(lia)) end. destruct up; cbn [end_of]; field; repeat split; lra.
  - (* Mfi *)
    eapply way; [exact V|exact E|reflexivity|unfold back; lia|]. cbn [trend_shows].
    split; [lia|]. split.
    + rewrite A. replace (IZR window) with (INR m) by (subst m; rewrite INR_IZR_INZ, Z2Nat.id by lia; reflexivity). lra.
    + unfold s. destruct up; cbn [end_of]; [left|right]; split; auto; lra.
Qed.

Lemma full_swing : forall ind m hi lo, swings ind m hi lo -> forall p e n, 0 < p -> 0 < e ->
  exists c c', off_by e n c (fun _ => p) /\ off_by e n c' (fun _ => p) /\ (forall i, (i < n)%nat -> 0 < c i /\ 0 < c' i) /\
    exists out out', compute ind false (frame n c c c (fun _ => 1)) = Ok out /\ compute ind false (frame n c' c' c' (fun _ => 1)) = Ok out' /\
      forall i, (m <= i < n)%nat -> nth i out NaN = Fin hi /\ nth i out' NaN = Fin lo.
Proof.
  intros ind m hi lo S p e n Hp He.
  set (N := INR (n + m) + 1). assert (N1 : 1 <= N) by (unfold N; pose proof (pos_INR (n + m)); lra).
  set (b := Rmin e p / (2 * N)). assert (M : 0 < Rmin e p) by (apply Rmin_pos; lra).
  assert (B : 0 < b) by (apply Rdiv_lt_0_compat; lra).
  assert (BN : 2 * b * N = Rmin e p) by (unfold b; field; lra).
  pose proof (Rmin_l e p). pose proof (Rmin_r e p).
  assert (ST : forall i, (i < n)%nat -> 0 <= INR i /\ b * INR i <= b * N - b).
  { intros i Hi. split; [apply pos_INR|]. assert (INR i <= INR (n + m)) by (apply le_INR; lia). unfold N. nra. }
  exists (line p b), (line p (- b)).
  split; [|split; [|split]].
  - intros i Hi. destruct (ST i Hi). unfold line. replace (p + b * INR i - p) with (b * INR i) by ring. rewrite Rabs_pos_eq; nra.
  - intros i Hi. destruct (ST i Hi). unfold line. replace (p + - b * INR i - p) with (- (b * INR i)) by ring. rewrite Rabs_Ropp, Rabs_pos_eq; nra.
  - intros i Hi. destruct (ST i Hi). unfold line. split; nra.
  - destruct (swings_ok ind m hi lo (frame n (line p b) (line p b) (line p b) (fun _ => 1)) S) as [out E].
    destruct (swings_ok ind m hi lo (frame n (line p (- b)) (line p (- b)) (line p (- b)) (fun _ => 1)) S) as [out' E'].
    exists out, out'. split; [auto|]. split; [auto|]. intros i Hi.
    assert (P : b * INR (n + m) < p) by (unfold N in BN; nra).
    split; [exact (swing_way true ind m hi lo n p b (fun _ => 1) out i S (fun _ => Rlt_0_1) B P E Hi)|
            exact (swing_way false ind m hi lo n p b (fun _ => 1) out' i S (fun _ => Rlt_0_1) B P E' Hi)].
Qed.

(** the volume series *)
Lemma obv_swing : forall p e n v, 0 < p -> 0 < e ->
  exists c c', off_by e n c (fun _ => p) /\ off_by e n c' (fun _ => p) /\ (forall i, (i < n)%nat -> 0 < c i /\ 0 < c' i) /\
    exists out out', compute Obv false (frame n c c c v) = Ok out /\ compute Obv false (frame n c' c' c' v) = Ok out' /\
      forall i, (i < n)%nat -> nth i out NaN = Fin (rsum v 0 (S i)) /\ nth i out' NaN = Fin (v O - rsum v 1 i).
Proof.
  intros p e n v Hp He.
  set (N := INR n + 1). assert (N1 : 1 <= N) by (unfold N; pose proof (pos_INR n); lra).
  set (b := Rmin e p / (2 * N)). assert (M : 0 < Rmin e p) by (apply Rmin_pos; lra).
  assert (B : 0 < b) by (apply Rdiv_lt_0_compat; lra).
  assert (BN : 2 * b * N = Rmin e p) by (unfold b; field; lra).
  pose proof (Rmin_l e p). pose proof (Rmin_r e p).
  assert (ST : forall i, (i < n)%nat -> 0 <= INR i /\ b * INR i <= b * N - b).
  { intros i Hi. split; [apply pos_INR|]. assert (INR i <= INR n) by (apply le_INR; lia). unfold N. nra. }
  exists (line p b), (line p (- b)). split; [|split; [|split]].
  - intros i Hi. destruct (ST i Hi). unfold line. replace (p + b * INR i - p) with (b * INR i) by ring. rewrite Rabs_pos_eq; nra.
  - intros i Hi. destruct (ST i Hi). unfold line. replace (p + - b * INR i - p) with (- (b * INR i)) by ring. rewrite Rabs_Ropp, Rabs_pos_eq; nra.
  - intros i Hi. destruct (ST i Hi). unfold line. split; nra.
  - do 2 eexists. split; [apply obv_formula|]. split; [apply obv_formula|]. intros i Hi.
    rewrite !nth_tab by lia. split; (apply from_ge; [lia|]).
    + apply rsum_ext. intros j Hj. destruct j as [|j]; [reflexivity|]. unfold signed_volume.
      destruct (Rlt_dec _ _) as [L|]; [|reflexivity]. exfalso. unfold line in L. rewrite S_INR in L. nra.
    + rewrite Steady.rsum_first. unfold Rminus. f_equal. replace (- rsum v 1 i) with (-1 * rsum v 1 i) by ring.
      rewrite <- Steady.rsum_scl. apply rsum_ext. intros j Hj. destruct j as [|j]; [lia|]. unfold signed_volume.
      destruct (Rlt_dec _ _) as [|L]; [ring|]. exfalso. apply L. unfold line. rewrite S_INR. nra.
Qed.

Lemma location_top : forall p e i, 0 < e -> location (fun _ => p) (fun _ => p - e) (fun _ => p) i = 1.
Proof. intros. unfold location. destruct (Req_EM_T _ _); [lra|]. field. lra. Qed.
Lemma location_bottom : forall p e i, 0 < e -> location (fun _ => p) (fun _ => p - e) (fun _ => p - e) i = -1.
Proof. intros. unfold location. destruct (Req_EM_T _ _); [lra|]. field. lra. Qed.
Lemma adi_swing : forall p e n v, 0 < e ->
  let rows c := frame n (fun _ => p) (fun _ => p - e) (fun _ => c) v in
  exists out out', compute Adi false (rows p) = Ok out /\ compute Adi false (rows (p - e)) = Ok out' /\
    forall i, (i < n)%nat -> nth i out NaN = Fin (rsum v 0 (S i)) /\ nth i out' NaN = Fin (- rsum v 0 (S i)).
Proof.
  intros p e n v He rows. do 2 eexists. split; [apply adi_formula; intros i Hi; lra|]. split; [apply adi_formula; intros i Hi; lra|]. intros i Hi.
  rewrite !nth_tab by lia. split; (apply from_ge; [lia|]).
  - apply rsum_ext. intros j Hj. rewrite location_top by auto. ring.
  - replace (- rsum v 0 (S i)) with (-1 * rsum v 0 (S i)) by ring. rewrite <- Steady.rsum_scl.
    apply rsum_ext. intros j Hj. rewrite location_bottom by auto. ring.
Qed.
Lemma cmf_swing : forall w p e n v, (1 <= w)%nat -> 0 < e -> (forall i, (i < n)%nat -> 0 < v i) ->
  let rows c := frame n (fun _ => p) (fun _ => p - e) (fun _ => c) v in
  exists out out', compute (Cmf (Z.of_nat w)) false (rows p) = Ok out /\ compute (Cmf (Z.of_nat w)) false (rows (p - e)) = Ok out' /\
    forall i, (w - 1 <= i < n)%nat -> nth i out NaN = Fin 1 /\ nth i out' NaN = Fin (-1).
Proof.
  intros w p e n v Hw He V rows.
  destruct (cmf_formula false w n (fun _ => p) (fun _ => p - e) (fun _ => p) v Hw ltac:(intros i Hi; lra)) as (out & E & F).
  destruct (cmf_formula false w n (fun _ => p) (fun _ => p - e) (fun _ => p - e) v Hw ltac:(intros i Hi; lra)) as (out' & E' & F').
  subst out out'. do 2 eexists. split; [exact E|]. split; [exact E'|]. intros i Hi. unfold warm.
  assert (P : 0 < wsum w v i).
  { unfold wsum. assert (L : (1 <= wlen w i)%nat) by (unfold wlen, wlo; lia). destruct (wlen w i) as [|k] eqn:K; [lia|].
    assert (A : forall k a, (a + k <= n)%nat -> 0 <= rsum v a k).
    { induction k0; intros; cbn [rsum]; [lra|]. pose proof (IHk0 a ltac:(lia)). pose proof (V (a + k0)%nat ltac:(lia)). lra. }
    cbn [rsum]. assert (wlo w i + k = i)%nat by (unfold wlen, wlo in *; lia). pose proof (A k (wlo w i) ltac:(lia)). pose proof (V (wlo w i + k)%nat ltac:(lia)). lra. }
  rewrite !nth_tab by lia. unfold fromx. rewrite !(proj2 (Nat.ltb_ge i (w - 1))) by lia.
  assert (R : forall s, ratio (s * wsum w v i) (wsum w v i) = Fin s).
  { intros s. unfold ratio. destruct (Req_EM_T _ _); [lra|]. f_equal. field. lra. }
  split; [rewrite <- (R 1)|rewrite <- (R (-1))]; f_equal; unfold wsum; rewrite <- Steady.rsum_scl; apply rsum_ext; intros j Hj;
    [rewrite location_top by auto|rewrite location_bottom by auto]; ring.
Qed.
