(** * FiError: the force index in binary64 against the real-number formula. *)
From Flocq Require Import Core PrimFloat.
From Coq Require Import Reals Lra Floats.
From Verif Require Import Lists Arith FloatArith FloatReal Order FloatOrder Api FloatPct EmaError FloatEma FloatTrack SpecNum Averages Flows SpecTracking Tracking.
Local Open Scope R_scope.
#[local] Arguments eta : simpl never.
#[local] Arguments u : simpl never.

(** ** one row down *)
Lemma Forall2_len : forall A B (P : A -> B -> Prop) x y, Forall2 P x y -> length x = length y.
Proof. induction 1; cbn; congruence. Qed.
Lemma near_firstn : forall e k x y, Forall2 (near e) x y -> Forall2 (near e) (firstn k x) (firstn k y).
Proof. intros e. induction k as [|k IH]; intros x y H; [constructor|]. destruct H; cbn; constructor; auto. Qed.
Lemma near_shift1 : forall e x y, Forall2 (near e) x y -> Forall2 (near e) (shift 1 x) (shift 1 y).
Proof.
  intros e x y H. unfold shift, shift_fill. cbn [Z.leb Z.compare Z.to_nat Pos.to_nat]. change (Z.to_nat 1) with 1%nat.
  rewrite (Forall2_len _ _ _ _ _ H). apply Forall2_app; [|now apply near_firstn].
  destruct (length y); cbn; constructor; [exact val_fnan|constructor].
Qed.
Lemma late_shift1 : forall M y, Forall (bd M) y -> late M (shift 1 y).
Proof.
  intros M y H. unfold shift, shift_fill. change (0 <=? 1)%Z with true. cbn iota. change (Z.to_nat 1) with 1%nat.
  assert (G : forall k, Forall (bd M) (firstn k y)).
  { intros k. revert y H. induction k as [|k IH]; intros y H; [constructor|]. destruct H; cbn; constructor; auto. }
  destruct (length y) as [|[|n]]; cbn [Nat.min repeat app]; [apply late_fin, G|apply late_nan, late_fin, G|apply late_nan, late_fin, G].
Qed.

(** ** times a series read exactly *)
Lemma near_mul : forall e M V x1 y1, Forall2 (near e) x1 y1 -> late M y1 -> forall x2 y2, Forall2 (near 0) x2 y2 -> Forall (bd V) y2 ->
  0 <= e -> 0 <= M -> 0 <= V -> (M + e) * V <= bpow radix2 1020 ->
  Forall2 (near (e * V + (u * ((M + e) * V) + eta))) (smul x1 x2) (smul y1 y2).
Proof.
  assert (Z : forall M y s, late M (y :: s) -> (y = NaN \/ bd M y) /\ late M s).
  { intros M y s H. inversion H as [? H'|? H']; subst; [split; auto|]. split; [right; exact (Forall_inv H')|]. apply late_fin. exact (Forall_inv_tail H'). }
  intros e M V x1 y1 H1. induction H1 as [|a b x1 y1 H _ IH]; intros L1 x2 y2 H2 L2 P1 P2 P3 B; [constructor|].
  destruct H2 as [|c d x2 y2 H2 H2t]; [constructor|].
  apply Z in L1 as [B1 L1]. pose proof (Forall_inv L2) as (r & -> & M2). apply Forall_inv_tail in L2. cbn. constructor; [|now apply IH].
  cbn in H2. destruct H2 as (p & V' & Q'). assert (p = r) as -> by (destruct (Req_dec p r); auto; pose proof (Rabs_pos_lt (p - r)); lra). clear Q'.
  destruct b as [| | |b]; cbn in H; try easy.
  - cbn. rewrite val_mul, H. reflexivity.
  - destruct H as (q & Vq & Q). destruct B1 as [B1|(? & B1 & M1)]; [easy|]. injection B1 as <-.
    cbn. rewrite val_mul, Vq, V'. cbn [xmul].
    assert (Sq : Rabs q <= M + e) by (replace q with (b + (q - b)) by ring; eapply Rle_trans; [apply Rabs_triang|lra]).
    assert (S : Rabs (q * r) <= (M + e) * V) by (rewrite Rabs_mult; apply Rmult_le_compat; auto using Rabs_pos).
    rewrite rx_small by lra. eexists. split; [reflexivity|]. pose proof (rnd_err (q * r)) as E.
    assert (E' : u * Rabs (q * r) <= u * ((M + e) * V)) by (apply Rmult_le_compat_l; [unfold u; lra|exact S]).
    assert (D : Rabs ((q - b) * r) <= e * V) by (rewrite Rabs_mult; apply Rmult_le_compat; auto using Rabs_pos).
    replace (rnd (q * r) - b * r) with ((rnd (q * r) - q * r) + (q - b) * r) by ring.
    eapply Rle_trans; [apply Rabs_triang|]. lra.
Qed.
Lemma late_mul : forall M V, 0 <= M -> 0 <= V -> forall s, late M s -> forall t, Forall (bd V) t -> late (M * V) (smul s t).
Proof.
  intros M V P1 P2.
  assert (P : forall s, Forall (bd M) s -> forall t, Forall (bd V) t -> Forall (bd (M * V)) (smul s t)).
  { induction 1 as [|x s (a & -> & A) Hs IH]; intros t Ht; [constructor|]. destruct Ht as [|y t (b & -> & B) Ht]; [constructor|]. cbn. constructor; [|now apply IH].
    exists (a * b). split; auto. rewrite Rabs_mult. apply Rmult_le_compat; auto using Rabs_pos. }
  induction 1 as [s H IH|s H]; intros t Ht; [|apply late_fin; now apply P].
  destruct Ht as [|y t (b & -> & B) Ht]; [apply late_fin; constructor|]. cbn. apply late_nan. now apply IH.
Qed.

Lemma volumes_near : forall rows c v V, volumes rows v V -> Forall2 (near 0) (map b_volume rows) (map b_volume (frame (length rows) c c c v)) /\
  Forall (bd V) (map b_volume (frame (length rows) c c c v)).
Proof.
  intros rows c v M H. unfold frame, tab. rewrite !map_map. cbn [b_volume].
  assert (G : forall k, volumes rows (fun i => v (k + i)%nat) M -> Forall2 (near 0) (map b_volume rows) (map (fun i => Fin (v i)) (seq k (length rows))) /\
    Forall (bd M) (map (fun i => Fin (v i)) (seq k (length rows)))).
  { clear H. induction rows as [|b rows IH]; intros k H; [split; constructor|]. destruct (H 0%nat b eq_refl) as (V & B). rewrite Nat.add_0_r in V, B.
    destruct (IH (S k)) as [I1 I2]; [intros i b' E; specialize (H (S i) b' E); cbn beta in H; replace (S k + i)%nat with (k + S i)%nat by lia; exact H|].
    cbn [map length seq]. split; constructor; auto.
    - exists (v k). split; auto. replace (v k - v k) with 0 by ring. rewrite Rabs_R0. lra.
    - now exists (v k). }
  now apply (G 0%nat).
Qed.

Theorem fi_tracks : forall fillna w rows c v M V, (1 <= w)%nat -> (100 * Z.of_nat w <= 2 ^ 53)%Z -> closes rows c M -> volumes rows v V ->
  ordinary M -> ordinary (M * V) ->
  exists out, compute (Fi (Z.of_nat w)) fillna rows = Ok out /\
    Forall2 (within (part (2 * INR w + 3) (M * V))) out (tab (length rows) (gaps fillna 0 (1 + warm fillna w) (ema w (fun i => delta c i * v i) 1))).
Proof.
  intros fl w rows c v M V W1 W2 Hc Hv HM HMV.
  destruct (big_bounds M HM) as (P1 & P2 & P3 & P4 & P5). destruct (big_bounds _ HMV) as (Q1 & Q2 & Q3 & Q4 & Q5).
  assert (PV : 0 < V) by (apply (Rmult_lt_reg_l M); lra).
  destruct (closes_near _ _ _ Hc) as [N L]. destruct (volumes_near _ c _ _ Hv) as [NV LV].
  set (x := map b_close rows) in *. set (y := map b_close (frame (length rows) c c c c)) in *.
  assert (Ey : map b_close (frame (length rows) c c c v) = y) by (unfold y, frame, tab; now rewrite !map_map).
  set (z := map b_volume rows) in *. set (t := map b_volume (frame (length rows) c c c v)) in *.
  pose proof (near_sub 0 0 M M x y N (late_fin _ _ L) _ _ (near_shift1 _ _ _ N) (late_shift1 _ _ L) ltac:(lra) ltac:(lra) ltac:(lra) ltac:(lra) ltac:(lra)) as D.
  pose proof (late_sub M M y (late_fin _ _ L) _ (late_shift1 _ _ L)) as DL.
  set (e1 := (3 * u) * M).
  assert (Up : 0 < u < / 1000000) by (unfold u; lra).
  assert (UM : 0 < u * M) by (apply Rmult_lt_0_compat; lra).
  eapply (near_mono2 _ e1) in D; [|unfold e1; lra].
  assert (UMV : 0 < u * (M * V)) by (apply Rmult_lt_0_compat; lra).
  assert (UU : u * (u * (M * V)) <= u * (M * V) / 1000000) by (pose proof (Rmult_lt_compat_r (u * (M * V)) u (/ 1000000)); lra).
  assert (UMs : u * (M * V) <= (M * V) / 1000000) by (pose proof (Rmult_lt_compat_r (M * V) u (/ 1000000)); lra).
  assert (EV : e1 * V = 3 * (u * (M * V))) by (unfold e1; ring).
  assert (MV2 : (M + M + e1) * V = 2 * (M * V) + 3 * (u * (M * V))) by (unfold e1; ring).
  pose proof (near_mul e1 (M + M) V _ _ D DL _ _ NV LV ltac:(unfold e1; lra) ltac:(lra) ltac:(lra) ltac:(rewrite MV2; lra)) as R.
  pose proof (late_mul (M + M) V ltac:(lra) ltac:(lra) _ DL _ LV) as RL.
  set (e := (6 * u) * (M * V)).
  eapply (near_mono2 _ e) in R; [|rewrite MV2, EV; unfold e; rewrite Rmult_plus_distr_l; lra].
  assert (E0 : e = 6 * (u * (M * V))) by (unfold e; ring).
  assert (TMV : (M + M) * V = 2 * (M * V)) by ring. rewrite TMV in RL.
  destruct (near_ema e (2 * (M * V)) (Z.of_nat w) fl _ _ ltac:(lia) W2 ltac:(lra) ltac:(lra) R RL) as (x' & y' & E1 & E2 & E3 & _).
  pose proof (fi_formula fl w (length rows) c c c v W1) as F. cbn [compute] in F |- *. unfold force_index in *.
  fold x. fold z. rewrite Ey in F. fold t in F. rewrite E1. rewrite E2 in F. cbn [bind] in F |- *. change (1 + warm fl w)%nat with (S (warm fl w)). injection F as <-.
  eexists. split; [reflexivity|]. apply near_within, near_fill; [apply part_pos; [lra|pose proof (pos_INR w); lra]|lia|].
  eapply near_mono2; [|exact E3]. rewrite E0. unfold ebound, part. change (IZR (2 ^ 50)) with 1125899906842624. rewrite INR_IZR_INZ.
  assert (W3 : 1 <= IZR (Z.of_nat w) /\ 100 * IZR (Z.of_nat w) <= 9007199254740992) by (apply wR; lia).
  set (q := IZR (Z.of_nat w)) in *. set (m := M * V) in *.
  assert (A : (q + 1) * (u * m) <= m / 50).
  { replace ((q + 1) * (u * m)) with (((q + 1) * u) * m) by ring. assert ((q + 1) * u <= / 50) by (unfold u; lra). pose proof (Rmult_le_compat_r m _ _ ltac:(lra) H). lra. }
  unfold u in *. lra.
Qed.

(** ** the sign of the index *)
Lemma forall2_cell : forall A B (P : A -> B -> Prop) x y, Forall2 P x y -> forall i a, nth_error x i = Some a -> exists b, nth_error y i = Some b /\ P a b.
Proof.
  intros A B P x y. induction 1 as [|a b x y H _ IH]; intros [|i] c E; try discriminate; cbn in *; [injection E as <-; eauto|eauto].
Qed.
Theorem fi_sign : forall fillna w rows c v M V, (1 <= w)%nat -> (100 * Z.of_nat w <= 2 ^ 53)%Z -> closes rows c M -> volumes rows v V ->
  ordinary M -> ordinary (M * V) ->
  forall out i x, compute (Fi (Z.of_nat w)) fillna rows = Ok out -> nth_error out i = Some x -> (1 + warm fillna w <= i)%nat ->
  let f := ema w (fun j => delta c j * v j) 1 i in part (2 * INR w + 3) (M * V) < Rabs f ->
  exists q, val x = Fin q /\ (0 < q <-> 0 < f) /\ (q < 0 <-> f < 0).
Proof.
  intros fl w rows c v M V W1 W2 Hc Hv HM HMV out i x E X I f G.
  destruct (fi_tracks fl w rows c v M V W1 W2 Hc Hv HM HMV) as (out' & E' & F). rewrite E in E'. injection E' as <-.
  destruct (forall2_cell _ _ _ _ _ F i x X) as (b & Hb & Wb).
  assert (b = Fin f) as ->.
  { unfold tab in Hb. rewrite nth_error_map in Hb. destruct (nth_error (seq _ _) i) as [j|] eqn:Ej; [|discriminate].
    assert (j = i) as ->.
    { assert (L : (i < length rows)%nat) by (rewrite <- (seq_length (length rows) 0); apply nth_error_Some; congruence).
      rewrite (nth_error_nth' _ 0%nat) in Ej by (now rewrite seq_length). rewrite seq_nth in Ej by auto. cbn in Ej. congruence. }
    cbn [option_map] in Hb. injection Hb as <-. unfold gaps. rewrite (proj2 (Nat.ltb_ge i (S (warm fl w))) I). reflexivity. }
  cbn in Wb. destruct Wb as (q & Vq & B). exists q. split; [exact Vq|]. destruct (big_bounds _ HMV) as (Q1 & _).
  pose proof (part_pos (2 * INR w + 3) (M * V) Q1 ltac:(pose proof (pos_INR w); lra)) as P. set (p := part _ _) in *. clearbody p f.
  apply Rabs_le_inv in B. unfold Rabs in G. destruct (Rcase_abs f); lra.
Qed.
