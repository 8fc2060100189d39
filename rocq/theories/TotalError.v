(** * TotalError: running totals in binary64 (C112). *)
From Flocq Require Import Core PrimFloat.
From Coq Require Import Reals Lra Floats.
From Verif Require Import Lists Arith FloatArith FloatReal Order FloatOrder Api Align Causal Rows Running FloatPct EmaError FloatEma FloatTrack SpecNum Sums Tab Averages Oscillators SpecTracking Tracking RunningError SumError WilderError RsiError Stuck RatioError Lines RollError MfiError.
Local Open Scope R_scope.
#[local] Arguments eta : simpl never.
#[local] Arguments u : simpl never.

Lemma nth_cumsum : forall (s : list float) acc i, (i < length s)%nat -> (forall j, (j <= i)%nat -> fisnan (nth j s fnan) = false) ->
  nth i (cumsum_go acc s) fnan = fadd (match i with O => acc | S k => nth k (cumsum_go acc s) fnan end) (nth i s fnan).
Proof.
  induction s as [|x s IH]; intros acc i Hi H; cbn [length] in Hi; [lia|]. pose proof (H 0%nat ltac:(lia)) as H0. cbn [nth] in H0. cbn [cumsum_go]. rewrite H0.
  destruct i as [|i]; [reflexivity|]. cbn [nth]. rewrite IH; [|lia|intros j Hj; apply (H (S j)); lia]. destruct i; reflexivity.
Qed.
Lemma len_cumsum : forall (s : list float) acc, length (cumsum_go acc s) = length s.
Proof. induction s; intros; cbn [cumsum_go length]; [reflexivity|]. destruct fisnan; cbn [length]; now rewrite IHs. Qed.
Lemma rsum_prefix : forall f a k n, (forall j, 0 <= f j) -> (k <= n)%nat -> rsum f a k <= rsum f a n.
Proof. intros f a k n H L. induction L as [|n L IH]; [lra|]. cbn [rsum]. pose proof (H (a + n)%nat). lra. Qed.
Lemma rsum_size : forall f n, Rabs (rsum f 0 n) <= rsum (fun j => Rabs (f j)) 0 n.
Proof. intros f n. induction n; cbn [rsum]; [rewrite Rabs_R0; lra|]. eapply Rle_trans; [apply Rabs_triang|]. lra. Qed.

Lemma rsum_member : forall f n j, (j < n)%nat -> (forall k, (k < n)%nat -> 0 <= f k) -> f j <= rsum f 0 n.
Proof.
  intros f n j Hj H. induction n as [|n IH]; [lia|]. cbn [rsum]. rewrite Nat.add_0_l. pose proof (H n ltac:(lia)). assert (0 <= rsum f 0 n) by (apply rsum_nonneg; intros; apply H; lia).
  destruct (Nat.eq_dec j n) as [->|D]; [lra|]. specialize (IH ltac:(lia) ltac:(intros; apply H; lia)). lra.
Qed.
Lemma total_row : forall (s : list float) (t e : nat -> R) T i, bpow radix2 (-900) <= T -> T <= bpow radix2 990 -> (i < length s)%nat -> INR (S i) * u <= / 1000 ->
  (forall j, 0 <= e j) -> (forall j, (j <= i)%nat -> exists q, val (nth j s fnan) = Fin q /\ Rabs (q - t j) <= e j) -> rsum (fun j => Rabs (t j) + e j) 0 (S i) <= 101 / 100 * T ->
  exists q, val (nth i (cumsum s) fnan) = Fin q /\ Rabs (q - rsum t 0 (S i)) <= rsum e 0 (S i) + 11 / 10 * INR (S i) * (u * T).
Proof.
  intros s t e T i T1 T2 Hi Nu He Hs HT. pose proof u_small as [U0 U1]. pose proof (bpow_gt_0 radix2 (-900)) as T0. assert (UT : 0 < u * T) by (apply Rmult_lt_0_compat; lra).
  assert (G : forall k, (k <= i)%nat -> exists q, val (nth k (cumsum s) fnan) = Fin q /\ Rabs (q - rsum t 0 (S k)) <= rsum e 0 (S k) + 11 / 10 * INR (S k) * (u * T)).
  { assert (Step : forall k acc A, (k <= i)%nat -> val acc = Fin A -> Rabs (A - rsum t 0 k) <= rsum e 0 k + 11 / 10 * INR k * (u * T) ->
      exists q, val (fadd acc (nth k s fnan)) = Fin q /\ Rabs (q - rsum t 0 (S k)) <= rsum e 0 (S k) + 11 / 10 * INR (S k) * (u * T)).
    { intros k acc A Hk VA EA. destruct (Hs k Hk) as (q & Vq & Eq).
      assert (P1 : rsum (fun j => Rabs (t j) + e j) 0 (S k) <= 101 / 100 * T) by (eapply Rle_trans; [|exact HT]; apply rsum_prefix; [intros j; pose proof (Rabs_pos (t j)); specialize (He j); lra|lia]).
      rewrite rsum_plus in P1. pose proof (rsum_size t (S k)) as P2.
      assert (P3 : INR k * (u * T) <= T / 1000).
      { rewrite <- Rmult_assoc. apply Rle_trans with (INR (S i) * u * T); [|apply Rle_trans with (/ 1000 * T); [apply Rmult_le_compat_r; lra|lra]]. apply Rmult_le_compat_r; [lra|]. apply Rmult_le_compat_r; [lra|]. apply le_INR. lia. }
      assert (EQ : Rabs (A + q - rsum t 0 (S k)) <= rsum e 0 (S k) + 11 / 10 * (INR k * (u * T))).
      { cbn [rsum]. rewrite !Nat.add_0_l. replace (A + q - (rsum t 0 k + t k)) with ((A - rsum t 0 k) + (q - t k)) by ring. eapply Rle_trans; [apply Rabs_triang|]. rewrite <- Rmult_assoc. lra. }
      assert (B : Rabs (A + q) <= 102 / 100 * T).
      { replace (A + q) with ((A + q - rsum t 0 (S k)) + rsum t 0 (S k)) by ring. eapply Rle_trans; [apply Rabs_triang|]. lra. }
      pose proof (rnd_K T T1 _ _ B) as R. replace (u * (102 / 100 * T)) with (102 / 100 * (u * T)) in R by ring. exists (rnd (A + q)). split.
      - rewrite val_add, VA, Vq. cbn [xadd]. apply rx_small. eapply Rle_trans; [exact B|]. apply Rle_trans with (bpow radix2 1 * bpow radix2 990); [change (bpow radix2 1) with 2; lra|rewrite <- bpow_plus; apply bpow_le; lia].
      - replace (rnd (A + q) - rsum t 0 (S k)) with ((rnd (A + q) - (A + q)) + (A + q - rsum t 0 (S k))) by ring. eapply Rle_trans; [apply Rabs_triang|]. rewrite (S_INR k).
        replace (11 / 10 * (INR k + 1) * (u * T)) with (11 / 10 * (INR k * (u * T)) + 11 / 10 * (u * T)) by ring. lra. }
    assert (NN : forall j, (j <= i)%nat -> fisnan (nth j s fnan) = false) by (intros j Hj; destruct (Hs j Hj) as (q & Vq & _); now rewrite val_nan, Vq).
    induction k as [|k IH]; intros Hk; unfold cumsum; rewrite nth_cumsum; try lia; try (intros j Hj; apply NN; lia).
    - apply (Step 0%nat _ 0 Hk); [now apply (val_small 0)|]. cbn [rsum INR]. replace (0 - 0) with 0 by ring. rewrite Rabs_R0. lra.
    - destruct (IH ltac:(lia)) as (A & VA & EA). exact (Step (S k) _ A Hk VA EA). }
  exact (G i (Nat.le_refl _)).
Qed.

Lemma pow980 : IZR (2 ^ 980) = bpow radix2 980. Proof. reflexivity. Qed.
Lemma rows_small : forall i, (1000 * Z.of_nat (S i) <= 2 ^ 53)%Z -> INR (S i) * u <= / 1000.
Proof.
  intros i H. apply IZR_le in H. rewrite mult_IZR, <- INR_IZR_INZ in H. change (IZR (2 ^ 53)) with 9007199254740992 in H. unfold u. pose proof (pos_INR (S i)). lra.
Qed.

(** ** on-balance volume *)
Theorem obv_row : forall rows c v, (forall i b, nth_error rows i = Some b -> val (b_close b) = Fin (c i) /\ val (b_volume b) = Fin (v i) /\ 0 <= v i) ->
  forall fl out i x, compute Obv fl rows = Ok out -> nth_error out i = Some x -> (1000 * Z.of_nat (S i) <= 2 ^ 53)%Z ->
  let T := rsum v 0 (S i) in / IZR (2 ^ 900) <= T <= IZR (2 ^ 980) ->
  within (part (INR (S i) / 7) T) x (Fin (rsum (signed_volume c v) 0 (S i))).
Proof.
  intros rows c v Hc fl out i x E Nx Ni T HT. rewrite pow900, pow980 in HT. cbn [compute] in E. unfold on_balance_volume in E. apply ok_inj in E. subst out.
  set (s := map3 _ _ _ _) in *. set (cl := map b_close rows) in *. set (vo := map b_volume rows) in *.
  assert (Lc : length cl = length rows) by apply map_length. assert (Lv : length vo = length rows) by apply map_length.
  assert (Ls : length s = length rows) by (unfold s; rewrite length_map3, len_shift; lia).
  assert (Hi : (i < length rows)%nat). { rewrite <- Ls, <- (len_cumsum s (fofZ 0)), <- (check_length fl 0). apply nth_error_Some. unfold cumsum in Nx. now rewrite Nx. }
  assert (Cell : forall j, (j < length rows)%nat -> val (nth j cl fnan) = Fin (c j) /\ val (nth j vo fnan) = Fin (v j) /\ 0 <= v j).
  { intros j Hj. destruct (nth_error rows j) as [b|] eqn:Eb; [|apply nth_error_None in Eb; lia]. unfold cl, vo.
    rewrite (nth_error_nth _ _ fnan (map_nth_error b_close _ _ Eb)), (nth_error_nth _ _ fnan (map_nth_error b_volume _ _ Eb)). exact (Hc j b Eb). }
  assert (Sv : forall j, (j < length rows)%nat -> Rabs (signed_volume c v j) = v j).
  { intros j Hj. destruct (Cell j Hj) as (_ & _ & P). unfold signed_volume. destruct j; [now apply Rabs_pos_eq|]. destruct Rlt_dec; rewrite ?Rabs_Ropp; now apply Rabs_pos_eq. }
  destruct (total_row s (signed_volume c v) (fun _ => 0) T i) as (q & Vq & Eq); try lra; try lia; auto.
  - destruct HT as [_ HT]. eapply Rle_trans; [exact HT|]. apply bpow_le. lia.
  - now apply rows_small.
  - intros j. lra.
  - intros j Hj. exists (signed_volume c v j). split; [|replace (_ - _) with 0 by ring; rewrite Rabs_R0; lra].
    unfold s. rewrite (nth_map3_lt _ _ _ _ _ _ fnan fnan fnan) by (rewrite ?len_shift; lia). destruct (Cell j ltac:(lia)) as (V1 & V2 & _). rewrite val_ltb, V1. destruct j as [|j].
    + assert (Q : val (nth 0 (shift 1 cl) fnan) = NaN). { unfold shift, shift_fill. cbn [Z.leb Z.compare]. destruct cl eqn:Et; [cbn in Lc; lia|]. cbn. exact val_fnan. }
      rewrite Q. exact V2.
    + rewrite nth_shift1 by lia. replace (S j - 1)%nat with j by lia. destruct (Cell j ltac:(lia)) as (V3 & _). rewrite V3. cbn [xltb signed_volume]. destruct Rlt_dec; [rewrite val_opp, V2; reflexivity|exact V2].
  - rewrite (rsum_ext _ v) by (intros j Hj; rewrite Sv by lia; ring). fold T. pose proof (bpow_gt_0 radix2 (-900)). lra.
  - rewrite (rsum_ext (fun _ => 0) (fun _ => 0 * 0)), rsum_scal, Rmult_0_l in Eq by (intros; ring). exists q. rewrite <- (nth_error_nth _ _ fnan Nx).
    rewrite (kept_row fl 0 _ i q); auto; [|lia|unfold cumsum; rewrite len_cumsum; lia]. split; [exact Vq|]. eapply Rle_trans; [exact Eq|]. rewrite part_u.
    assert (0 <= INR (S i) * (u * T)). { apply Rmult_le_pos; [apply pos_INR|]. apply Rmult_le_pos; [unfold u; lra|]. pose proof (bpow_gt_0 radix2 (-900)). lra. }
    replace (INR (S i) / 7 * (8 * (u * T))) with (8 / 7 * (INR (S i) * (u * T))) by field. lra.
Qed.

(** ** the accumulation/distribution index *)
Theorem adi_row : forall rows h l c v M V, closes rows c M -> ranges rows h l M -> volumes rows v V -> (forall i, (i < length rows)%nat -> 0 <= v i) ->
  M <= IZR (2 ^ 990) -> (forall i, (i < length rows)%nat -> l i <= c i <= h i /\ (h i = l i \/ / IZR (2 ^ 900) <= h i - l i)) ->
  forall fl out i x, compute Adi fl rows = Ok out -> nth_error out i = Some x -> (1000 * Z.of_nat (S i) <= 2 ^ 53)%Z ->
  let T := rsum v 0 (S i) in / IZR (2 ^ 900) <= T <= IZR (2 ^ 980) ->
  within (part (INR (S i) / 7 + 2) T) x (Fin (rsum (fun j => location h l c j * v j) 0 (S i))).
Proof.
  intros rows h l c v M V Hc Hr Hv Pv HM Hs fl out i x E Nx Ni T HT. rewrite pow900, pow980 in HT. cbn [compute] in E. unfold acc_dist_index in E. apply ok_inj in E. subst out.
  set (loc := clv _ _ _) in *. assert (Ll : length loc = length rows) by exact (len_loc rows). set (vo := map b_volume rows) in *. assert (Lv : length vo = length rows) by apply map_length.
  set (s := smul loc vo) in *. assert (Ls : length s = length rows) by (unfold s, smul; rewrite len_map2; lia).
  assert (Hi : (i < length rows)%nat). { rewrite <- Ls, <- (len_cumsum s (fofZ 0)), <- (check_length fl 0). apply nth_error_Some. unfold cumsum in Nx. now rewrite Nx. }
  pose proof u_small as [U0 U1]. pose proof (bpow_gt_0 radix2 (-900)) as T0. assert (UT : 0 < u * T) by (apply Rmult_lt_0_compat; lra). pose proof (rows_small i Ni) as Nu.
  assert (NT : INR (S i) * (u * T) <= T / 1000) by (rewrite <- Rmult_assoc; apply Rle_trans with (/ 1000 * T); [apply Rmult_le_compat_r; lra|lra]).
  assert (vT : forall j, (j <= i)%nat -> v j <= T).
  { intros j Hj. apply rsum_member; [lia|]. intros k Hk. apply Pv. lia. }
  set (e := fun j => 89 / 10 * (u * Rabs (v j)) + / 1000 * (u * T)).
  assert (Se : rsum e 0 (S i) = 89 / 10 * (u * T) + / 1000 * (INR (S i) * (u * T))).
  { unfold e. rewrite rsum_plus, rsum_const. rewrite (rsum_ext _ (fun j => 89 / 10 * u * v j)) by (intros j Hj; rewrite Rabs_pos_eq by (apply Pv; lia); ring). rewrite rsum_scal. fold T. ring. }
  destruct (total_row s (fun j => location h l c j * v j) e T i) as (q & Vq & Eq); try lra; try lia; auto.
  - destruct HT as [_ HT]. eapply Rle_trans; [exact HT|]. apply bpow_le. lia.
  - intros j. unfold e. pose proof (Rmult_le_pos u (Rabs (v j)) ltac:(lra) (Rabs_pos _)). lra.
  - intros j Hj. destruct (loc_cell rows h l c v M V Hc Hr Hv Pv HM Hs j ltac:(lia)) as [B (p & Vp & Ep)]. fold loc in Vp. pose proof (Pv j ltac:(lia)) as v0. pose proof (vT j Hj) as v1.
    assert (Vv : val (nth j vo fnan) = Fin (v j)).
    { destruct (nth_error rows j) as [b|] eqn:Eb; [|apply nth_error_None in Eb; lia]. unfold vo. rewrite (nth_error_nth _ _ fnan (map_nth_error b_volume _ _ Eb)). apply (Hv j b Eb). }
    assert (Bp : Rabs p <= 101 / 100) by (apply abs_le_both in B, Ep; apply Rabs_le; lra).
    assert (Bv : Rabs (p * v j) <= 101 / 100 * v j) by (rewrite Rabs_mult, (Rabs_pos_eq (v j)) by lra; apply Rmult_le_compat_r; auto).
    pose proof (rnd_K T ltac:(lra) _ _ Bv) as R. exists (rnd (p * v j)). split.
    + unfold s, smul. rewrite (nth_map2_lt fmul _ _ _ fnan fnan fnan) by lia. rewrite val_mul, Vp, Vv. cbn [xmul]. apply rx_small. eapply Rle_trans; [exact Bv|].
      apply Rle_trans with (bpow radix2 1 * bpow radix2 980); [change (bpow radix2 1) with 2; lra|rewrite <- bpow_plus; apply bpow_le; lia].
    + replace (rnd (p * v j) - location h l c j * v j) with ((rnd (p * v j) - p * v j) + (p - location h l c j) * v j) by ring. eapply Rle_trans; [apply Rabs_triang|].
      assert (D : Rabs ((p - location h l c j) * v j) <= 78 / 10 * (u * v j)).
      { rewrite Rabs_mult, (Rabs_pos_eq (v j)) by lra. replace (78 / 10 * (u * v j)) with (78 / 10 * (u * 1) * v j) by ring. apply Rmult_le_compat_r; auto. }
      unfold e. rewrite (Rabs_pos_eq (v j)) by lra. replace (u * (101 / 100 * v j)) with (101 / 100 * (u * v j)) in R by ring. assert (0 <= u * v j) by (apply Rmult_le_pos; lra). lra.
  - rewrite rsum_plus, Se. assert (rsum (fun j => Rabs (location h l c j * v j)) 0 (S i) <= T); [|assert (u * T <= T / 1000000) by (unfold Rdiv; rewrite Rmult_comm; apply Rmult_le_compat_l; lra); lra].
    unfold T. apply rsum_le. intros j Hj. destruct (loc_cell rows h l c v M V Hc Hr Hv Pv HM Hs j ltac:(lia)) as [B _]. pose proof (Pv j ltac:(lia)). rewrite Rabs_mult, (Rabs_pos_eq (v j)) by lra.
    rewrite <- (Rmult_1_l (v j)) at 2. apply Rmult_le_compat_r; auto.
  - exists q. rewrite <- (nth_error_nth _ _ fnan Nx). rewrite (kept_row fl 0 _ i q); auto; [|lia|unfold cumsum; rewrite len_cumsum; lia]. split; [exact Vq|]. eapply Rle_trans; [exact Eq|]. rewrite part_u, Se.
    pose proof (pos_INR (S i)) as I0. assert (0 <= INR (S i) * (u * T)) by (apply Rmult_le_pos; lra).
    replace ((INR (S i) / 7 + 2) * (8 * (u * T))) with (8 / 7 * (INR (S i) * (u * T)) + 16 * (u * T)) by field. lra.
Qed.
