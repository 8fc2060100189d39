(** * RunningError: how far pandas' running sums and means stray in binary64. *)
From Flocq Require Import Core PrimFloat.
From Coq Require Import Reals Lra Floats.
From Verif Require Import Lists Arith FloatArith FloatReal Order FloatOrder Api Align Causal Rows Running FloatPct EmaError FloatEma FloatTrack SpecNum Tab Averages RoundedBands SpecTracking Tracking.
Local Open Scope R_scope.
#[local] Arguments eta : simpl never.
#[local] Arguments u : simpl never.

(** ** one compensated addition *)
Section Step.
Variables (K s a x : R).
Hypothesis K1 : bpow radix2 (-900) <= K.
Hypothesis K2 : 2 * K <= bpow radix2 1020.
Hypothesis Hs : Rabs s <= 12 / 10 * K.
Hypothesis Hsx : Rabs (s + x) <= 12 / 10 * K.
Hypothesis Hx : Rabs x <= K.
Hypothesis Ha : Rabs a <= 3 * (u * K).
Lemma K_pos : 0 < K. Proof. pose proof (bpow_gt_0 radix2 (-900)). lra. Qed.
Lemma etaK : eta <= u * K / 1000. Proof. apply etaM. exact K1. Qed.
Lemma uK_small : 0 < u * K <= K / 1000000.
Proof. pose proof K_pos. unfold u. lra. Qed.
Lemma rnd_K : forall r X, Rabs r <= X -> Rabs (rnd r - r) <= u * X + u * K / 1000.
Proof.
  intros r X H. pose proof (rnd_err r) as E. pose proof etaK. assert (0 < u) by (unfold u; lra).
  assert (u * Rabs r <= u * X) by (apply Rmult_le_compat_l; lra). lra.
Qed.
Lemma rx_K : forall r, Rabs r <= 2 * K -> rx (Fin r) = Fin (rnd r).
Proof. intros r H. apply rx_small. lra. Qed.
Let y := rnd (x - a).
Let t := rnd (s + y).
Let c := rnd (rnd (t - s) - y).
Lemma step_y : Rabs (y - x) <= 42 / 10 * (u * K) /\ Rabs (y - (x - a)) <= 11 / 10 * (u * K) /\ Rabs (x - a) <= 2 * K /\ Rabs (s + y) <= 13 / 10 * K /\ Rabs y <= 11 / 10 * K.
Proof.
  pose proof K_pos as P. pose proof uK_small as [U1 U2]. apply abs_le_both in Ha, Hx, Hsx.
  assert (B : Rabs (x - a) <= 101 / 100 * K) by (apply Rabs_le; lra).
  pose proof (rnd_K _ _ B) as E. fold y in E. replace (u * (101 / 100 * K)) with (101 / 100 * (u * K)) in E by ring.
  apply abs_le_both in E, B. repeat split; apply Rabs_le; lra.
Qed.
Lemma step_t : Rabs (t - (s + y)) <= 14 / 10 * (u * K) /\ Rabs (t - (s + x)) <= 6 * (u * K) /\ Rabs (t - s) <= 12 / 10 * K.
Proof.
  pose proof K_pos as P. pose proof uK_small as [U1 U2]. destruct step_y as (Y1 & Y2 & Y3 & Y4 & Y5).
  pose proof (rnd_K _ _ Y4) as E. fold t in E. replace (u * (13 / 10 * K)) with (13 / 10 * (u * K)) in E by ring.
  apply abs_le_both in Y1, Y2, Y3, Y4, Y5, E. repeat split; apply Rabs_le; lra.
Qed.
Lemma step_c : Rabs (rnd (t - s) - y) <= K /\ Rabs c <= 3 * (u * K).
Proof.
  pose proof K_pos as P. pose proof uK_small as [U1 U2]. destruct step_t as (T1 & _ & T3).
  pose proof (rnd_K _ _ T3) as E. replace (u * (12 / 10 * K)) with (12 / 10 * (u * K)) in E by ring.
  assert (B : Rabs (rnd (t - s) - y) <= 265 / 100 * (u * K)).
  { apply abs_le_both in T1, E. apply Rabs_le. lra. }
  pose proof (rnd_K _ _ B) as G. fold c in G.
  assert (u * (265 / 100 * (u * K)) <= u * K / 1000) by (unfold u in *; nra).
  apply abs_le_both in B, G. split; apply Rabs_le; lra.
Qed.
End Step.

(** ** the state of the sum against the exact sum of the window *)
Definition holds (e : R) (d : R) (st : ksum) (S : R) : Prop :=
  exists s a r, val (k_sum st) = Fin s /\ val (k_add st) = Fin a /\ val (k_rem st) = Fin r /\ Rabs (s - S) <= e /\ Rabs a <= d /\ Rabs r <= d.
Lemma holds_mono : forall e e' d d' st S, e <= e' -> d <= d' -> holds e d st S -> holds e' d' st S.
Proof. intros e e' d d' st S He Hd (s & a & r & V1 & V2 & V3 & B1 & B2 & B3). exists s, a, r. repeat split; auto; lra. Qed.
Section Put.
Variables (K : R).
Hypothesis K1 : bpow radix2 (-900) <= K.
Hypothesis K2 : 2 * K <= bpow radix2 1020.
Lemma compensated : forall fs fx fa s x a, val fs = Fin s -> val fx = Fin x -> val fa = Fin a ->
  Rabs s <= 12 / 10 * K -> Rabs (s + x) <= 12 / 10 * K -> Rabs x <= K -> Rabs a <= 3 * (u * K) ->
  let y := fsub fx fa in let t := fadd fs y in
  exists t' c', val t = Fin t' /\ val (fsub (fsub t fs) y) = Fin c' /\ Rabs (t' - (s + x)) <= 6 * (u * K) /\ Rabs c' <= 3 * (u * K).
Proof.
  intros fs fx fa s x a Vs Vx Va Hs Hsx Hx Ha y t. pose proof (K_pos K K1) as P.
  destruct (step_y K s a x K1 Hsx Hx Ha) as (_ & _ & Y3 & Y4 & _). destruct (step_t K s a x K1 Hsx Hx Ha) as (_ & T2 & T3).
  destruct (step_c K s a x K1 Hsx Hx Ha) as (C1 & C2).
  assert (Vy : val y = Fin (rnd (x - a))).
  { unfold y. rewrite val_sub, Vx, Va. cbn [xsub xadd xopp]. apply (rx_K K K2). exact Y3. }
  assert (Vt : val t = Fin (rnd (s + rnd (x - a)))).
  { unfold t. rewrite val_add, Vs, Vy. cbn [xadd]. apply (rx_K K K2). lra. }
  do 2 eexists. split; [exact Vt|]. split; [|split; [exact T2|exact C2]].
  rewrite !val_sub, Vt, Vs, Vy. cbn [xsub xadd xopp]. fold (rnd (s + rnd (x - a)) - s). rewrite (rx_K K K2) by lra. cbn [xsub xadd xopp].
  rewrite (rx_K K K2); [reflexivity|]. unfold Rminus in *. lra.
Qed.
Lemma holds_put : forall e st S fx x, val fx = Fin x -> Rabs x <= K -> Rabs S <= K -> Rabs (S + x) <= K -> 0 <= e <= K / 10 ->
  holds e (3 * (u * K)) st S -> holds (e + 6 * (u * K)) (3 * (u * K)) (sum_put fx st) (S + x).
Proof.
  intros e st S fx x Vx Hx HS HSx He (s & a & r & V1 & V2 & V3 & B1 & B2 & B3). unfold sum_put.
  rewrite val_nan, Vx. apply abs_le_both in B1, HS, HSx.
  destruct (compensated (k_sum st) fx (k_add st) s x a) as (t' & c' & Vt & Vc & B & C); auto; try (apply Rabs_le; lra).
  exists t', c', r. cbn [k_sum k_add k_rem]. repeat split; auto. apply abs_le_both in B. apply Rabs_le. lra.
Qed.
Lemma holds_take : forall e st S fx x, val fx = Fin x -> Rabs x <= K -> Rabs S <= K -> Rabs (S - x) <= K -> 0 <= e <= K / 10 ->
  holds e (3 * (u * K)) st S -> holds (e + 6 * (u * K)) (3 * (u * K)) (sum_take fx st) (S - x).
Proof.
  intros e st S fx x Vx Hx HS HSx He (s & a & r & V1 & V2 & V3 & B1 & B2 & B3). unfold sum_take.
  rewrite val_nan, Vx. apply abs_le_both in B1, HS, HSx.
  destruct (compensated (k_sum st) (fopp fx) (k_rem st) s (- x) r) as (t' & c' & Vt & Vc & B & C); auto; try (apply Rabs_le; lra).
  - rewrite val_opp, Vx. reflexivity.
  - now rewrite Rabs_Ropp.
  - exists t', a, c'. cbn [k_sum k_add k_rem]. repeat split; auto. apply abs_le_both in B. apply Rabs_le. lra.
Qed.
End Put.
Lemma rsum_abs : forall M f a n, (forall i, (a <= i < a + n)%nat -> Rabs (f i) <= M) -> Rabs (rsum f a n) <= INR n * M.
Proof.
  intros M f a n H. induction n; [cbn; rewrite Rabs_R0; lra|]. rewrite S_INR. cbn [rsum].
  eapply Rle_trans; [apply Rabs_triang|]. pose proof (H (a + n)%nat ltac:(lia)). specialize (IHn ltac:(intros; apply H; lia)). lra.
Qed.
Lemma rsum_first : forall f a n, rsum f a (S n) = f a + rsum f (S a) n.
Proof. intros f a. induction n; [cbn; rewrite Nat.add_0_r; lra|]. cbn [rsum] in *. rewrite IHn. replace (S a + n)%nat with (a + S n)%nat by lia. lra. Qed.
Lemma keep_all : forall {B} (g : B -> bool) q, (forall x, In x q -> g x = true) -> filter g q = q.
Proof. induction q; intros H; [reflexivity|]. cbn [filter]. rewrite (H a) by now left. f_equal. apply IHq. intros. apply H. now right. Qed.
Section Run.
Variables (w : nat) (p : list float) (c : nat -> R) (M : R).
Hypothesis Hw : (1 <= w)%nat.
Hypothesis Ww : (Z.of_nat w <= 2 ^ 28)%Z.
Hypothesis Hn : (1000 * Z.of_nat (length p) <= 2 ^ 53)%Z.
Hypothesis HM : ordinary M.
Hypothesis Hc : forall i, (i < length p)%nat -> val (nth i p fnan) = Fin (c i) /\ Rabs (c i) <= M.
Let kap (k : nat) : R := INR (Nat.min w k).
Lemma kap_big : forall k, (1 <= k)%nat -> 1 <= kap k /\ bpow radix2 (-900) <= kap k * M /\ 2 * (kap k * M) <= bpow radix2 1020.
Proof.
  intros k Hk. destruct HM as [A B]. rewrite pow900 in A. rewrite pow990 in B. pose proof (bpow_gt_0 radix2 (-900)) as P.
  assert (1 <= kap k) by (apply (le_INR 1); lia). assert (kap k <= IZR (2 ^ 28)) by (unfold kap; rewrite INR_IZR_INZ; apply IZR_le; lia).
  split; auto. split; [nra|]. apply Rle_trans with (2 * (IZR (2 ^ 28) * bpow radix2 990)); [nra|].
  change (IZR (2 ^ 28)) with (bpow radix2 28). change 2 with (bpow radix2 1) at 1. rewrite <- !bpow_plus. apply bpow_le. lia.
Qed.
Lemma rows_small : forall k, (k <= length p)%nat -> 12 * INR k * u <= 2 / 100.
Proof.
  intros k Hk. assert (1000 * INR k <= IZR (2 ^ 53)). { rewrite INR_IZR_INZ, <- mult_IZR. apply IZR_le. lia. }
  change (IZR (2 ^ 53)) with 9007199254740992 in *. unfold u. lra.
Qed.
Lemma run_holds : forall i, (i < length p)%nat ->
  holds (12 * INR (S i) * (u * (kap (S i) * M))) (3 * (u * (kap (S i) * M))) (nth i (run sum_put sum_take sum_start w p) sum_start) (wsum w c i).
Proof.
  intros i Hi. assert (MP : 0 < M). { destruct (big_bounds M HM). lra. } assert (UP : 0 < u) by (unfold u; lra).
  apply (run_nth _ sum_put sum_take sum_start _ p (fun k st => holds (12 * INR k * (u * (kap k * M))) (3 * (u * (kap k * M))) st (rsum c (k - w) (Nat.min w k)))); auto.
  - apply len_shift.
  - unfold kap. rewrite Nat.min_0_r. exists 0, 0, 0. cbn [k_sum k_add k_rem sum_start rsum INR]. rewrite (val_small 0) by lia.
    repeat split; rewrite ?Rminus_0_r, ?Rabs_R0; lra.
  - intros k st Hk H. destruct (kap_big (S k) ltac:(lia)) as (K0 & K1 & K2). set (K := kap (S k) * M) in *. rewrite nth_gone by auto.
    destruct (Hc k Hk) as [Vk Bk]. pose proof (rows_small (S k) ltac:(lia)) as RS. rewrite S_INR in *. pose proof (pos_INR k) as Pk.
    assert (MK : M <= K) by (unfold K; nra). assert (KP : 0 < K) by lra. assert (UK : 0 < u * K) by nra.
    assert (KM : kap k * M <= K). { unfold K. apply Rmult_le_compat_r; [lra|]. apply le_INR. lia. }
    assert (Sb : forall a n, (n <= Nat.min w (S k))%nat -> (a + n <= length p)%nat -> Rabs (rsum c a n) <= K).
    { intros a n Hn1 Hn2. eapply Rle_trans; [apply (rsum_abs M)|].
      - intros j Hj. apply Hc. lia.
      - unfold K. apply Rmult_le_compat_r; [lra|]. now apply le_INR. }
    assert (H' : holds (12 * INR k * (u * K)) (3 * (u * K)) st (rsum c (k - w) (Nat.min w k))).
    { eapply holds_mono; [| |exact H].
      - apply Rmult_le_compat_l; [lra|]. apply Rmult_le_compat_l; lra.
      - apply Rmult_le_compat_l; [lra|]. apply Rmult_le_compat_l; lra. }
    assert (E1 : 12 * INR k * (u * K) + 12 * (u * K) <= K / 10) by nra. assert (E0 : 0 <= 12 * INR k * (u * K)) by nra.
    destruct (Nat.ltb_spec k w) as [L|L].
    + change (sum_take fnan st) with st. replace (S k - w)%nat with 0%nat by lia. replace (k - w)%nat with 0%nat in H' by lia.
      replace (Nat.min w (S k)) with (S k) by lia. replace (Nat.min w k) with k in H' by lia. cbn [rsum Nat.add].
      pose proof (Sb 0%nat k ltac:(lia) ltac:(lia)). pose proof (Sb 0%nat (S k) ltac:(lia) ltac:(lia)).
      eapply holds_mono; [| |apply (holds_put K K1 K2 (12 * INR k * (u * K)) st (rsum c 0 k) _ (c k) Vk); auto]; try lra.
    + destruct (Hc (k - w)%nat ltac:(lia)) as [Vg Bg]. replace (Nat.min w (S k)) with w by lia. replace (Nat.min w k) with w in H' by lia.
      destruct w as [|v] eqn:Ew; [lia|]. rewrite <- Ew in *. replace (S k - w)%nat with (S (k - w)) by lia.
      assert (Es : rsum c (k - w) (S v) - c (k - w)%nat = rsum c (S (k - w)) v) by (rewrite rsum_first; ring).
      assert (T : holds (12 * INR k * (u * K) + 6 * (u * K)) (3 * (u * K)) (sum_take (nth (k - w) p fnan) st) (rsum c (S (k - w)) v)).
      { rewrite <- Es. apply (holds_take K K1 K2 _ _ _ _ _ Vg); try lra; try (rewrite Es; apply Sb; lia); try (apply Sb; lia). rewrite <- Ew. exact H'. }
      rewrite Ew at 3. cbn [rsum]. replace (S (k - w) + v)%nat with k by lia.
      assert (Q : rsum c (S (k - w)) v + c k = rsum c (S (k - w)) (S v)) by (cbn [rsum]; do 2 f_equal; lia).
      pose proof (Sb (S (k - w)) v ltac:(lia) ltac:(lia)). pose proof (Sb (S (k - w)) (S v) ltac:(lia) ltac:(lia)). rewrite <- Q in *.
      eapply holds_mono; [| |apply (holds_put K K1 K2 (12 * INR k * (u * K) + 6 * (u * K)) _ (rsum c (S (k - w)) v) _ (c k) Vk); auto]; try lra.
Qed.

Lemma window_nth : forall i x, (i < length p)%nat -> In x (window_at w i p) -> exists j, (wlo w i <= j <= i)%nat /\ x = nth j p fnan.
Proof.
  intros i x Hi H. unfold window_at in H. apply (In_nth _ _ fnan) in H as (j & Hj & E). rewrite skipn_length, firstn_length in Hj.
  exists (wlo w i + j)%nat. split; [unfold wlo; lia|]. rewrite <- E, nth_skipn', nth_firstn_lt by (unfold wlo in *; lia). reflexivity.
Qed.
Lemma window_all : forall i, (i < length p)%nat -> obs (window_at w i p) = window_at w i p /\ length (window_at w i p) = wlen w i.
Proof.
  intros i Hi. split.
  - apply keep_all. intros x H. destruct (window_nth i x Hi H) as (j & Hj & ->). destruct (Hc j ltac:(lia)) as [V _]. now rewrite val_nan, V.
  - unfold window_at, wlen. rewrite skipn_length, firstn_length. lia.
Qed.
Lemma window_signs : forall i, (i < length p)%nat ->
  (length (filter signbit (window_at w i p)) = 0%nat -> 0 <= wsum w c i) /\
  (length (filter signbit (window_at w i p)) = length (window_at w i p) -> wsum w c i <= 0).
Proof.
  intros i Hi. assert (J : forall j, (wlo w i <= j < wlo w i + wlen w i)%nat -> In (nth j p fnan) (window_at w i p)).
  { intros j Hj. unfold wlo, wlen in Hj. unfold window_at. replace j with (S i - w + (j - (S i - w)))%nat by lia.
    rewrite <- (nth_firstn_lt p (S i)) by lia. rewrite <- nth_skipn'. apply nth_In. rewrite skipn_length, firstn_length. lia. }
  assert (Z0 : val (fofZ 0) = Fin 0) by (apply val_small; lia).
  split; intros E.
  - apply rsum_nonneg. intros j Hj. specialize (J j Hj). destruct (Hc j ltac:(unfold wlo, wlen in Hj; lia)) as [V _].
    destruct (signbit (nth j p fnan)) eqn:Sg.
    + exfalso. apply length_zero_iff_nil in E. assert (In (nth j p fnan) (filter signbit (window_at w i p))) by now apply filter_In. rewrite E in H. exact H.
    + unfold signbit in Sg. apply orb_false_iff in Sg as [Sg _]. rewrite val_ltb, V, Z0 in Sg. cbn [xltb] in Sg. destruct (Rlt_dec _ _); [discriminate|lra].
  - assert (Q : 0 <= rsum (fun j => - c j) (wlo w i) (wlen w i)).
    { apply rsum_nonneg. intros j Hj. specialize (J j Hj). destruct (Hc j ltac:(unfold wlo, wlen in Hj; lia)) as [V _].
      assert (Sg : signbit (nth j p fnan) = true).
      { revert E J. clear. generalize (nth j p fnan). intros x. generalize (window_at w i p). intros q E.
        assert (L : forall q : list float, (length (filter signbit q) <= length q)%nat) by (induction q0; cbn [filter length]; [lia|]; destruct (signbit a); cbn [length]; lia).
        induction q as [|y q IH]; intros J; [destruct J|]. cbn [filter length] in E. pose proof (L q). destruct (signbit y) eqn:Sy; cbn [length] in E; [|lia].
        destruct J as [->|J]; auto. }
      unfold signbit in Sg. rewrite val_ltb, val_eqb, V, Z0 in Sg. cbn [xltb xeqb] in Sg. destruct (Rlt_dec _ _); [lra|]. cbn [orb] in Sg.
      destruct (Req_EM_T _ _); [lra|discriminate]. }
    rewrite (rsum_ext _ (fun j => -1 * c j)) in Q by (intros; ring). rewrite rsum_scal in Q. unfold wsum. lra.
Qed.
Lemma mean_row_near : forall m i, (i < length p)%nat -> (m <= w)%nat ->
  near (part (2 * INR (S i)) M) (calc_row agg_mean w m i p) (if (wlen w i <? m)%nat then NaN else Fin (wmean w c i)).
Proof.
  intros m i Hi Hm. destruct (window_all i Hi) as [Ob Le]. destruct (window_signs i Hi) as [Sp Sn]. cbn [calc_row]. unfold calc_mean. rewrite Ob, Le.
  destruct (Nat.ltb_spec (wlen w i) m) as [L|L]; [exact val_fnan|]. assert (W0 : (1 <= wlen w i)%nat) by (unfold wlen; lia).
  rewrite (proj2 (Nat.eqb_neq (wlen w i) 0)) by lia. cbn [orb]. cbv zeta.
  destruct (run_holds i Hi) as (s & a & r & V & _ & _ & B & _ & _). destruct (kap_big (S i) ltac:(lia)) as (K0 & K1 & K2).
  pose proof (rows_small (S i) ltac:(lia)) as RS. set (st := nth i _ _) in *. clearbody st.
  assert (MP : 0 < M). { destruct (big_bounds M HM). lra. } assert (UP : 0 < u) by (unfold u; lra).
  assert (Ek : kap (S i) = INR (wlen w i)) by reflexivity. rewrite Ek in *. set (q := INR (wlen w i)) in *.
  assert (Vq : val (fofnat (wlen w i)) = Fin q).
  { unfold fofnat. rewrite val_small by (unfold wlen; lia). unfold q. now rewrite INR_IZR_INZ. }
  assert (Wb : Rabs (wsum w c i) <= q * M). { apply rsum_abs. intros j Hj. apply Hc. unfold wlo, wlen in Hj. lia. }
  assert (D1 : Rabs (s / q - wmean w c i) <= 12 * INR (S i) * (u * M)).
  { unfold wmean. fold q. replace (s / q - wsum w c i / q) with ((s - wsum w c i) / q) by (field; lra). unfold Rdiv.
    rewrite Rabs_mult, (Rabs_pos_eq (/ q)) by (left; apply Rinv_0_lt_compat; lra). apply Rmult_le_reg_r with q; [lra|].
    rewrite Rmult_assoc, Rinv_l by lra. lra. }
  assert (Mb : Rabs (wmean w c i) <= M).
  { unfold wmean. fold q. unfold Rdiv. rewrite Rabs_mult, (Rabs_pos_eq (/ q)) by (left; apply Rinv_0_lt_compat; lra). apply Rmult_le_reg_r with q; [lra|].
    rewrite Rmult_assoc, Rinv_l by lra. lra. }
  assert (M1 : bpow radix2 (-900) <= M) by (destruct (big_bounds M HM) as (_ & ? & _); lra).
  assert (S1 : 1 <= INR (S i)) by (rewrite S_INR; pose proof (pos_INR i); lra).
  assert (Db : Rabs (s / q) <= 11 / 10 * M).
  { apply abs_le_both in D1, Mb. assert (12 * INR (S i) * (u * M) <= 2 / 100 * M) by nra. apply Rabs_le. lra. }
  assert (Vd : val (fdiv (k_sum st) (fofnat (wlen w i))) = Fin (rnd (s / q))).
  { rewrite val_div; rewrite Vq; [|intros Q; injection Q; lra]. rewrite V. cbn [xdiv]. destruct Req_EM_T; [lra|]. apply rx_small.
    destruct (big_bounds M HM) as (_ & _ & _ & ? & _). lra. }
  assert (Err : Rabs (rnd (s / q) - wmean w c i) <= part (2 * INR (S i)) M).
  { pose proof (rnd_K M M1 _ _ Db) as E. replace (u * (11 / 10 * M)) with (11 / 10 * (u * M)) in E by ring. apply abs_le_both in E, D1.
    assert (P16 : part (2 * INR (S i)) M = 16 * INR (S i) * (u * M)) by (unfold part, u; change (IZR (2 ^ 50)) with 1125899906842624; lra).
    rewrite P16. assert (0 < u * M) by nra. apply Rabs_le. split; nra. }
  assert (Z0 : val (fofZ 0) = Fin 0) by (apply val_small; lia).
  assert (Q0 : 0 < / q) by (apply Rinv_0_lt_compat; lra).
  destruct ((length (filter signbit (window_at w i p)) =? 0)%nat && _) eqn:C1.
  { apply andb_prop in C1 as [C1 C2]. apply Nat.eqb_eq in C1. specialize (Sp C1). rewrite val_ltb, Vd, Z0 in C2. cbn [xltb] in C2. destruct (Rlt_dec _ _) as [Lt|]; [|discriminate].
    exists 0. split; auto. assert (0 <= wmean w c i) by (unfold wmean; fold q; unfold Rdiv; nra). apply abs_le_both in Err. apply Rabs_le. lra. }
  destruct ((length (filter signbit (window_at w i p)) =? wlen w i)%nat && _) eqn:C3; [|eexists; split; [exact Vd|exact Err]].
  apply andb_prop in C3 as [C3 C2]. apply Nat.eqb_eq in C3. rewrite <- Le in C3. specialize (Sn C3). rewrite val_ltb, Vd, Z0 in C2. cbn [xltb] in C2. destruct (Rlt_dec _ _) as [Lt|]; [|discriminate].
  exists 0. split; auto. assert (wmean w c i <= 0) by (unfold wmean; fold q; unfold Rdiv; nra). apply abs_le_both in Err. apply Rabs_le. lra.
Qed.
Lemma prep_self : prep p = p.
Proof.
  unfold prep. rewrite <- (map_id p) at 2. apply map_ext_in. intros x H. apply (In_nth _ _ fnan) in H as (j & Hj & <-).
  destruct (Hc j Hj) as [V _]. now rewrite val_inf, V.
Qed.
Lemma mean_near : forall fl, exists r, rolling (Z.of_nat w) (minp_of fl (Z.of_nat w)) agg_mean p = Ok r /\ length r = length p /\
  forall i, (i < length p)%nat -> near (part (2 * INR (S i)) M) (nth i r fnan) (from (warm fl w) (wmean w c) i).
Proof.
  intros fl. assert (Hm : (0 <= minp_of fl (Z.of_nat w) <= Z.of_nat w)%Z) by (destruct fl; cbn; lia).
  eexists. split; [apply rolling_ok; exact Hm|]. pose proof (rolling_ok (Z.of_nat w) (minp_of fl (Z.of_nat w)) agg_mean p Hm) as R. split; [exact (len_rolling _ _ _ _ _ R)|].
  intros i Hi. rewrite (nth_rolling_row _ _ _ _ _ _ fnan R) by auto. rewrite prep_self, Nat2Z.id.
  pose proof (mean_row_near (Z.to_nat (minp_of fl (Z.of_nat w))) i Hi ltac:(destruct fl; cbn; lia)) as N.
  unfold from, fromx. destruct fl; cbn [warm minp_of] in *; [exact N|]. rewrite Nat2Z.id in *.
  destruct (Nat.ltb_spec (wlen w i) w), (Nat.ltb_spec i (w - 1)); unfold wlen in *; try lia; exact N.
Qed.
End Run.

(** ** published averages *)
Lemma drifts_near : forall k M n (out : list float) g, length out = n ->
  (forall i, (i < n)%nat -> near (part (k * INR (S i)) M) (nth i out fnan) (g i)) -> drifts k M n out g.
Proof.
  intros k M n out g L H. split; auto. intros i x E. assert (Hi : (i < length out)%nat) by (apply nth_error_Some; congruence).
  specialize (H i ltac:(lia)). rewrite (nth_error_nth _ _ fnan E) in H. unfold near, within in *. destruct (g i); auto.
  change (fisnan x = true). now rewrite val_nan, H.
Qed.
Lemma kept : forall fl z k (out : list float) e g, (forall i, (i < length out)%nat -> near (e i) (nth i out fnan) (from (warm fl k) g i)) ->
  check_fillna fl (FillInt z) out = out.
Proof.
  intros [|] z k out e g H; [|reflexivity]. apply check_fin. apply Forall_forall. intros x I. apply (In_nth _ _ fnan) in I as (j & Hj & <-).
  destruct (H j Hj) as (q & V & _). unfold fin, ffinite. now rewrite val_nan, val_inf, V.
Qed.
Lemma closes_nth : forall rows c M i, closes rows c M -> (i < length (map b_close rows))%nat -> val (nth i (map b_close rows) fnan) = Fin (c i) /\ Rabs (c i) <= M.
Proof.
  intros rows c M i H Hi. rewrite map_length in Hi. destruct (nth_error rows i) as [b|] eqn:E; [|apply nth_error_None in E; lia].
  rewrite (nth_error_nth _ _ fnan (map_nth_error b_close _ _ E)). exact (H i b E).
Qed.
Section Published.
Variables (w : nat) (rows : list (bar float)) (M : R).
Hypothesis Hw : (1 <= w)%nat.
Hypothesis Ww : (Z.of_nat w <= 2 ^ 28)%Z.
Hypothesis Hn : (1000 * Z.of_nat (length rows) <= 2 ^ 53)%Z.
Hypothesis HM : ordinary M.
Theorem sma_drifts : forall fl c, closes rows c M ->
  exists out, compute (Sma (Z.of_nat w)) fl rows = Ok out /\ drifts 2 M (length rows) out (from (warm fl w) (wmean w c)).
Proof.
  intros fl c Hc. destruct (mean_near w (map b_close rows) c M Hw Ww) with (fl := fl) as (r & R & L & N); auto.
  - now rewrite map_length.
  - intros i Hi. now apply closes_nth.
  - rewrite map_length in *. exists r. split; [exact R|]. now apply drifts_near.
Qed.
Theorem bb_middle_drifts : forall fl c d, closes rows c M ->
  exists out, compute (BbM (Z.of_nat w) d) fl rows = Ok out /\ drifts 2 M (length rows) out (from (warm fl w) (wmean w c)).
Proof.
  intros fl c d Hc. destruct (mean_near w (map b_close rows) c M Hw Ww) with (fl := fl) as (r & R & L & N); auto.
  - now rewrite map_length.
  - intros i Hi. now apply closes_nth.
  - rewrite map_length in *. exists r. split; [|now apply drifts_near]. cbn [compute]. unfold bollinger_mavg, bollinger_run. rewrite R.
    assert (Hm : (0 <= minp_of fl (Z.of_nat w) <= Z.of_nat w)%Z) by (destruct fl; cbn; lia). rewrite (rolling_ok _ _ agg_std0) by exact Hm.
    cbn [bind bb_mavg]. f_equal. eapply kept. intros i Hi. apply N. now rewrite <- L.
Qed.
End Published.

Lemma wmean_close : forall w f g i D, (1 <= w)%nat -> (forall j, (j <= i)%nat -> Rabs (f j - g j) <= D) -> Rabs (wmean w f i - wmean w g i) <= D.
Proof.
  intros w f g i D Hw H. assert (Q : 0 < INR (wlen w i)) by (apply lt_0_INR; unfold wlen; lia). unfold wmean.
  replace (wsum w f i / INR (wlen w i) - wsum w g i / INR (wlen w i)) with ((wsum w f i - wsum w g i) / INR (wlen w i)) by (field; lra).
  unfold Rdiv. rewrite Rabs_mult, (Rabs_pos_eq (/ INR _)) by (left; now apply Rinv_0_lt_compat). apply Rmult_le_reg_r with (INR (wlen w i)); [lra|].
  rewrite Rmult_assoc, Rinv_l, Rmult_1_r by lra. unfold wsum. rewrite Rmult_comm.
  replace (rsum f (wlo w i) (wlen w i) - rsum g (wlo w i) (wlen w i)) with (rsum (fun j => f j - g j) (wlo w i) (wlen w i)).
  - apply rsum_abs. intros j Hj. apply H. unfold wlo, wlen in Hj. lia.
  - clear Q H. induction (wlen w i); cbn [rsum]; lra.
Qed.
Lemma half_val : val (@fhalf float FloatA) = Fin (/ 2).
Proof.
  unfold fhalf. rewrite val_div; rewrite !val_small by lia; [|intros E; injection E; lra]. cbn [xdiv]. destruct Req_EM_T; [lra|].
  replace (1 / 2) with (IZR 1 / 2) by lra. rewrite rx_small; [|rewrite Rabs_pos_eq by lra; apply Rle_trans with (bpow radix2 0); [cbn; lra|apply bpow_le; lia]].
  rewrite rnd_id; [f_equal; lra|]. apply repr_half. lia.
Qed.
Section Median.
Variables (rows : list (bar float)) (h l : nat -> R) (M : R).
Hypothesis Hr : ranges rows h l M.
Hypothesis HM : ordinary M.
Let md : list float := scal fhalf (sadd (map b_high rows) (map b_low rows)).
Lemma len_md : length md = length rows.
Proof. unfold md, scal, sadd. rewrite map_length, len_map2; now rewrite !map_length. Qed.
Lemma median_near : forall i, (i < length md)%nat -> exists q, val (nth i md fnan) = Fin q /\ Rabs q <= 101 / 100 * M /\ Rabs (q - (h i + l i) / 2) <= 22 / 10 * (u * M).
Proof.
  intros i Hi. rewrite len_md in Hi. destruct (nth_error rows i) as [b|] eqn:E; [|apply nth_error_None in E; lia].
  destruct (Hr i b E) as [[V1 B1] [V2 B2]]. destruct (big_bounds M HM) as (P & M1 & M8 & _).
  assert (Em : nth i md fnan = (fhalf **. (b_high b +. b_low b))%F).
  { unfold md. rewrite (nth_error_nth _ _ fnan (x := (fhalf **. (b_high b +. b_low b))%F)); auto. unfold scal, sadd.
    rewrite nth_error_map. clear Hi V1 B1 V2 B2. revert i E. clear. induction rows as [|a r IH]; intros [|i] E; cbn in *; try discriminate.
    - now injection E as ->.
    - now apply IH. }
  rewrite Em. apply abs_le_both in B1, B2. assert (U : 0 < u * M <= M / 1000000) by (unfold u; lra).
  assert (B : Rabs (h i + l i) <= 2 * M) by (apply Rabs_le; lra).
  assert (Big : bpow radix2 1000 <= bpow radix2 1020) by (apply bpow_le; lia).
  pose proof (rnd_K M M1 _ _ B) as E1. apply abs_le_both in E1, B.
  assert (V3 : val (b_high b +. b_low b)%F = Fin (rnd (h i + l i))).
  { rewrite val_add, V1, V2. cbn [xadd]. apply rx_small. apply Rle_trans with (2 * M); [apply Rabs_le; lra|lra]. }
  set (s := rnd (h i + l i)) in *. assert (B3 : Rabs (/ 2 * s) <= 1001 / 1000 * M) by (apply Rabs_le; lra).
  assert (V4 : val (fhalf **. (b_high b +. b_low b))%F = Fin (rnd (/ 2 * s))).
  { rewrite val_mul, half_val, V3. cbn [xmul]. apply rx_small. lra. }
  exists (rnd (/ 2 * s)). split; [exact V4|].
  pose proof (rnd_K M M1 _ _ B3) as E2. apply abs_le_both in E2, B3. split; apply Rabs_le; lra.
Qed.
Lemma median_vals : exists c, (forall i, (i < length md)%nat -> val (nth i md fnan) = Fin (c i) /\ Rabs (c i) <= 101 / 100 * M) /\
  forall i, (i < length md)%nat -> Rabs (c i - (h i + l i) / 2) <= 22 / 10 * (u * M).
Proof.
  exists (fun i => match val (nth i md fnan) with Fin q => q | _ => 0 end).
  split; intros i Hi; destruct (median_near i Hi) as (q & V & B & E); rewrite V; auto.
Qed.
Lemma mean_median : forall w fl, (1 <= w)%nat -> (Z.of_nat w <= 2 ^ 28)%Z -> (1000 * Z.of_nat (length rows) <= 2 ^ 53)%Z -> 101 / 100 * M <= IZR (2 ^ 990) ->
  exists r, rolling (Z.of_nat w) (minp_of fl (Z.of_nat w)) agg_mean md = Ok r /\ length r = length rows /\
  forall i, (i < length rows)%nat -> near (part (19 / 8 * INR (S i)) M) (nth i r fnan) (from (warm fl w) (wmean w (fun i => (h i + l i) / 2)) i).
Proof.
  intros w fl Hw Ww Hn B. destruct median_vals as (c & Hc & Dc). destruct (big_bounds M HM) as (P & M1 & M8 & _). rewrite <- len_md in *.
  destruct (mean_near w md c (101 / 100 * M) Hw Ww Hn) with (fl := fl) as (r & R & L & N); auto.
  { split; [destruct HM; lra|exact B]. }
  exists r. split; [exact R|]. split; [exact L|]. intros i Hi. specialize (N i Hi). unfold from, fromx in *. destruct (i <? warm fl w)%nat; [exact N|].
  destruct N as (q & V & E). exists q. split; auto. pose proof (wmean_close w c (fun i => (h i + l i) / 2) i (22 / 10 * (u * M)) Hw ltac:(intros; apply Dc; lia)) as D.
  assert (P1 : part (2 * INR (S i)) (101 / 100 * M) = 1616 / 100 * INR (S i) * (u * M)) by (unfold part, u; change (IZR (2 ^ 50)) with 1125899906842624; lra).
  assert (P2 : part (19 / 8 * INR (S i)) M = 19 * INR (S i) * (u * M)) by (unfold part, u; change (IZR (2 ^ 50)) with 1125899906842624; lra).
  rewrite P1 in E. rewrite P2. assert (S1 : 1 <= INR (S i)) by (rewrite S_INR; pose proof (pos_INR i); lra). assert (0 < u * M) by (unfold u; lra).
  apply abs_le_both in D, E. apply Rabs_le. split; nra.
Qed.
Lemma wmean_size : forall w i, (i < length rows)%nat -> (1 <= w)%nat -> Rabs (wmean w (fun i => (h i + l i) / 2) i) <= M.
Proof.
  intros w i Hi Hw. apply Rle_trans with (Rabs (wmean w (fun i => (h i + l i) / 2) i - wmean w (fun _ => 0) i)).
  - replace (wmean w (fun _ => 0) i) with 0; [right; f_equal; ring|]. unfold wmean, wsum. rewrite rsum_const. unfold Rdiv. ring.
  - apply wmean_close; auto. intros j Hj. destruct (nth_error rows j) as [b|] eqn:E; [|apply nth_error_None in E; lia].
    destruct (Hr j b E) as [[_ B1] [_ B2]]. apply abs_le_both in B1, B2. apply Rabs_le. lra.
Qed.
Theorem ao_drifts : forall w1 w2 fl, (1 <= w1)%nat -> (1 <= w2)%nat -> (Z.of_nat w1 <= 2 ^ 28)%Z -> (Z.of_nat w2 <= 2 ^ 28)%Z ->
  (1000 * Z.of_nat (length rows) <= 2 ^ 53)%Z -> ordinary (2 * M) ->
  let m := fun i => (h i + l i) / 2 in
  exists out, compute (AwesomeOsc (Z.of_nat w1) (Z.of_nat w2)) fl rows = Ok out /\
    drifts 6 M (length rows) out (from (warm fl (Nat.max w1 w2)) (fun i => wmean w1 m i - wmean w2 m i)).
Proof.
  intros w1 w2 fl H1 H2 W1 W2 Hn B2 m. assert (B : 101 / 100 * M <= IZR (2 ^ 990)) by (destruct (big_bounds M HM), B2; lra). destruct (mean_median w1 fl H1 W1 Hn B) as (r1 & R1 & L1 & N1). destruct (mean_median w2 fl H2 W2 Hn B) as (r2 & R2 & L2 & N2).
  destruct (big_bounds M HM) as (P & M1 & M8 & _). exists (ssub r1 r2).
  assert (N : forall i, (i < length rows)%nat -> near (part (6 * INR (S i)) M) (nth i (ssub r1 r2) fnan) (from (warm fl (Nat.max w1 w2)) (fun i => wmean w1 m i - wmean w2 m i) i)).
  { intros i Hi. specialize (N1 i Hi). specialize (N2 i Hi). unfold ssub. rewrite (nth_map2 fsub r1 r2 i fnan fnan fnan) by lia.
    unfold from, fromx in *. assert (Nn : forall x y : float, val x = NaN \/ val y = NaN -> val (fsub x y) = NaN).
    { intros x y [E|E]; rewrite val_sub, E; [reflexivity|]. destruct (val x); reflexivity. }
    assert (Ew : (i <? warm fl (Nat.max w1 w2))%nat = (i <? warm fl w1)%nat || (i <? warm fl w2)%nat).
    { destruct fl; cbn [warm]; [reflexivity|]. destruct (Nat.ltb_spec i (Nat.max w1 w2 - 1)), (Nat.ltb_spec i (w1 - 1)), (Nat.ltb_spec i (w2 - 1)); try reflexivity; lia. }
    rewrite Ew. destruct (i <? warm fl w1)%nat; [cbn [orb]; apply Nn; now left|]. destruct (i <? warm fl w2)%nat; [cbn [orb]; apply Nn; now right|]. cbn [orb].
    destruct N1 as (q1 & V1 & E1). destruct N2 as (q2 & V2 & E2).
    pose proof (wmean_size w1 i Hi H1) as S1. pose proof (wmean_size w2 i Hi H2) as S2. fold m in S1, S2, E1, E2.
    set (x1 := wmean w1 m i) in *. set (x2 := wmean w2 m i) in *.
    assert (Pp : forall k, part (k * INR (S i)) M = 8 * k * INR (S i) * (u * M)) by (intros; unfold part, u; change (IZR (2 ^ 50)) with 1125899906842624; lra).
    rewrite Pp in *. assert (I1 : 1 <= INR (S i)) by (rewrite S_INR; pose proof (pos_INR i); lra). assert (UM : 0 < u * M) by (unfold u; lra).
    assert (Sm : 19 * INR (S i) * (u * M) <= 4 / 100 * M).
    { assert (1000 * INR (S i) <= IZR (2 ^ 53)). { rewrite INR_IZR_INZ, <- mult_IZR. apply IZR_le. lia. }
      change (IZR (2 ^ 53)) with 9007199254740992 in *. unfold u. nra. }
    apply abs_le_both in E1, E2, S1, S2.
    assert (Bq : Rabs (q1 - q2) <= 21 / 10 * M) by (apply Rabs_le; lra).
    assert (Vd : val (fsub (nth i r1 fnan) (nth i r2 fnan)) = Fin (rnd (q1 - q2))).
    { rewrite val_sub, V1, V2. cbn [xsub xadd xopp]. apply rx_small. apply Rle_trans with (21 / 10 * M); [exact Bq|].
      assert (bpow radix2 1000 <= bpow radix2 1020) by (apply bpow_le; lia). lra. }
    exists (rnd (q1 - q2)). split; [exact Vd|]. pose proof (rnd_K M M1 _ _ Bq) as E3. apply abs_le_both in E3. apply Rabs_le. split; nra. }
  assert (L : length (ssub r1 r2) = length rows) by (unfold ssub; rewrite len_map2; lia).
  split; [|now apply drifts_near]. cbn [compute]. unfold awesome_oscillator. fold md. rewrite R1. cbn [bind]. rewrite R2. cbn [bind]. f_equal.
  eapply kept. intros i Hi. apply N. now rewrite <- L.
Qed.
End Median.
