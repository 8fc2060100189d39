(** * PpoError: the percentage price (volume) oscillator in binary64 (C103). *)
From Flocq Require Import Core PrimFloat.
From Coq Require Import Reals Lra Floats.
From Verif Require Import Lists Arith FloatArith FloatReal Order FloatOrder Api Align FloatPct EmaError FloatEma FloatTrack SpecNum Tab Averages Stuck SpecTracking SpecRatio Tracking RunningError WilderError BandError RsiError RatioError.
Local Open Scope R_scope.
#[local] Arguments eta : simpl never.
#[local] Arguments u : simpl never.

Lemma late_from : forall n k g M, (forall i, (k <= i < n)%nat -> Rabs (g i) <= M) -> late M (tab n (from k g)).
Proof.
  intros n k g M H. unfold tab. assert (A : forall len a, (a + len = n)%nat -> late M (map (from k g) (seq a len))); [|apply A; lia].
  induction len as [|len IH]; intros a Ha; cbn [seq map]; [apply late_fin; constructor|]. destruct (Nat.ltb_spec a k) as [B|B].
  - assert (E : from k g a = NaN) by (unfold from, fromx; now rewrite (proj2 (Nat.ltb_lt a k) B)). rewrite E. apply late_nan, IH. lia.
  - apply late_fin. apply Forall_forall. intros y I. change (In y (map (from k g) (seq a (S len)))) in I. apply in_map_iff in I as (i & <- & I). apply in_seq in I.
    exists (g i). unfold from, fromx. rewrite (proj2 (Nat.ltb_ge i k)) by lia. split; [reflexivity|]. apply H. lia.
Qed.
Section Col.
Variables (x : list float) (c : nat -> R) (m M : R) (s f g : nat) (fl : bool).
Hypothesis Hx : forall i, (i < length x)%nat -> val (nth i x fnan) = Fin (c i) /\ m <= c i <= M.
Hypothesis m0 : 0 < m.
Hypothesis HM : ordinary M.
Hypothesis S1 : (1 <= s)%nat.
Hypothesis F1 : (1 <= f)%nat.
Hypothesis G1 : (1 <= g)%nat.
Hypothesis S2 : (100 * Z.of_nat s <= 2 ^ 53)%Z.
Hypothesis F2 : (100 * Z.of_nat f <= 2 ^ 53)%Z.
Hypothesis G2 : (100 * Z.of_nat g <= 2 ^ 53)%Z.
Hypothesis Hm : part (INR s + 1) M <= m / 2.
Let n := length x.
Let K := M / m.
Let k := warm fl (Nat.max f s).
Let line := fun i => (ema f c 0 i - ema s c 0 i) / ema s c 0 i * 100.
Lemma col_near : Forall2 (near 0) x (tab n (from 0 c)) /\ late M (tab n (from 0 c)).
Proof.
  split.
  - apply within_tab; auto. intros i Hi. destruct (Hx i Hi) as [V B]. cbn. exists (c i). split; auto. replace (c i - c i) with 0 by ring. rewrite Rabs_R0. lra.
  - apply late_fin. apply Forall_forall. intros y I. apply in_map_iff in I as (i & <- & I). apply in_seq in I. destruct (Hx i ltac:(fold n; lia)) as [_ B]. exists (c i). split; [reflexivity|].
    apply Rabs_le. lra.
Qed.
Lemma one_ema : forall w, (1 <= w)%nat -> (100 * Z.of_nat w <= 2 ^ 53)%Z ->
  exists y, ema_ x (Z.of_nat w) fl = Ok y /\ length y = n /\ forall i, (i < n)%nat -> near (part (INR w + 1) M) (nth i y fnan) (from (warm fl w) (ema w c 0) i).
Proof.
  intros w W1 W2. destruct col_near as [N L]. destruct (big_bounds M HM) as (P1 & P2 & P3 & P4 & _).
  destruct (near_ema 0 M (Z.of_nat w) fl x _ ltac:(lia) W2 ltac:(lra) ltac:(lra) N L) as (y & y' & E1 & E2 & E3 & _).
  rewrite ema_tab in E2 by auto. cbn [Nat.add] in E2. apply ok_inj in E2. subst y'. exists y. split; [exact E1|]. apply near_nth.
  eapply near_mono2; [|exact E3]. rewrite !Rplus_0_r, ebound_part, <- INR_IZR_INZ. lra.
Qed.
Lemma ema_in : forall w i, (1 <= w)%nat -> (i < n)%nat -> m <= ema w c 0 i <= M.
Proof. intros w i W1 Hi. apply ema_bounds; auto. intros t Ht. apply Hx. fold n. lia. Qed.
Definition line_error : R := part (200 * (INR f + INR s + 3 + K * (INR s + 1))) K.
Lemma wsmall : forall w, (1 <= w)%nat -> (100 * Z.of_nat w <= 2 ^ 53)%Z -> 1 <= INR w <= 90071992547410.
Proof. intros w W1 W2. split; [apply (le_INR 1); lia|]. rewrite INR_IZR_INZ. apply IZR_le. lia. Qed.
Lemma K_facts : (0 < n)%nat -> 1 <= K /\ K * m = M /\ K * (INR s + 1) * (8 * u) <= / 2 /\ K <= 1125899906842624.
Proof.
  intros Hn. destruct (Hx 0%nat Hn) as [_ B]. assert (E : K * m = M) by (unfold K; field; lra). assert (1 <= K) by (apply Rmult_le_reg_r with m; lra).
  pose proof (wsmall s S1 S2) as W. rewrite part_u in Hm. assert (Q : K * (INR s + 1) * (8 * u) <= / 2).
  { apply Rmult_le_reg_r with m; auto. replace (K * (INR s + 1) * (8 * u) * m) with ((INR s + 1) * (8 * (u * (K * m)))) by ring. rewrite E. lra. }
  repeat split; auto. assert (K * 1 <= K * (INR s + 1)) by (apply Rmult_le_compat_l; lra). unfold u in Q. lra.
Qed.
Lemma line_small : (0 < n)%nat -> line_error <= 150 * K.
Proof.
  intros Hn. destruct (K_facts Hn) as (K1 & Km & Ks & Kb). pose proof (wsmall f F1 F2) as Wf. pose proof (wsmall s S1 S2) as Ws.
  assert (U0 : 0 < u) by (unfold u; lra). set (uK := u * K) in *. assert (uK0 : 0 < uK) by (unfold uK; apply Rmult_lt_0_compat; lra).
  assert (Ks2 : K * (INR s + 1) * (8 * uK) <= K / 2).
  { unfold uK. replace (K * (INR s + 1) * (8 * (u * K))) with (K * (INR s + 1) * (8 * u) * K) by ring. apply Rle_trans with (/ 2 * K); [apply Rmult_le_compat_r; lra|lra]. }
  assert (Kf : (INR f + INR s + 3) * (8 * uK) <= 2 / 10 * K).
  { apply Rle_trans with (200000000000000 * (8 * uK)); [apply Rmult_le_compat_r; lra|]. unfold uK, u in *. lra. }
  assert (LE : line_error = 200 * (INR f + INR s + 3) * (8 * uK) + 200 * (K * (INR s + 1) * (8 * uK))) by (unfold line_error; rewrite part_u; fold uK; ring).
  lra.
Qed.
Lemma line_cell : forall i a b, (i < n)%nat -> near (part (INR f + 1) M) a (Fin (ema f c 0 i)) -> near (part (INR s + 1) M) b (Fin (ema s c 0 i)) ->
  near line_error (fmul (fdiv (fsub a b) b) (fofZ 100)) (Fin (line i)) /\ Rabs (line i) <= 100 * K.
Proof.
  intros i a b Hi (A & Va & Ea) (B & Vb & Eb). destruct (K_facts ltac:(lia)) as (K1 & Km & Ks & Kb). destruct (big_bounds M HM) as (P1 & P2 & P3 & P4 & P5).
  pose proof (ema_in f i F1 Hi) as Bf. pose proof (ema_in s i S1 Hi) as Bs. pose proof (wsmall f F1 F2) as Wf. pose proof (wsmall s S1 S2) as Ws.
  unfold line. set (Fe := ema f c 0 i) in *. set (Se := ema s c 0 i) in *.
  assert (U0 : 0 < u) by (unfold u; lra). assert (US : u * 1000000000 < 1) by (unfold u; lra).
  set (uM := u * M). assert (uM0 : 0 < uM) by (apply Rmult_lt_0_compat; lra). assert (uMS : uM <= M / 1000000) by (unfold uM, u; lra).
  set (ef := part (INR f + 1) M) in *. set (es := part (INR s + 1) M) in *.
  assert (Hef : 0 < ef <= M / 10). { unfold ef. rewrite part_u. split; [repeat apply Rmult_lt_0_compat; lra|]. fold uM. assert ((INR f + 1) * (8 * uM) <= 90071992547411 * (8 * uM)) by (apply Rmult_le_compat_r; lra). unfold uM, u in *. lra. }
  assert (Hes : 0 < es <= M / 10). { unfold es. rewrite part_u. split; [repeat apply Rmult_lt_0_compat; lra|]. fold uM. assert ((INR s + 1) * (8 * uM) <= 90071992547411 * (8 * uM)) by (apply Rmult_le_compat_r; lra). unfold uM, u in *. lra. }
  apply abs_le_both in Ea, Eb.
  (* the numerator *)
  assert (Sd : Rabs (A - B) <= 12 / 10 * M) by (apply Rabs_le; lra).
  set (P := rnd (A - B)). pose proof (rnd_err (A - B)) as EP. fold P in EP.
  assert (VP : val (fsub a b) = Fin P) by (apply val_diff; auto; lra).
  assert (EP2 : Rabs (P - (A - B)) <= 13 / 10 * uM). { assert (u * Rabs (A - B) <= u * (12 / 10 * M)) by (apply Rmult_le_compat_l; lra). unfold uM in *. lra. }
  apply abs_le_both in EP2. assert (Num : Rabs (P - (Fe - Se)) <= ef + es + 13 / 10 * uM) by (apply Rabs_le; lra).
  (* the quotient *)
  assert (B2 : m / 2 <= B) by lra. set (X := (Fe - Se) / Se) in *.
  assert (X1 : Rabs X <= K).
  { unfold X, Rdiv. rewrite Rabs_mult, (Rabs_inv Se), (Rabs_pos_eq Se) by lra. apply div_bound; [lra|]. assert (K * m <= K * Se) by (apply Rmult_le_compat_l; lra). apply Rabs_le. lra. }
  set (e1 := 2 * (ef + es + 13 / 10 * uM + K * es) / m).
  assert (EQ : Rabs (P / B - X) <= e1).
  { replace (P / B - X) with ((P - (Fe - Se) + X * (Se - B)) / B) by (unfold X; field; lra). unfold Rdiv at 1. rewrite Rabs_mult, Rabs_inv, (Rabs_pos_eq B) by lra.
    apply div_bound; [lra|]. assert (Q : Rabs (P - (Fe - Se) + X * (Se - B)) <= ef + es + 13 / 10 * uM + K * es).
    { eapply Rle_trans; [apply Rabs_triang|]. rewrite Rabs_mult. assert (Rabs X * Rabs (Se - B) <= K * es); [|lra].
      apply Rmult_le_compat; try apply Rabs_pos; auto. apply Rabs_le. lra. }
    eapply Rle_trans; [exact Q|]. set (q := ef + es + 13 / 10 * uM + K * es) in *. unfold e1. replace (2 * q / m * B) with (q * (2 * B / m)) by (field; lra).
    assert (1 <= 2 * B / m). { apply Rmult_le_reg_r with m; auto. unfold Rdiv. rewrite Rmult_assoc, Rinv_l by lra. lra. }
    assert (0 <= q) by (pose proof (Rabs_pos (P - (Fe - Se) + X * (Se - B))); lra). assert (q * 1 <= q * (2 * B / m)) by (apply Rmult_le_compat_l; lra). lra. }
  assert (Ee : e1 = 2 * (INR f + INR s + 2 + 13 / 80 + K * (INR s + 1)) * (8 * (u * K))).
  { unfold e1, ef, es, uM. rewrite !part_u. rewrite <- Km. field. lra. }
  set (uK := u * K) in *. assert (uK0 : 0 < uK <= K / 1000000) by (unfold uK; split; [apply Rmult_lt_0_compat; lra|unfold u; lra]).
  assert (Ks2 : K * (INR s + 1) * (8 * uK) <= K / 2).
  { unfold uK. replace (K * (INR s + 1) * (8 * (u * K))) with (K * (INR s + 1) * (8 * u) * K) by ring. apply Rle_trans with (/ 2 * K); [apply Rmult_le_compat_r; lra|lra]. }
  assert (Kf : (INR f + INR s + 3) * (8 * uK) <= 2 / 10 * K).
  { apply Rle_trans with (200000000000000 * (8 * uK)); [apply Rmult_le_compat_r; lra|]. unfold uK, u in *. lra. }
  assert (Kp : 0 <= K * (INR s + 1) * (8 * uK)) by (apply Rmult_le_pos; [apply Rmult_le_pos; lra|lra]).
  assert (Kp2 : 5 * (8 * uK) <= (INR f + INR s + 3) * (8 * uK)) by (apply Rmult_le_compat_r; lra).
  assert (LE : line_error = 200 * (INR f + INR s + 3) * (8 * uK) + 200 * (K * (INR s + 1) * (8 * uK))) by (unfold line_error; rewrite part_u; fold uK; ring).
  assert (E1 : e1 = 2 * ((INR f + INR s + 3) * (8 * uK)) - 67 / 5 * uK + 2 * (K * (INR s + 1) * (8 * uK))) by (rewrite Ee; lra).
  assert (SQ : Rabs (P / B) <= 3 * K). { replace (P / B) with ((P / B - X) + X) by ring. eapply Rle_trans; [apply Rabs_triang|]. lra. }
  assert (Big : 1000 * K <= bpow radix2 1020). { apply Rle_trans with (bpow radix2 64); [cbn; lra|apply bpow_le; lia]. }
  set (Q := rnd (P / B)). pose proof (rnd_err (P / B)) as R1. fold Q in R1. assert (u * Rabs (P / B) <= u * (3 * K)) by (apply Rmult_le_compat_l; lra).
  assert (EtaK : eta <= uK / 1000). { pose proof eta_u. unfold uK. assert (u * 1 <= u * K) by (apply Rmult_le_compat_l; lra). lra. }
  assert (VQ : val (fdiv (fsub a b) b) = Fin Q).
  { rewrite val_div, VP, Vb by (rewrite Vb; intros Z; injection Z; lra). cbn [xdiv]. destruct Req_EM_T; [lra|]. apply rx_small. lra. }
  assert (R1' : Rabs (Q - P / B) <= 31 / 10 * uK) by (unfold uK in *; lra).
  assert (SQ2 : Rabs Q <= 31 / 10 * K). { replace Q with ((Q - P / B) + P / B) by ring. eapply Rle_trans; [apply Rabs_triang|]. lra. }
  pose proof (rnd_err (Q * 100)) as R2. rewrite (Rabs_mult Q), (Rabs_pos_eq 100) in R2 by lra. assert (u * (Rabs Q * 100) <= u * (310 * K)) by (apply Rmult_le_compat_l; lra).
  split.
  - cbn [near]. exists (rnd (Q * 100)). split; [rewrite val_mul, VQ, (val_small 100) by lia; cbn [xmul]; apply rx_small; rewrite Rabs_mult, (Rabs_pos_eq 100) by lra; lra|].
    replace (rnd (Q * 100) - X * 100) with ((rnd (Q * 100) - Q * 100) + (100 * (Q - P / B) + 100 * (P / B - X))) by ring.
    eapply Rle_trans; [apply Rabs_triang|]. assert (Rabs (100 * (Q - P / B) + 100 * (P / B - X)) <= 100 * Rabs (Q - P / B) + 100 * Rabs (P / B - X)).
    { eapply Rle_trans; [apply Rabs_triang|]. rewrite !Rabs_mult, (Rabs_pos_eq 100) by lra. lra. }
    replace (u * (310 * K)) with (310 * uK) in * by (unfold uK; ring). lra.
  - rewrite Rabs_mult, (Rabs_pos_eq 100) by lra. lra.
Qed.

Let L := line_error.
Definition signal_error : R := L + part (250 * (INR g + 1)) K.
Definition hist_error : R := 2 * L + part (250 * (INR g + 1) + 80) K.
Lemma nth_line : forall i y z, length y = n -> length z = n -> (i < n)%nat ->
  nth i (muls (sdiv (ssub y z) z) (fofZ 100)) fnan = fmul (fdiv (fsub (nth i y fnan) (nth i z fnan)) (nth i z fnan)) (fofZ 100).
Proof.
  intros i y z Ly Lz Hi. assert (L1 : length (ssub y z) = n) by (unfold ssub; rewrite len_map2; lia). assert (L2 : length (sdiv (ssub y z) z) = n) by (unfold sdiv; rewrite len_map2; lia).
  unfold muls. rewrite (nth_map_lt _ _ _ _ fnan) by lia. unfold sdiv. rewrite (nth_map2_lt _ _ _ _ _ fnan fnan) by lia.
  unfold ssub. rewrite (nth_map2_lt _ _ _ _ _ fnan fnan) by lia. reflexivity.
Qed.
Lemma run_near : (0 < n)%nat -> exists p q d, ppo_run x (Z.of_nat s) (Z.of_nat f) (Z.of_nat g) fl = Ok (p, q, d) /\
  Forall2 (near L) p (tab n (from k line)) /\
  Forall2 (near signal_error) q (tab n (from (k + warm fl g) (ema g line k))) /\
  Forall2 (near hist_error) d (tab n (from (k + warm fl g) (fun i => line i - ema g line k i))).
Proof.
  intros Hn. destruct (one_ema f F1 F2) as (a & E1 & L1 & N1). destruct (one_ema s S1 S2) as (b & E2 & L2 & N2).
  unfold ppo_run. rewrite E1, E2. cbn [bind]. set (p := muls (sdiv (ssub a b) b) (fofZ 100)).
  assert (Lp : length p = n) by (unfold p, muls, sdiv, ssub; rewrite map_length, !len_map2; rewrite ?len_map2; lia).
  assert (Np : Forall2 (near L) p (tab n (from k line))).
  { apply within_tab; auto. intros i Hi. unfold p. rewrite nth_line by auto. specialize (N1 i Hi). specialize (N2 i Hi). unfold from, fromx in *.
    destruct (Nat.ltb_spec i k) as [B|B].
    - assert (Z : val (nth i a fnan) = NaN \/ val (nth i b fnan) = NaN).
      { unfold k, warm in B. destruct fl; [lia|]. destruct (Nat.max_spec f s) as [[_ Q]|[_ Q]]; rewrite Q in B.
        - right. revert N2. unfold warm. rewrite (proj2 (Nat.ltb_lt i (s - 1)) B). auto.
        - left. revert N1. unfold warm. rewrite (proj2 (Nat.ltb_lt i (f - 1)) B). auto. }
      cbn [near]. assert (Q : forall v : float, fisnan v = true <-> val v = NaN) by (intros v; rewrite val_nan; destruct (val v); split; easy).
      apply Q. apply mul_nan_l. rewrite <- !Q in Z. destruct Z as [Z|Z]; [apply div_nan_l, sub_nan_l, Z|apply div_nan_r, Z].
    - rewrite (proj2 (Nat.ltb_ge i (warm fl f))) in N1 by (unfold k, warm in *; destruct fl; lia). rewrite (proj2 (Nat.ltb_ge i (warm fl s))) in N2 by (unfold k, warm in *; destruct fl; lia).
      apply (line_cell i _ _ Hi N1 N2). }
  destruct (K_facts Hn) as (K1 & Km & Ks & Kb). assert (U0 : 0 < u) by (unfold u; lra). pose proof (wsmall f F1 F2) as Wf. pose proof (wsmall s S1 S2) as Ws. pose proof (wsmall g G1 G2) as Wg.
  assert (Hl : forall i, (k <= i < n)%nat -> Rabs (line i) <= 100 * K).
  { intros i Hi. specialize (N1 i ltac:(lia)). specialize (N2 i ltac:(lia)). unfold from, fromx in *.
    rewrite (proj2 (Nat.ltb_ge i (warm fl f))) in N1 by (unfold k, warm in *; destruct fl; lia). rewrite (proj2 (Nat.ltb_ge i (warm fl s))) in N2 by (unfold k, warm in *; destruct fl; lia).
    apply (line_cell i _ _ ltac:(lia) N1 N2). }
  assert (Ll : late (100 * K) (tab n (from k line))) by (apply late_from, Hl).
  assert (L0 : 0 <= L) by (unfold L, line_error; assert (0 <= K * (INR s + 1)) by (apply Rmult_le_pos; lra); apply part_pos; lra).
  pose proof (line_small Hn) as L9. fold L in L9.
  assert (Big : 10000 * K <= bpow radix2 990) by (apply Rle_trans with (bpow radix2 100); [cbn; lra|apply bpow_le; lia]).
  assert (Sml : bpow radix2 (-900) <= 1) by (change 1 with (bpow radix2 0); apply bpow_le; lia).
  destruct (near_ema L (100 * K) (Z.of_nat g) fl p _ ltac:(lia) G2 ltac:(lra) ltac:(eapply Rle_trans; [|apply (bpow_le radix2 990); lia]; lra) Np Ll) as (q & q' & E3 & E4 & E5 & L5).
  rewrite ema_tab in E4 by auto. apply ok_inj in E4. subst q'. rewrite E3. cbn [bind].
  do 3 eexists. split; [reflexivity|]. split; [exact Np|].
  set (uK := u * K). assert (uK0 : 0 < uK) by (unfold uK; apply Rmult_lt_0_compat; lra).
  assert (Eb : ebound (Z.of_nat g) (100 * K + L) <= part (250 * (INR g + 1)) K).
  { rewrite ebound_part, <- INR_IZR_INZ, !part_u. fold uK. replace (250 * (INR g + 1) * (8 * uK)) with ((INR g + 1) * (8 * (u * (250 * K)))) by (unfold uK; ring).
    apply Rmult_le_compat_l; [lra|]. apply Rmult_le_compat_l; [lra|]. apply Rmult_le_compat_l; lra. }
  assert (Nq : Forall2 (near signal_error) q (tab n (from (k + warm fl g) (ema g line k)))) by (eapply near_mono2; [|exact E5]; unfold signal_error; lra).
  split; [exact Nq|].
  assert (Eg : part (250 * (INR g + 1)) K <= 100 * K).
  { rewrite part_u. fold uK. replace (250 * (INR g + 1) * (8 * uK)) with ((INR g + 1) * (2000 * uK)) by ring. apply Rle_trans with (90071992547411 * (2000 * uK)); [apply Rmult_le_compat_r; lra|]. unfold uK, u. lra. }
  assert (Eg0 : 0 <= part (250 * (INR g + 1)) K) by (apply part_pos; lra).
  pose proof (near_sub L signal_error (100 * K) (100 * K) _ _ Np Ll _ _ Nq L5 ltac:(lra) ltac:(unfold signal_error; lra) ltac:(lra) ltac:(lra) ltac:(unfold signal_error; eapply Rle_trans; [|apply (bpow_le radix2 990); lia]; lra)) as D.
  rewrite ssub_from, Nat.max_r in D by lia. eapply near_mono2; [|exact D]. unfold hist_error, signal_error.
  assert (EtaK : eta <= uK). { pose proof eta_u. unfold uK. assert (u * 1 <= u * K) by (apply Rmult_le_compat_l; lra). lra. }
  assert (u * (100 * K + 100 * K + L + (L + part (250 * (INR g + 1)) K)) <= u * (600 * K)) by (apply Rmult_le_compat_l; lra).
  replace (part (250 * (INR g + 1) + 80) K) with (part (250 * (INR g + 1)) K + 640 * uK) by (rewrite !part_u; fold uK; ring).
  replace (u * (600 * K)) with (600 * uK) in * by (unfold uK; ring). lra.
Qed.
End Col.
Lemma ppo_tracks_gen : forall col fl s f g rows c m M, rows <> [] -> levels col rows c m M -> 0 < m -> ordinary M ->
  (1 <= s)%nat -> (1 <= f)%nat -> (1 <= g)%nat -> (100 * Z.of_nat s <= 2 ^ 53)%Z -> (100 * Z.of_nat f <= 2 ^ 53)%Z -> (100 * Z.of_nat g <= 2 ^ 53)%Z ->
  part (INR s + 1) M <= m / 2 ->
  let k := warm fl (Nat.max f s) in let line := fun i => (ema f c 0 i - ema s c 0 i) / ema s c 0 i * 100 in
  exists p q d, ppo_run (map col rows) (Z.of_nat s) (Z.of_nat f) (Z.of_nat g) fl = Ok (p, q, d) /\
    Forall2 (within (ppo_error (INR f) (INR s) m M)) (check_fillna fl (FillInt 0) p) (tab (length rows) (gaps fl 0 k line)) /\
    Forall2 (within (ppo_signal_error (INR f) (INR s) (INR g) m M)) (check_fillna fl (FillInt 0) q) (tab (length rows) (gaps fl 0 (k + warm fl g) (ema g line k))) /\
    Forall2 (within (ppo_hist_error (INR f) (INR s) (INR g) m M)) (check_fillna fl (FillInt 0) d) (tab (length rows) (gaps fl 0 (k + warm fl g) (fun i => line i - ema g line k i))).
Proof.
  intros col fl s f g rows c m M Hr Hc m0 HM S1 F1 G1 S2 F2 G2 Hm k line.
  assert (Hx : forall i, (i < length (map col rows))%nat -> val (nth i (map col rows) fnan) = Fin (c i) /\ m <= c i <= M).
  { intros i Hi. rewrite map_length in Hi. destruct (nth_error rows i) as [b|] eqn:E; [|apply nth_error_None in E; lia].
    rewrite (nth_error_nth _ _ fnan (map_nth_error col _ _ E)). exact (Hc i b E). }
  assert (Hn : (0 < length (map col rows))%nat) by (destruct rows; [easy|cbn; lia]).
  destruct (run_near (map col rows) c m M s f g fl Hx m0 HM S1 F1 G1 S2 F2 G2 Hm Hn) as (p & q & d & E & N1 & N2 & N3).
  destruct (Hx 0%nat Hn) as [_ B]. assert (K0 : 0 < M / m) by (apply Rdiv_lt_0_compat; lra).
  pose proof (pos_INR f). pose proof (pos_INR s). pose proof (pos_INR g). assert (0 <= M / m * (INR s + 1)) by (apply Rmult_le_pos; lra).
  assert (L0 : 0 <= ppo_error (INR f) (INR s) m M) by (apply part_pos; lra).
  assert (L1 : 0 <= part (250 * (INR g + 1)) (M / m)) by (apply part_pos; lra). assert (L2 : 0 <= part (250 * (INR g + 1) + 80) (M / m)) by (apply part_pos; lra).
  exists p, q, d. split; [exact E|]. rewrite map_length in *. split; [|split].
  all: rewrite <- check_from by (reflexivity || lia); apply near_within, near_fill; [|lia|].
  - exact L0.
  - exact N1.
  - unfold ppo_signal_error. lra.
  - exact N2.
  - unfold ppo_hist_error. lra.
  - exact N3.
Qed.
Theorem ppo_tracks : forall fillna s f g rows c m M, rows <> [] -> levels b_close rows c m M -> 0 < m -> ordinary M ->
  (1 <= s)%nat -> (1 <= f)%nat -> (1 <= g)%nat -> (100 * Z.of_nat s <= 2 ^ 53)%Z -> (100 * Z.of_nat f <= 2 ^ 53)%Z -> (100 * Z.of_nat g <= 2 ^ 53)%Z ->
  part (INR s + 1) M <= m / 2 ->
  let k := warm fillna (Nat.max f s) in let line := fun i => (ema f c 0 i - ema s c 0 i) / ema s c 0 i * 100 in
  exists p q d, compute (Ppo (Z.of_nat s) (Z.of_nat f) (Z.of_nat g)) fillna rows = Ok p /\
    compute (PpoSignal (Z.of_nat s) (Z.of_nat f) (Z.of_nat g)) fillna rows = Ok q /\
    compute (PpoHist (Z.of_nat s) (Z.of_nat f) (Z.of_nat g)) fillna rows = Ok d /\
    Forall2 (within (ppo_error (INR f) (INR s) m M)) p (tab (length rows) (gaps fillna 0 k line)) /\
    Forall2 (within (ppo_signal_error (INR f) (INR s) (INR g) m M)) q (tab (length rows) (gaps fillna 0 (k + warm fillna g) (ema g line k))) /\
    Forall2 (within (ppo_hist_error (INR f) (INR s) (INR g) m M)) d (tab (length rows) (gaps fillna 0 (k + warm fillna g) (fun i => line i - ema g line k i))).
Proof.
  intros fl s f g rows c m M Hr Hc m0 HM S1 F1 G1 S2 F2 G2 Hm k line.
  destruct (ppo_tracks_gen b_close fl s f g rows c m M Hr Hc m0 HM S1 F1 G1 S2 F2 G2 Hm) as (p & q & d & E & N).
  cbn [compute]. unfold ppo, ppo_signal, ppo_hist. rewrite E. cbn [bind]. do 3 eexists. do 3 (split; [reflexivity|]). exact N.
Qed.
Theorem pvo_tracks : forall fillna s f g rows v m M, rows <> [] -> levels b_volume rows v m M -> 0 < m -> ordinary M ->
  (1 <= s)%nat -> (1 <= f)%nat -> (1 <= g)%nat -> (100 * Z.of_nat s <= 2 ^ 53)%Z -> (100 * Z.of_nat f <= 2 ^ 53)%Z -> (100 * Z.of_nat g <= 2 ^ 53)%Z ->
  part (INR s + 1) M <= m / 2 ->
  let k := warm fillna (Nat.max f s) in let line := fun i => (ema f v 0 i - ema s v 0 i) / ema s v 0 i * 100 in
  exists p q d, compute (Pvo (Z.of_nat s) (Z.of_nat f) (Z.of_nat g)) fillna rows = Ok p /\
    compute (PvoSignal (Z.of_nat s) (Z.of_nat f) (Z.of_nat g)) fillna rows = Ok q /\
    compute (PvoHist (Z.of_nat s) (Z.of_nat f) (Z.of_nat g)) fillna rows = Ok d /\
    Forall2 (within (ppo_error (INR f) (INR s) m M)) p (tab (length rows) (gaps fillna 0 k line)) /\
    Forall2 (within (ppo_signal_error (INR f) (INR s) (INR g) m M)) q (tab (length rows) (gaps fillna 0 (k + warm fillna g) (ema g line k))) /\
    Forall2 (within (ppo_hist_error (INR f) (INR s) (INR g) m M)) d (tab (length rows) (gaps fillna 0 (k + warm fillna g) (fun i => line i - ema g line k i))).
Proof.
  intros fl s f g rows v m M Hr Hc m0 HM S1 F1 G1 S2 F2 G2 Hm k line.
  destruct (ppo_tracks_gen b_volume fl s f g rows v m M Hr Hc m0 HM S1 F1 G1 S2 F2 G2 Hm) as (p & q & d & E & N).
  cbn [compute]. unfold pvo, pvo_signal, pvo_hist. change (@pvo_run) with (@ppo_run). rewrite E. cbn [bind]. do 3 eexists. do 3 (split; [reflexivity|]). exact N.
Qed.
