(** * EmaError: rounding error of one exponential-average step (real analysis only). *)
From Coq Require Import Reals Lra.
Local Open Scope R_scope.

Section Step.
Variables (rd : R -> R) (u eta : R).
Hypothesis Hu : u = / 9007199254740992.
Hypothesis err : forall x, Rabs (rd x - x) <= u * Rabs x + eta.
Hypothesis eta0 : 0 <= eta.
Variables (M al n o D a c : R).
Hypothesis eM : eta <= u * M / 1000.
Hypothesis e1 : eta <= u / 1000.
Hypothesis M0 : 0 < M.
Hypothesis al1 : 0 < al <= 1.
Hypothesis n0 : 0 <= n.
Hypothesis nal : Rabs (n - al) <= u * al + eta.
Hypothesis o0 : 0 <= o.
Hypothesis o1 : o = rd (1 - n).
Hypothesis D1 : D = rd (o + n).
Hypothesis a1 : Rabs a <= 11 / 10 * M.
Hypothesis c1 : Rabs c <= M.

Lemma abs_le_both : forall x y, Rabs x <= y -> - y <= x <= y.
Proof. intros x y H. split; [|]; destruct (Rcase_abs x) as [L|L]; unfold Rabs in H; destruct Rcase_abs; lra. Qed.
Lemma abs_prod : forall x y b d, Rabs x <= b -> Rabs y <= d -> Rabs (x * y) <= b * d.
Proof. intros x y b d Hx Hy. rewrite Rabs_mult. apply Rmult_le_compat; auto using Rabs_pos. Qed.

(** the weights add up to 1 within two roundings *)
Lemma weights : Rabs (o - (1 - al)) <= u + u * al + 3 * eta /\ Rabs (D - 1) <= 21 / 10 * u /\ o + n <= 1 + 11 / 10 * u.
Proof.
  pose proof (abs_le_both _ _ nal) as N. pose proof (err (1 - n)) as E. rewrite <- o1 in E.
  assert (B : Rabs (1 - n) <= 1). { apply Rabs_le. nra. }
  assert (E' : Rabs (o - (1 - n)) <= u + eta) by (rewrite Hu in *; lra). apply abs_le_both in E'.
  split; [apply Rabs_le; lra|].
  pose proof (err (o + n)) as F. rewrite <- D1 in F. rewrite (Rabs_pos_eq (o + n)) in F by lra. apply abs_le_both in F.
  split; [|lra]. apply Rabs_le. rewrite Hu in *. split; lra.
Qed.

Lemma ema_step_error : Rabs (rd (rd (rd (o * a) + rd (n * c)) / D) - ((1 - al) * a + al * c)) <= 16 * u * M.
Proof.
  destruct weights as (W & HD & S). set (X := 11 / 10 * M) in *.
  set (p := rd (o * a)). set (q := rd (n * c)). set (s := rd (p + q)). set (t := rd (s / D)).
  pose proof (err (o * a)) as Ep. fold p in Ep. pose proof (err (n * c)) as Eq. fold q in Eq.
  pose proof (err (p + q)) as Es. fold s in Es. pose proof (err (s / D)) as Et. fold t in Et.
  assert (Ba : Rabs (o * a) <= o * X) by (apply abs_prod; auto; rewrite Rabs_pos_eq; lra).
  assert (Bc : Rabs (n * c) <= n * X) by (apply abs_prod; [rewrite Rabs_pos_eq; lra|unfold X; lra]).
  assert (X0 : 0 < X) by (unfold X; lra). assert (U0 : 0 < u) by (rewrite Hu; lra).
  assert (SX : o * X + n * X <= X + 11 / 10 * u * X) by (rewrite <- Rmult_plus_distr_r; nra).
  assert (OX : 0 <= o * X) by nra. assert (NX : 0 <= n * X) by nra.
  assert (eX : eta <= u * X / 1000) by (unfold X; lra).
  (* products *)
  assert (Bp : Rabs p <= o * X + u * (o * X) + eta).
  { replace p with ((p - o * a) + o * a) by ring. eapply Rle_trans; [apply Rabs_triang|]. nra. }
  assert (Bq : Rabs q <= n * X + u * (n * X) + eta).
  { replace q with ((q - n * c) + n * c) by ring. eapply Rle_trans; [apply Rabs_triang|]. nra. }
  assert (uu : u * u <= u / 1000) by (rewrite Hu; lra).
  assert (uX : 0 < u * X) by nra. assert (uuX : u * (u * X) <= u * X / 1000) by nra.
  assert (uSX : u * (o * X) + u * (n * X) <= u * X + 11 / 10 * (u * (u * X))) by nra.
  assert (Bpq : Rabs (p + q) <= X + 22 / 10 * (u * X)).
  { eapply Rle_trans; [apply Rabs_triang|]. lra. }
  assert (uXX : u * X <= X / 1000) by (rewrite Hu; lra).
  assert (Es' : Rabs (s - (p + q)) <= 101 / 100 * (u * X)).
  { eapply Rle_trans; [exact Es|]. assert (u * Rabs (p + q) <= u * (X + 22 / 10 * (u * X))) by (apply Rmult_le_compat_l; lra). lra. }
  assert (Bs : Rabs s <= X + 33 / 10 * (u * X)).
  { replace s with ((s - (p + q)) + (p + q)) by ring. eapply Rle_trans; [apply Rabs_triang|]. lra. }
  apply abs_le_both in HD. assert (D0 : 99 / 100 <= D) by (rewrite Hu in HD; lra).
  assert (Ed : Rabs (s / D - s) <= 22 / 10 * (u * X)).
  { replace (s / D - s) with (s * (1 - D) / D) by (field; lra). unfold Rdiv. rewrite Rabs_mult.
    assert (I : 0 < / D) by (apply Rinv_0_lt_compat; lra).
    rewrite (Rabs_pos_eq (/ D)) by lra. apply Rmult_le_reg_r with D; [lra|]. rewrite Rmult_assoc, Rinv_l, Rmult_1_r by lra.
    assert (P : Rabs (s * (1 - D)) <= (X + 33 / 10 * (u * X)) * (21 / 10 * u)) by (apply abs_prod; auto; apply Rabs_le; lra).
    assert (Q : 22 / 10 * (u * X) * (1 - 21 / 10 * u) <= 22 / 10 * (u * X) * D) by (apply Rmult_le_compat_l; lra).
    replace ((X + 33 / 10 * (u * X)) * (21 / 10 * u)) with (21 / 10 * (u * X) + 693 / 100 * (u * (u * X))) in P by field.
    replace (22 / 10 * (u * X) * (1 - 21 / 10 * u)) with (22 / 10 * (u * X) - 462 / 100 * (u * (u * X))) in Q by field. lra. }
  assert (Bd : Rabs (s / D) <= X + 55 / 10 * (u * X)).
  { replace (s / D) with ((s / D - s) + s) by ring. eapply Rle_trans; [apply Rabs_triang|]. lra. }
  assert (Et' : Rabs (t - s / D) <= 101 / 100 * (u * X)).
  { eapply Rle_trans; [exact Et|]. assert (u * Rabs (s / D) <= u * (X + 55 / 10 * (u * X))) by (apply Rmult_le_compat_l; lra). lra. }
  (* the exact step with rounded weights *)
  assert (Ew : Rabs (o * a + n * c - ((1 - al) * a + al * c)) <= 31 / 10 * (u * X)).
  { replace (o * a + n * c - ((1 - al) * a + al * c)) with ((o - (1 - al)) * a + (n - al) * c) by ring.
    eapply Rle_trans; [apply Rabs_triang|].
    assert (P : Rabs ((o - (1 - al)) * a) <= (u + u * al + 3 * eta) * X) by (apply abs_prod; auto).
    assert (Q : Rabs ((n - al) * c) <= (u * al + eta) * X) by (apply abs_prod; auto; unfold X; lra).
    assert (P' : (u + u * al + 3 * eta) * X <= (u + u + 3 * (u / 1000)) * X) by (apply Rmult_le_compat_r; nra).
    assert (Q' : (u * al + eta) * X <= (u + u / 1000) * X) by (apply Rmult_le_compat_r; nra). lra. }
  assert (T : Rabs (t - ((1 - al) * a + al * c)) <= Rabs (t - s / D) + Rabs (s / D - s) + Rabs (s - (p + q)) +
              (Rabs (p - o * a) + Rabs (q - n * c)) + Rabs (o * a + n * c - ((1 - al) * a + al * c))).
  { replace (t - ((1 - al) * a + al * c)) with ((t - s / D) + (s / D - s) + (s - (p + q)) + ((p - o * a) + (q - n * c)) +
      (o * a + n * c - ((1 - al) * a + al * c))) by ring.
    repeat (eapply Rle_trans; [apply Rabs_triang|apply Rplus_le_compat]; try apply Rle_refl). }
  assert (Epq : Rabs (p - o * a) + Rabs (q - n * c) <= 11 / 10 * (u * X)).
  { assert (u * Rabs (o * a) <= u * (o * X)) by (apply Rmult_le_compat_l; lra).
    assert (u * Rabs (n * c) <= u * (n * X)) by (apply Rmult_le_compat_l; lra). lra. }
  assert (FX : u * X = 11 / 10 * (u * M)) by (unfold X; ring). assert (0 < u * M) by nra. lra.
Qed.
End Step.
