(** * FloatTrack: chains of binary64 exponential averages stay close to the exact ones. *)
From Flocq Require Import Core PrimFloat.
From Coq Require Import Reals Lra Floats.
From Verif Require Import Lists Arith FloatArith FloatReal Order FloatOrder Api FloatPct EmaError FloatEma.
Local Open Scope R_scope.
#[local] Arguments eta : simpl never.
#[local] Arguments u : simpl never.

(** missing on some first rows, then numbers of size at most M *)
Definition bd (M : R) (y : xr) : Prop := exists r, y = Fin r /\ Rabs r <= M.
Inductive late (M : R) : list xr -> Prop :=
| late_nan : forall s, late M s -> late M (NaN :: s)
| late_fin : forall s, Forall (bd M) s -> late M s.
Lemma late_mono : forall M M' s, M <= M' -> late M s -> late M' s.
Proof.
  intros M M' s H. induction 1 as [s H1 IH|s H1]; [now constructor|]. apply late_fin. eapply Forall_impl; [|exact H1].
  intros y (r & -> & B). exists r. split; auto. lra.
Qed.
Lemma late_float : forall e M x y, Forall2 (near e) x y -> late M y -> exists j t, x = repeat fnan j ++ t /\ Forall (okval (M + e)) t.
Proof.
  intros e M x y H. induction 1 in x, H |- *.
  - inversion H as [|a ? x' ? Na Hx]; subst. destruct (IHlate _ Hx) as (j & t & -> & Ht). exists (S j), t. split; auto. cbn. f_equal.
    cbn in Na. apply (@nan_unique _ _ Float_laws). rewrite val_nan, Na. reflexivity.
  - exists 0%nat, x. split; auto. revert s H H0. induction x as [|a x IH]; intros s H Hs; [constructor|].
    inversion H as [|? b ? s' Na Hx]; subst. destruct (Forall_inv Hs) as (r & -> & B). cbn in Na. destruct Na as (q & V & E).
    constructor; [|exact (IH _ Hx (Forall_inv_tail Hs))]. exists q. split; auto. replace q with (r + (q - r)) by ring.
    eapply Rle_trans; [apply Rabs_triang|]. lra.
Qed.
Lemma late_sub : forall M N s, late M s -> forall t, late N t -> late (M + N) (ssub s t).
Proof.
  assert (P : forall M N s, Forall (bd M) s -> forall t, Forall (bd N) t -> Forall (bd (M + N)) (ssub s t)).
  { intros M N. induction 1 as [|x s (a & -> & A) Hs IH]; intros t Ht; [constructor|]. destruct Ht as [|y t (b & -> & B) Ht]; [constructor|].
    cbn. constructor; [|now apply IH]. exists (a + - b). split; auto. eapply Rle_trans; [apply Rabs_triang|]. rewrite Rabs_Ropp. lra. }
  intros M N. induction 1 as [s Hs IH|s Hs].
  - intros t Ht. destruct Ht as [t Ht|[|y t] Ht]; cbn; try apply late_fin, Forall_nil.
    + apply late_nan. now apply IH.
    + apply late_nan. apply IH. apply late_fin. exact (Forall_inv_tail Ht).
  - intros t Ht. revert s Hs. induction Ht as [t Ht IH|t Ht]; intros s Hs.
    + destruct Hs as [|x s (a & -> & A) Hs]; [apply late_fin, Forall_nil|]. cbn. apply late_nan. now apply IH.
    + apply late_fin. now apply P.
Qed.

(** ** exact averages: bounded, and no more sensitive than their input *)
Section Exact.
Variable al : R.
Hypothesis al01 : 0 < al <= 1.
Lemma step_xr : forall ow a c, 0 <= ow -> (if xeqb (Fin a) (Fin c) then Fin a else xdiv (xadd (xmul (Fin ow) (Fin a)) (xmul (Fin al) (Fin c))) (xadd (Fin ow) (Fin al))) =
  Fin ((ow * a + al * c) / (ow + al)).
Proof.
  intros ow a c H. cbn [xmul xadd xdiv]. destruct (Req_EM_T (ow + al) 0); [lra|].
  cbn [xeqb]. destruct Req_EM_T; auto. subst. f_equal. field. lra.
Qed.
Lemma mix : forall ow a c M, 0 <= ow -> Rabs a <= M -> Rabs c <= M -> Rabs ((ow * a + al * c) / (ow + al)) <= M.
Proof.
  intros ow a c M H A C. apply Rabs_le_inv in A, C. apply Rabs_le.
  split; apply Rmult_le_reg_r with (ow + al); try lra; unfold Rdiv; rewrite Rmult_assoc, Rinv_l by lra; nra.
Qed.
Lemma all_ewm : forall M m s k x, (m <= k)%nat -> Forall (bd M) s -> Rabs x <= M -> Forall (bd M) (ewm_go (Fin al) m k (Fin x) (Fin 1) s).
Proof.
  intros M m. induction s as [|y s IH]; intros k x K Hs X; [constructor|]. destruct (Forall_inv Hs) as (c & -> & C).
  cbn [ewm_go fisnan XR xisnan negb fofZ fsub fmul fadd fdiv feqb]. rewrite (proj2 (Nat.leb_le _ _)) by lia.
  change (xmul (Fin 1) (xsub (Fin 1) (Fin al))) with (Fin (1 * (1 + - al))). rewrite step_xr by lra.
  assert (P : Rabs ((1 * (1 + - al) * x + al * c) / (1 * (1 + - al) + al)) <= M) by (apply mix; lra).
  constructor; [now eexists|]. apply IH; auto. exact (Forall_inv_tail Hs).
Qed.
Lemma late_ewm1 : forall M m s k x, Forall (bd M) s -> Rabs x <= M -> late M (ewm_go (Fin al) m k (Fin x) (Fin 1) s).
Proof.
  intros M m. induction s as [|y s IH]; intros k x Hs X; [apply late_fin; constructor|].
  destruct (le_lt_dec m k) as [K|K]; [now apply late_fin, all_ewm|]. destruct (Forall_inv Hs) as (c & -> & C).
  cbn [ewm_go fisnan XR xisnan negb fofZ fsub fmul fadd fdiv feqb].
  change (xmul (Fin 1) (xsub (Fin 1) (Fin al))) with (Fin (1 * (1 + - al))). rewrite step_xr by lra.
  assert (P : Rabs ((1 * (1 + - al) * x + al * c) / (1 * (1 + - al) + al)) <= M) by (apply mix; lra).
  pose proof (Forall_inv_tail Hs) as Ht.
  destruct (m <=? S k)%nat eqn:Q.
  - apply Nat.leb_le in Q. apply late_fin. constructor; [now eexists|]. now apply all_ewm.
  - apply late_nan. now apply IH.
Qed.
Lemma late_ewm : forall M m s, late M s -> forall k, late M (ewm_go (Fin al) m k NaN (Fin 1) s).
Proof.
  intros M m. induction 1 as [s Hs IH|s Hs]; intros k.
  - cbn [ewm_go fisnan XR xisnan negb]. destruct (_ <=? _)%nat; apply late_nan, IH.
  - destruct s as [|y s]; [apply late_fin; constructor|]. destruct (Forall_inv Hs) as (c & -> & C). pose proof (Forall_inv_tail Hs) as Ht.
    cbn [ewm_go fisnan XR xisnan negb fofZ]. destruct (m <=? S k)%nat eqn:Q.
    + apply Nat.leb_le in Q. apply late_fin. constructor; [now exists c|]. now apply all_ewm.
    + apply late_nan. now apply late_ewm1.
Qed.

Definition close2 (d : R) (x y : xr) : Prop := match x, y with NaN, NaN => True | Fin a, Fin b => Rabs (a - b) <= d | _, _ => False end.
Lemma ewm_lip : forall d m s t, Forall2 (close2 d) s t -> forall k a b o, 0 <= o -> close2 d a b ->
  Forall2 (close2 d) (ewm_go (Fin al) m k a (Fin o) s) (ewm_go (Fin al) m k b (Fin o) t).
Proof.
  intros d m. induction 1 as [|x y s t H _ IH]; intros k a b o O Hab; [constructor|].
  cbn [ewm_go fisnan XR fofZ fsub fmul fadd fdiv feqb].
  assert (E : forall o, xmul (Fin o) (xsub (Fin 1) (Fin al)) = Fin (o * (1 + - al))) by reflexivity. rewrite E.
  assert (O' : 0 <= o * (1 + - al)) by nra.
  destruct x as [| | |x], y as [| | |y]; try (destruct H; fail); destruct a as [| | |a], b as [| | |b]; try (destruct Hab; fail);
    cbn [xisnan negb]; try rewrite !step_xr by exact O'; cbn [fnan XR]; cbn in H, Hab.
  - constructor; [destruct (_ <=? _)%nat; exact I|now apply IH].
  - constructor; [destruct (_ <=? _)%nat; auto; exact I|now apply IH].
  - constructor; [destruct (_ <=? _)%nat; auto; exact I|now apply IH].
  - assert (P : Rabs ((o * (1 + - al) * a + al * x) / (o * (1 + - al) + al) - (o * (1 + - al) * b + al * y) / (o * (1 + - al) + al)) <= d).
    { replace ((o * (1 + - al) * a + al * x) / (o * (1 + - al) + al) - (o * (1 + - al) * b + al * y) / (o * (1 + - al) + al))
        with ((o * (1 + - al) * (a - b) + al * (x - y)) / (o * (1 + - al) + al)) by (field; lra). now apply mix. }
    constructor; [destruct (_ <=? _)%nat; auto; exact I|]. apply IH; auto. lra.
Qed.
End Exact.

(** ** one more average on top of a tracked series *)
Lemma near_mono : forall e e' x y, e <= e' -> near e x y -> near e' x y.
Proof.
  intros e e' x y H. destruct y; cbn; auto. intros (q & V & B). exists q. split; auto. lra.
Qed.
Lemma near_mono2 : forall e e' x y, e <= e' -> Forall2 (near e) x y -> Forall2 (near e') x y.
Proof. intros e e' x y H. induction 1; constructor; auto. eapply near_mono; eauto. Qed.
Lemma near_val : forall e x y, Forall2 (near e) x y -> Forall2 (close2 e) (map val x) y.
Proof.
  intros e x y. induction 1 as [|a b x y H]; constructor; auto. destruct b; cbn in H; try easy.
  - rewrite H. exact I.
  - destruct H as (q & -> & B). exact B.
Qed.
Lemma near_compose : forall e1 e2 x y z, Forall2 (near e1) x y -> Forall2 (close2 e2) y z -> Forall2 (near (e1 + e2)) x z.
Proof.
  intros e1 e2 x y z H. revert z. induction H as [|a b x y H _ IH]; intros z Hz; inversion Hz as [|? c ? z' C Cz]; subst; constructor; auto.
  destruct b as [| | |b], c as [| | |c]; cbn in *; try easy. destruct H as (q & V & B). exists q. split; auto.
  replace (q - c) with ((q - b) + (b - c)) by ring. eapply Rle_trans; [apply Rabs_triang|]. lra.
Qed.
Lemma near_prep : forall e x y, Forall2 (near e) x y -> prep x = x /\ prep y = y.
Proof.
  intros e x y. induction 1 as [|a b x y H _ [I1 I2]]; [easy|].
  assert (fisinf a = false /\ xisinf b = false) as [E1 E2].
  2:{ unfold prep in *. cbn [map]. rewrite I1, I2, E1. cbn [fisinf XR]. now rewrite E2. }
  rewrite val_inf. destruct b; cbn in H; try easy.
  - rewrite H. easy.
  - destruct H as (q & -> & _). easy.
Qed.
Lemma near_span : forall e M w m x y, (1 <= w)%Z -> (100 * w <= 2 ^ 53)%Z -> bpow radix2 (-900) <= M + e -> M + e <= bpow radix2 1000 ->
  Forall2 (near e) x y -> late M y ->
  exists x' y', ewm_span w m x = Ok x' /\ ewm_span w m y = Ok y' /\ Forall2 (near (ebound w (M + e) + e)) x' y' /\ late M y'.
Proof.
  intros e M w m x y W1 W2 M1 M2 H L. unfold ewm_span. rewrite (proj2 (Z.ltb_ge w 1)) by lia.
  do 2 eexists. split; [reflexivity|]. split; [reflexivity|].
  destruct (near_prep _ _ _ H) as [P1 P2]. unfold ewm_com. rewrite P1, P2.
  match goal with |- Forall2 _ (ewm_go ?a _ _ _ _ _) (ewm_go ?a' _ _ _ _ _) /\ _ => change a with (span_alphaF w);
    change a' with (xdiv (Fin 1) (xadd (Fin 1) (xdiv (xsub (Fin (IZR w)) (Fin 1)) (Fin 2)))) end.
  rewrite (xr_alpha w W1 W2). pose proof (al01 w W1 W2) as A. split; [|now apply late_ewm].
  destruct (late_float _ _ _ _ H L) as (j & t & -> & Ht).
  eapply near_compose; [now apply ewm_track|]. cbn [fofZ XR fnan]. apply ewm_lip; auto; [now apply near_val|lra|exact I].
Qed.
Lemma near_ema : forall e M w b x y, (1 <= w)%Z -> (100 * w <= 2 ^ 53)%Z -> bpow radix2 (-900) <= M + e -> M + e <= bpow radix2 1000 ->
  Forall2 (near e) x y -> late M y ->
  exists x' y', ema_ x w b = Ok x' /\ ema_ y w b = Ok y' /\ Forall2 (near (ebound w (M + e) + e)) x' y' /\ late M y'.
Proof. intros e M w b x y W1 W2 M1 M2 H L. now apply near_span. Qed.
Lemma near_sub : forall e1 e2 M N x1 y1, Forall2 (near e1) x1 y1 -> late M y1 -> forall x2 y2, Forall2 (near e2) x2 y2 -> late N y2 ->
  0 <= e1 -> 0 <= e2 -> 0 <= M -> 0 <= N -> M + N + e1 + e2 <= bpow radix2 1020 ->
  Forall2 (near (e1 + e2 + (u * (M + N + e1 + e2) + eta))) (ssub x1 x2) (ssub y1 y2).
Proof.
  assert (Z : forall M y s, late M (y :: s) -> (y = NaN \/ bd M y) /\ late M s).
  { intros M y s H. inversion H as [? H'|? H']; subst; [split; auto|]. split; [right; exact (Forall_inv H')|]. apply late_fin. exact (Forall_inv_tail H'). }
  intros e1 e2 M N x1 y1 H1. induction H1 as [|a b x1 y1 H _ IH]; intros L1 x2 y2 H2 L2 P1 P2 P3 P4 B; [constructor|].
  destruct H2 as [|c d x2 y2 H2 H2t]; [constructor|].
  apply Z in L1 as [B1 L1], L2 as [B2 L2]. cbn. constructor; [|now apply IH].
  destruct b as [| | |b]; cbn in H; try easy.
  - cbn. rewrite val_sub, H. reflexivity.
  - destruct H as (q & V & Q). destruct d as [| | |d]; cbn in H2; try easy.
    + cbn. rewrite val_sub, H2, V. reflexivity.
    + destruct H2 as (p & V' & Q'). destruct B1 as [B1|(? & B1 & M1)]; [easy|]. destruct B2 as [B2|(? & B2 & M2)]; [easy|].
      injection B1 as <-. injection B2 as <-. cbn. rewrite val_sub, V, V'. unfold xsub. cbn [xadd xopp].
      assert (S : Rabs (q + - p) <= M + N + e1 + e2).
      { apply Rabs_le. apply Rabs_le_inv in Q, Q', M1, M2. lra. }
      rewrite rx_small by lra. eexists. split; [reflexivity|]. pose proof (rnd_err (q + - p)) as E.
      assert (E' : u * Rabs (q + - p) <= u * (M + N + e1 + e2)) by (apply Rmult_le_compat_l; [unfold u; lra|exact S]).
      replace (rnd (q + - p) - (b + - d)) with ((rnd (q + - p) - (q + - p)) + ((q - b) + - (p - d))) by ring.
      eapply Rle_trans; [apply Rabs_triang|]. pose proof (Rabs_triang (q - b) (- (p - d))) as T. rewrite Rabs_Ropp in T. lra.
Qed.
(** a constant small enough to be exact *)
Lemma near_fill : forall e b z x y, 0 <= e -> (0 <= z <= 1000)%Z -> Forall2 (near e) x y -> Forall2 (near e) (check_fillna b (FillInt z) x) (check_fillna b (FillInt z) y).
Proof.
  intros e b z x y E Hz H. unfold check_fillna. destruct b; auto. rewrite (proj2 (Z.eqb_neq z (-1))) by lia.
  change (replace_inf x) with (prep x). change (replace_inf y) with (prep y). destruct (near_prep _ _ _ H) as [-> ->].
  assert (Nn : forall a b, near e a b -> fisnan a = xisnan b).
  { intros a c Hn. rewrite val_nan. destruct c; cbn in Hn; try easy; [now rewrite Hn|]. now destruct Hn as (? & -> & _). }
  assert (G : forall l l', near e l l' -> Forall2 (near e) (ffill_go l x) (ffill_go l' y)).
  { clear - H Nn. induction H as [|a c x y H _ IH]; intros l l' Hl; [constructor|]. cbn. pose proof (Nn _ _ H) as N. cbn in N. rewrite N.
    destruct (xisnan c); constructor; auto. }
  specialize (G fnan NaN (near_nan e)). unfold ffill. cbn [fnan XR] in *. revert G. generalize (ffill_go fnan x) (ffill_go NaN y).
  clear x y H. intros x y. induction 1 as [|a c x y H G IH]; [constructor|]. cbn. constructor; auto.
  pose proof (Nn _ _ H) as N. cbn in N. rewrite N. destruct (xisnan c); auto. cbn. exists (IZR z). split; [apply val_small; lia|].
  replace (IZR z - IZR z) with 0 by ring. now rewrite Rabs_R0.
Qed.
