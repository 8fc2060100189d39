(** * IntFloat: on-balance volume of an int64 column and of a float64 column (C100). *)
From Coq Require Import Floats.
From Verif Require Import Lists Align FloatArith FloatReal Api FloatExact SpecNum SpecTracking IntColumns SpecInt Tab Stuck Halt IntProofs.
Local Open Scope Z_scope.
Lemma fell_map : forall close i, (i < length close)%nat -> fell (map val close) i = fell close i.
Proof.
  intros close [|i] Hi; [reflexivity|]. cbn [fell].
  rewrite (nth_indep (map val close) fnan (val fnan)), (nth_indep (map val close) fnan (val fnan) (n := i)) by (rewrite map_length; lia).
  rewrite !map_nth. apply v_ltb.
Qed.
Lemma obv_int_float : forall rows ks fl i, Forall2 (on_grid 0) ks (map b_volume rows) -> Forall (fun k => 0 <= k) ks -> total ks <= 2 ^ 53 ->
  (i < length rows)%nat -> exists out, compute Obv fl rows = Ok out /\
  val (nth i out fnan) = Fin (IZR (nth i (on_balance_volume_int int64 (map b_close rows) ks) 0)).
Proof.
  intros rows ks fl i G P T Hi. eexists. split; [reflexivity|].
  assert (LK : length ks = length rows) by (rewrite <- (map_length b_volume rows); clear - G; induction G; cbn; auto).
  assert (X := obv_exact 0 ltac:(lia) ltac:(lia) fl rows ks ltac:(clear - G; induction G; constructor; auto; now right) T).
  destruct (rows_val rows) as (_ & _ & E3 & E4). cbn [compute] in X. rewrite E3, E4 in X.
  assert (E : map val (map b_volume rows) = map (fun k => Fin (IZR k)) ks).
  { clear - G. induction G as [|k x ks l H _ IH]; cbn [map]; auto. rewrite IH. f_equal. unfold on_grid in H. rewrite H. f_equal. cbn. ring. }
  rewrite E, obv_xr in X by (rewrite !map_length; lia). unfold on_balance_volume in X at 1. cbn [rmap] in X. apply Ok_inj in X.
  pose proof (f_equal (@length xr) X) as LX. rewrite len_tab, !map_length in LX. apply (f_equal (fun l => nth i l NaN)) in X. rewrite nth_tab in X by (rewrite !map_length; lia).
  rewrite (nth_indep (map val _) NaN (val fnan)) in X.
  - rewrite map_nth in X. etransitivity; [symmetry; exact X|]. unfold from, fromx. cbn [Nat.ltb Nat.leb]. do 2 f_equal.
    symmetry. assert (V : forall j, (j <= i)%nat -> 0 <= nth j ks 0).
    { intros j Hj. rewrite Forall_forall in P. apply P, nth_In. lia. }
    assert (TT : forall k l, (k <= length l)%nat -> (forall j, (j < k)%nat -> 0 <= nth j l 0) -> SpecInt.zsum (fun j => nth j l 0) k <= total l).
    { clear. induction k; intros l Hk V; [apply FloatExact.total_nn|]. destruct l as [|x l]; [cbn in Hk; lia|]. rewrite zsum_first. cbn [total].
      pose proof (V O ltac:(lia)). cbn [nth] in *. specialize (IHk l ltac:(cbn in Hk; lia) ltac:(intros j Hj; apply (V (S j)); lia)). lia. }
    assert (VB : forall j, (j <= i)%nat -> 0 <= nth j ks 0 < 2 ^ (width int64 - 1)).
    { intros j Hj. split; [auto|]. pose proof (TT (S j) ks ltac:(lia) ltac:(intros; apply V; lia)) as Q. cbn [SpecInt.zsum] in Q.
      assert (0 <= SpecInt.zsum (fun j => nth j ks 0) j) by (etransitivity; [|apply (zsum_le (fun _ => 0)); intros; apply V; lia]; rewrite zsum_zero; lia).
      cbn [width int64]. lia. }
    destruct (obv_signed int64 (map b_close rows) ks ltac:(cbn; lia) ltac:(rewrite map_length; lia) eq_refl i ltac:(rewrite map_length; lia) VB) as [_ SG].
    specialize (TT (S i) ks ltac:(lia) ltac:(intros; apply V; lia)). rewrite SG by (unfold turnover; lia). unfold balance. apply zsum_ext. intros j Hj. rewrite fell_map by (rewrite map_length; lia). reflexivity.
  - rewrite map_length. lia.
Qed.
