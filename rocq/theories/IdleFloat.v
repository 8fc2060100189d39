(** * IdleFloat: C96 in binary64. *)
From Coq Require Import Floats Reals Lra Lia.
From Verif Require Import Lists Api FloatArith SpecResidue SpecIdle SpecBinary64 Align Rows Order FloatReal FloatOrder FloatPct FloatEma FloatExact FloatFlat FlatTable Stuck Halt Residue.

Lemma nought : forall x, PrimFloat.eqb x 0 = true -> exists s, Prim2SF x = S754_zero s.
Proof.
  intros x H. rewrite FloatAxioms.eqb_spec in H. change (Prim2SF 0) with (S754_zero false) in H.
  destruct (Prim2SF x) as [s|[]| |[] m e]; try discriminate. now exists s.
Qed.
Lemma eqb_self : forall x, PrimFloat.is_nan x = false -> PrimFloat.eqb x x = true.
Proof. intros x. unfold PrimFloat.is_nan. now destruct (PrimFloat.eqb x x). Qed.
Lemma add_nought : forall x y, PrimFloat.eqb y 0 = true -> alike (x + y) x.
Proof.
  intros x y H. apply nought in H as (s & H). unfold alike. destruct (PrimFloat.is_nan x) eqn:N.
  - right. split; auto. apply is_nan_spec. apply is_nan_spec in N. now rewrite FloatAxioms.add_spec, N.
  - left. destruct (Prim2SF x) as [b|b| |b m e] eqn:X.
    + rewrite FloatAxioms.eqb_spec, FloatAxioms.add_spec, X, H. now destruct b, s.
    + replace (x + y)%float with x; [now apply eqb_self|]. apply Prim2SF_inj. now rewrite FloatAxioms.add_spec, X, H.
    + apply is_nan_spec in X. congruence.
    + replace (x + y)%float with x; [now apply eqb_self|]. apply Prim2SF_inj. now rewrite FloatAxioms.add_spec, X, H.
Qed.
Lemma opp_nought : forall x, PrimFloat.eqb x 0 = true -> PrimFloat.eqb (- x) 0 = true.
Proof. intros x H. apply nought in H as (s & H). rewrite FloatAxioms.eqb_spec, FloatAxioms.opp_spec, H. now destruct s. Qed.
Lemma nought_num : forall x, PrimFloat.eqb x 0 = true -> PrimFloat.is_nan x = false.
Proof. intros x H. apply nought in H as (s & H). destruct (PrimFloat.is_nan x) eqn:N; auto. apply is_nan_spec in N. congruence. Qed.
Lemma zero_zero : forall x y, cst 0 x -> cst 0 y -> fisnan (fdiv x y) = true.
Proof.
  intros x y [X|X] [Y|Y]; try (now apply div_nan_l); try (now apply div_nan_r).
  now apply nan_val, val_div_00.
Qed.

(** OBV: the running total does not move *)
Lemma obv_idle64 : forall rows out i b p, compute Obv false rows = Ok out -> nth_error rows (S i) = Some b -> nth_error rows i = Some p ->
  PrimFloat.eqb (b_volume b) 0 = true -> PrimFloat.is_nan (b_volume p) = false -> alike (nth (S i) out nan) (nth i out nan).
Proof.
  intros rows out i b p E B P Vb Vp. cbn [compute] in E. unfold on_balance_volume in E. cbn [check_fillna] in E. apply Ok_inj in E. subst out.
  assert (Hi : (S i < length rows)%nat) by (apply nth_error_Some; congruence).
  set (c := map b_close rows) in *. set (v := map b_volume rows) in *.
  assert (Xb : nth (S i) v fnan = b_volume b) by (unfold v; apply nth_error_nth; now rewrite nth_error_map, B).
  assert (Xp : nth i v fnan = b_volume p) by (unfold v; apply nth_error_nth; now rewrite nth_error_map, P).
  assert (Lc : length c = length rows) by apply map_length. assert (Lv : length v = length rows) by apply map_length. assert (Ls := len_shift1 c).
  unfold cumsum. set (sg := map3 _ c (shift 1 c) v).
  assert (Lg : length sg = length rows).
  { unfold sg. assert (X : forall {B C D E} (g : B -> C -> D -> E) l m n, length m = length l -> length n = length l -> length (map3 g l m n) = length l).
    { induction l as [|x l IH]; intros [|y m] [|z n] Lm Ln; cbn in *; try discriminate; auto. }
    rewrite X; lia. }
  assert (Sg : forall k, (k < length rows)%nat -> nth k sg fnan = if (nth k c fnan <.? nth k (shift 1 c) fnan)%F then fopp (nth k v fnan) else nth k v fnan).
  { intros k Hk. unfold sg. now rewrite (nth_map3_lt _ _ _ _ _ _ fnan fnan fnan) by lia. }
  assert (N : PrimFloat.eqb (nth (S i) sg fnan) 0 = true).
  { rewrite Sg by lia. rewrite Xb. destruct (_ <.? _)%F; [now apply opp_nought|exact Vb]. }
  change nan with (@fnan float FloatA). rewrite cumsum_step; [now apply add_nought|lia| |now apply nought_num].
  rewrite Sg by lia. rewrite Xp. destruct (_ <.? _)%F; rewrite ?opp_nan; exact Vp.
Qed.

(** MFI: each window is added up anew *)
Lemma mfi_idle64 : forall w rows out i, compute (Mfi w) false rows = Ok out -> (i < length rows)%nat ->
  (forall j b, (i < j + Z.to_nat w)%nat -> (j <= i)%nat -> nth_error rows j = Some b -> PrimFloat.is_nan (b_volume b) = true \/ PrimFloat.eqb (b_volume b) 0 = true) ->
  PrimFloat.is_nan (nth i out nan) = true.
Proof.
  intros w rows out i E Hi V. cbn [compute] in E. unfold money_flow_index in E. cbn [check_fillna] in E.
  set (tp := divs _ _) in E. set (ud := map2 _ tp (shift 1 tp)) in E. set (v := map b_volume rows) in *. set (m := smul (smul tp v) ud) in E.
  assert (Lv : length v = length rows) by apply map_length.
  assert (Lt : length tp = length rows) by (unfold tp, divs, sadd; rewrite map_length, !length_map2, !map_length; lia).
  assert (Lu : length ud = length rows) by (unfold ud; rewrite length_map2, len_shift1; lia).
  assert (Lm : length m = length rows) by (unfold m, smul; rewrite !length_map2; lia).
  destruct (rolling _ _ _ m) as [a|] eqn:A in E; [|discriminate]. cbn [bind] in E.
  destruct (rolling _ _ _ m) as [b|] eqn:B in E; [|discriminate]. cbn [bind] in E. apply Ok_inj in E. subst out.
  assert (La := len_rolling _ _ _ _ _ A). assert (Lb := len_rolling _ _ _ _ _ B).
  assert (W : Forall (cst 0) (window_at (Z.to_nat w) i (prep m))).
  { apply Forall_forall. intros x Hx. apply (In_nth _ _ fnan) in Hx. destruct Hx as (k & Hk & <-).
    rewrite length_window_at in Hk by (rewrite len_prep; lia). rewrite window_at_nth by (rewrite ?len_prep; lia).
    set (j := (S i - Z.to_nat w + k)%nat). assert (Hj : (j < length rows)%nat) by lia.
    assert (C : cst 0 (nth j m fnan)).
    { unfold m, smul. rewrite nth_map2 with (da := fnan) (db := fnan) by (rewrite ?length_map2; lia). apply z_mul_l.
      rewrite nth_map2 with (da := fnan) (db := fnan) by lia. apply z_mul_r.
      destruct (nth_error rows j) as [r|] eqn:R; [|apply nth_error_None in R; lia].
      assert (X : nth j v fnan = b_volume r).
      { unfold v. apply nth_error_nth. rewrite nth_error_map, R. reflexivity. }
      rewrite X. apply still_cst with 0%float; [rewrite val_SF; reflexivity|]. apply (V j r); auto; lia. }
    unfold prep. rewrite (Stuck.nth_map_lt _ _ _ _ fnan) by lia.
    destruct (fisinf _); [apply cst_fnan|exact C]. }
  assert (Z : forall g k, (forall x, cst 0 x -> cst 0 (g x)) -> cst 0 (win_apply (fun x => fsum (map g x)) k (window_at (Z.to_nat w) i (prep m)))).
  { intros g k G. unfold win_apply. destruct (_ <=? _)%nat; [|apply cst_fnan]. apply z_sum. eapply f_map; [|exact W]. exact G. }
  assert (Ca : cst 0 (nth i a fnan)).
  { rewrite (nth_rolling_row _ _ _ _ _ _ _ A) by lia. cbn [calc_row agg_apply]. apply Z. intros x X. destruct (_ <=.? _)%F; auto. apply z0. }
  assert (Cb : cst 0 (nth i b fnan)).
  { rewrite (nth_rolling_row _ _ _ _ _ _ _ B) by lia. cbn [calc_row agg_apply]. apply Z. intros x X. destruct (_ <.? _)%F; auto. apply z0. }
  change nan with (@fnan float FloatA). change PrimFloat.is_nan with (@fisnan float FloatA).
  rewrite (Stuck.nth_map_lt _ _ _ _ fnan) by (unfold sdiv; rewrite length_map2, map_length; lia). unfold sdiv. rewrite nth_map2 with (da := fnan) (db := fnan) by (rewrite ?map_length; lia). rewrite (Stuck.nth_map_lt _ _ _ _ fnan) by lia.
  apply sub_nan_r, div_nan_r, add_nan_r. apply zero_zero; auto. now apply z_abs.
Qed.

(** VWAP: what the window has lost by rounding stays *)
Lemma vwap_idle_residue : shows_for_ever (Vwap 2) [(14, 12, 13, 0x1.ccccccccccccdp-1); (14, 12, 13, 0x1.4cccccccccccdp+0)]%float (11, 9, 10, 0)%float 4 (-16)%float.
Proof.
  intros n. cbn [compute]. unfold volume_weighted_average_price. column. rewrite !map_app, !map_rep. cbn [map fst snd minp_of].
  match goal with |- context [rolling 2 2 agg_sum (?p ++ repeat ?c n)] =>
    destruct (sum_tail (A := FloatA) 2 p c n (sum_state 2 p c) ltac:(by_vm) ltac:(by_vm) ltac:(by_vm) ltac:(settle)) as (r1 & E1 & L1 & H1) end.
  change (Z.of_nat 2) with 2%Z in E1. rewrite E1. cbn [bind].
  match goal with |- context [rolling 2 2 agg_sum (?p ++ repeat ?c n)] =>
    destruct (sum_tail (A := FloatA) 2 p c n (sum_state 2 p c) ltac:(by_vm) ltac:(by_vm) ltac:(by_vm) ltac:(settle)) as (r2 & E2 & L2 & H2) end.
  change (Z.of_nat 2) with 2%Z in E2. rewrite E2. cbn [bind check_fillna]. eexists. split; [reflexivity|].
  intros i Hi. rewrite len_bars in Hi. rewrite app_length, repeat_length in *. cbn [length] in *.
  change (map2 fdiv r1 r2) with (sdiv r1 r2). erewrite nth_quot; [| |lia|apply H1; lia|apply H2; lia]; [|lia]. by_vm.
Qed.
