(** * ScaleOps: columns under a change of units (C60, C61).
    Differences of columns transformed by t are scaled by [fac t]. *)
From Verif Require Import Lists Api Scale.
Local Open Scope R_scope.

Definition one : pos := mkpos 1 Rlt_0_1.
Definition fac (t : trans) : pos := match t with Sc k => k | Sh _ => one end.
Notation "s ^^ t" := (map (act t) s) (at level 30).
Notation D t := (Sc (fac t)).
Lemma act_one : forall x, act (Sc one) x = x.
Proof. intros [| | |x]; cbn; try reflexivity. f_equal. lra. Qed.
Lemma map_one : forall s, s ^^ Sc one = s.
Proof. intros. rewrite <- (map_id s) at 2. apply map_ext. apply act_one. Qed.
Lemma spread_fac : forall t x, spread t x = act (D t) x.
Proof. intros [k|a] x; [reflexivity|]. symmetry. apply act_one. Qed.
Lemma map_spread : forall t s, map (spread t) s = s ^^ D t.
Proof. intros. apply map_ext, spread_fac. Qed.
Lemma sub_t : forall t x y, fsub (act t x) (act t y) = act (D t) (fsub x y).
Proof. intros [k|a] x y; [apply sc_sub|]. cbn [fac]. rewrite act_one. apply sh_sub. Qed.
Lemma add_t : forall t x y, fadd (act t x) (act (D t) y) = act t (fadd x y).
Proof. intros [k|a] x y; [apply sc_add|]. cbn [fac]. rewrite act_one. apply sh_add_l. Qed.
Lemma sub_tD : forall t x y, fsub (act t x) (act (D t) y) = act t (fsub x y).
Proof. intros [k|a] x y; [apply sc_sub|]. cbn [fac]. rewrite act_one. apply sh_sub_l. Qed.

Section Ops.
Variables (t : trans) (k p : pos).
Lemma o_ssub : forall s u, ssub (s ^^ t) (u ^^ t) = ssub s u ^^ D t.
Proof. intros. apply map2_through, sub_t. Qed.
Lemma o_ssubD : forall s u, ssub (s ^^ t) (u ^^ D t) = ssub s u ^^ t.
Proof. intros. apply map2_through, sub_tD. Qed.
Lemma o_saddD : forall s u, sadd (s ^^ t) (u ^^ D t) = sadd s u ^^ t.
Proof. intros. apply map2_through, add_t. Qed.
Lemma o_sadd : forall s u, sadd (s ^^ Sc k) (u ^^ Sc k) = sadd s u ^^ Sc k.
Proof. intros. apply map2_through, sc_add. Qed.
Lemma o_sdiv : forall s u, sdiv (s ^^ Sc k) (u ^^ Sc k) = sdiv s u.
Proof. intros. apply map2_same, sc_div. Qed.
Lemma map2_l : forall (f f' : xr -> xr -> xr) g h s u, (forall x y, f (g x) y = h (f' x y)) -> map2 f (map g s) u = map h (map2 f' s u).
Proof. intros. rewrite <- (map_id u) at 1. now apply map2_through. Qed.
Lemma map2_r : forall (f f' : xr -> xr -> xr) g h s u, (forall x y, f x (g y) = h (f' x y)) -> map2 f s (map g u) = map h (map2 f' s u).
Proof. intros. rewrite <- (map_id s) at 1. now apply map2_through. Qed.
Lemma o_sdiv_l : forall s u, sdiv (s ^^ Sc k) u = sdiv s u ^^ Sc k.
Proof. intros. apply map2_l. intros. apply sc_div_l. Qed.
Lemma o_sdiv_r : forall s u, sdiv s (u ^^ Sc k) = sdiv s u ^^ Sc (pinv k).
Proof. intros. apply map2_r. intros. apply sc_inv. Qed.
Lemma o_smul_l : forall s u, smul (s ^^ Sc k) u = smul s u ^^ Sc k.
Proof. intros. apply map2_l. intros. apply sc_mul_l. Qed.
Lemma o_smul_r : forall s u, smul s (u ^^ Sc k) = smul s u ^^ Sc k.
Proof. intros. apply map2_r. intros. apply sc_mul_r. Qed.
Lemma o_scal : forall c s, scal c (s ^^ Sc k) = scal c s ^^ Sc k.
Proof. intros. unfold scal. rewrite !map_map. apply map_ext. intros. apply sc_mul_r. Qed.
Lemma o_divs : forall c s, divs (s ^^ Sc k) c = divs s c ^^ Sc k.
Proof. intros. unfold divs. rewrite !map_map. apply map_ext. intros. apply sc_div_l. Qed.
Lemma o_divs_t : forall c s, divs (s ^^ Sc k) (act (Sc k) c) = divs s c.
Proof. intros. unfold divs. rewrite !map_map. apply map_ext. intros. apply sc_div. Qed.
Lemma o_muls : forall c s, muls (s ^^ Sc k) c = muls s c ^^ Sc k.
Proof. intros. unfold muls. rewrite !map_map. apply map_ext. intros. apply sc_mul_l. Qed.
Lemma o_abs : forall s, map fabs (s ^^ Sc k) = map fabs s ^^ Sc k.
Proof. intros. rewrite !map_map. apply map_ext. intros. apply sc_abs. Qed.
Lemma o_diff1 : forall s, diff1 (s ^^ t) = diff1 s ^^ D t.
Proof. intros. unfold diff1. now rewrite t_shift, o_ssub. Qed.
Lemma o_map_map : forall s, (s ^^ Sc p) ^^ Sc k = s ^^ Sc (pmul k p).
Proof. intros. rewrite map_map. apply map_ext. intros. apply sc_sc. Qed.
Lemma o_true_range : forall h l c, true_range (h ^^ t) (l ^^ t) (c ^^ t) = true_range h l c ^^ D t.
Proof.
  intros. unfold true_range. rewrite !o_ssub, !(map_map (act (D t)) fabs).
  rewrite !map_ext with (f := fun x => fabs (act (D t) x)) (g := fun x => act (D t) (fabs x)) by (intros; apply sc_abs).
  rewrite <- !(map_map fabs (act (D t))), map3_map, map_map3. apply map3_ext3. intros.
  apply (t_nanmax (D t) [x; y; z]).
Qed.
Lemma o_half : forall h l, scal fhalf (sadd (h ^^ t) (l ^^ t)) = scal fhalf (sadd h l) ^^ t.
Proof.
  intros. unfold scal, sadd. rewrite !map_map2. rewrite map2_map. apply map2_ext2. intros.
  assert (E : fhalf = Fin (1 / 2)) by (unfold fhalf; cbn; destruct (Req_EM_T 2 0); [lra|reflexivity]).
  destruct t as [q|a].
  - now rewrite sc_add, sc_mul_r.
  - rewrite E, sh_add, sh_scale. f_equal. f_equal. lra.
Qed.
Lemma o_cumsum : forall s, cumsum (s ^^ Sc k) = cumsum s ^^ Sc k.
Proof.
  intros. unfold cumsum. rewrite <- (sc_zero k) at 1. generalize (fofZ 0 : xr). induction s; intros x; auto.
  cbn [map cumsum_go]. rewrite act_isnan, sc_add. destruct (fisnan a); now rewrite IHs.
Qed.
Lemma o_fill0 : forall s, fillna_const (fofZ 0) (s ^^ Sc k) = fillna_const (fofZ 0) s ^^ Sc k.
Proof. intros. apply t_fillna_const, sc_zero. Qed.
Lemma o_check0 : forall fl s, check_fillna fl (FillInt 0) (s ^^ Sc k) = check_fillna fl (FillInt 0) s ^^ Sc k.
Proof. intros. unfold check_fillna. destruct fl; auto. cbn [Z.eqb]. now rewrite t_replace_inf, t_ffill, o_fill0. Qed.
Lemma o_pct_change : forall s, pct_change (s ^^ Sc k) = pct_change s.
Proof. intros. unfold pct_change. now rewrite t_ffill, t_shift, o_sdiv. Qed.
End Ops.
Lemma o_typical : forall t h l c, divs (sadd (sadd (h ^^ t) (l ^^ t)) (c ^^ t)) (fofZ 3) = divs (sadd (sadd h l) c) (fofZ 3) ^^ t.
Proof.
  intros [k|a] h l c.
  - now rewrite !o_sadd, o_divs.
  - assert (A : forall s u, sadd (s ^^ Sh a) (u ^^ Sh a) = sadd s u ^^ Sh (a + a)).
    { intros. apply map2_through. intros. apply sh_add. }
    assert (B : forall s u, sadd (s ^^ Sh (a + a)) (u ^^ Sh a) = sadd s u ^^ Sh (a + a + a)).
    { intros. apply map2_through. intros. apply sh_add. }
    rewrite A, B. unfold divs. rewrite !map_map. apply map_ext. intros x.
    change (@fofZ xr XR 3) with (Fin 3). rewrite sh_divide by lra. f_equal. f_equal. lra.
Qed.
