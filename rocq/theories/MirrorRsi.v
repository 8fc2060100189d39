(** * MirrorRsi: RSI of the mirrored market (C71). *)
From Verif Require Import Lists Api Scale ScaleOps SpecMirror Mirror MirrorInd.
Local Open Scope R_scope.

Definition isfin (x : xr) : Prop := match x with Fin _ => True | _ => False end.
Definition nonneg (x : xr) : Prop := match x with Fin r => 0 <= r | _ => False end.
Definition nonneg_or_nan (x : xr) : Prop := match x with Fin r => 0 <= r | NaN => True | _ => False end.

Lemma ewm_step : forall al o v x, 0 < al <= 1 -> 0 <= o -> 0 <= v -> 0 <= x ->
  nonneg (if feqb (Fin v) (Fin x) then Fin v else fdiv (fadd (fmul (fmul (Fin o) (fsub (fofZ 1) (Fin al))) (Fin v)) (fmul (Fin al) (Fin x))) (fadd (fmul (Fin o) (fsub (fofZ 1) (Fin al))) (Fin al)) : xr).
Proof.
  intros al o v x A O V X. destruct (feqb _ _); [exact V|]. cbn. assert (0 <= o * (1 + - al)) by nra.
  destruct (Req_EM_T _ _); [lra|]. cbn. apply Rmult_le_pos; [|apply Rlt_le, Rinv_0_lt_compat; lra]. assert (0 <= o * (1 + - al) * v) by (apply Rmult_le_pos; auto).
  assert (0 <= al * x) by (apply Rmult_le_pos; lra). lra.
Qed.
(** two columns of non-negative numbers are averaged alike *)
Lemma ewm_pair : forall al, 0 < al <= 1 -> forall mp s s', Forall nonneg s -> Forall nonneg s' -> length s = length s' ->
  forall n u u', nonneg_or_nan u -> nonneg_or_nan u' -> fisnan u = fisnan u' ->
  Forall2 (fun x y => (x = NaN /\ y = NaN) \/ (nonneg x /\ nonneg y)) (ewm_go (Fin al) mp n u (fofZ 1) s) (ewm_go (Fin al) mp n u' (fofZ 1) s').
Proof.
  intros al A mp s s' H. revert s'. induction H as [|x s X H IH]; intros s' H' L n u u' U U' E; destruct H' as [|y s' Y H']; try discriminate; [constructor|].
  injection L as L. destruct x as [| | |x], y as [| | |y]; try contradiction. cbn [ewm_go].
  destruct u as [| | |u], u' as [| | |u']; try contradiction; try discriminate; cbn [fisnan XR xisnan negb]; cbv zeta iota; constructor.
  - destruct (_ <=? _)%nat; [right; now split|left; auto].
  - apply IH; auto.
  - destruct (_ <=? _)%nat; [right|left; auto]. split; (apply (ewm_step al 1); auto; lra).
  - pose proof (ewm_step al 1 u x A Rle_0_1 U X) as P. pose proof (ewm_step al 1 u' y A Rle_0_1 U' Y) as P'. change (Fin 1) with (fofZ 1 : xr) in P, P'.
    revert P P'. do 2 match goal with |- context [if feqb ?a ?b then ?c else ?d] => generalize (if feqb a b then c else d) end.
    intros p q P P'. apply IH; auto; destruct p, q; cbn in *; tauto.
Qed.
Lemma ewm_inv_pair : forall w mp s s', Forall nonneg s -> Forall nonneg s' -> length s = length s' ->
  match ewm_inv_alpha w mp s, ewm_inv_alpha w mp s' with
  | Ok a, Ok b => Forall2 (fun x y => (x = NaN /\ y = NaN) \/ (nonneg x /\ nonneg y)) a b
  | Raise e, Raise e' => e = e'
  | _, _ => False
  end.
Proof.
  intros w mp s s' H H' L. unfold ewm_inv_alpha. destruct (w =? 0)%Z eqn:W0; auto. destruct (w <? 0)%Z eqn:W1; auto.
  apply Z.eqb_neq in W0. apply Z.ltb_ge in W1.
  assert (E : exists al, 0 < al <= 1 /\ fdiv (fofZ 1) (fadd (fofZ 1) (fdiv (fsub (fofZ 1) (fdiv (fofZ 1) (fofZ w))) (fdiv (fofZ 1) (fofZ w)))) = Fin al).
  { assert (1 <= IZR w) by (apply IZR_le; lia). exists (1 / IZR w). split.
    - split; [apply Rdiv_lt_0_compat; lra|]. apply Rmult_le_reg_r with (IZR w); [lra|]. unfold Rdiv. rewrite Rmult_assoc, Rinv_l by lra. lra.
    - assert (Q : 0 < 1 / IZR w) by (apply Rdiv_lt_0_compat; lra).
      cbn. destruct (Req_EM_T (IZR w) 0); [lra|]. cbn. destruct (Req_EM_T (1 / IZR w) 0); [lra|]. cbn.
      assert (Z : 1 + (1 + - (1 / IZR w)) / (1 / IZR w) = IZR w) by (field; lra). destruct (Req_EM_T _ 0); [lra|]. now rewrite Z. }
  destruct E as (al & A & E). unfold ewm_com. rewrite E.
  assert (P : forall s, Forall nonneg s -> prep s = s).
  { intros t T. unfold prep. induction T as [|x t X T IH]; auto. cbn [map]. rewrite IH. now destruct x. }
  rewrite !P by auto. apply ewm_pair; auto; exact I.
Qed.
Definition rsi_cell (dn rs : xr) : xr := if feqb dn (fofZ 0) then fofZ 100 else fsub (fofZ 100) (fdiv (fofZ 100) (fadd (fofZ 1) rs)).
Definition pairs (a b : xr) : Prop := a = seen (Complement 100) b \/ (a = Fin 100 /\ b = Fin 100).
Lemma rsi_pair : forall u d, (u = NaN /\ d = NaN) \/ (nonneg u /\ nonneg d) -> pairs (rsi_cell u (fdiv d u)) (rsi_cell d (fdiv u d)).
Proof.
  intros u d [[-> ->]|[U D]]; [left; reflexivity|]. destruct u as [| | |u], d as [| | |d]; try contradiction. cbn in U, D. unfold pairs, rsi_cell.
  cbn. destruct (Req_EM_T u 0), (Req_EM_T d 0); cbn; auto.
  - left. assert (Z : 1 + u / d = 1) by (subst; unfold Rdiv; lra). rewrite Z. destruct (Req_EM_T 1 0); [lra|]. cbn. f_equal. lra.
  - left. assert (Z : 1 + d / u = 1) by (subst; unfold Rdiv; lra). rewrite Z. destruct (Req_EM_T 1 0); [lra|]. cbn. f_equal. lra.
  - left. assert (0 < u / d) by (apply Rdiv_lt_0_compat; lra). assert (0 < d / u) by (apply Rdiv_lt_0_compat; lra).
    destruct (Req_EM_T (1 + u / d) 0); [lra|]. destruct (Req_EM_T (1 + d / u) 0); [lra|]. cbn. f_equal. field. repeat split; lra.
Qed.

Lemma pairs_nan : forall a b, pairs a b -> fisnan a = fisnan b. Proof. intros a [| | |b] [->|[-> E]]; auto; discriminate. Qed.
Lemma pairs_inf : forall a b, pairs a b -> fisinf a = fisinf b. Proof. intros a [| | |b] [->|[-> E]]; auto; discriminate. Qed.
Lemma pairs_nan_nan : pairs NaN NaN. Proof. now left. Qed.
Lemma pairs_check : forall fl s s', Forall2 pairs s s' -> Forall2 pairs (check_fillna fl (FillInt 50) s) (check_fillna fl (FillInt 50) s').
Proof.
  intros fl s s' H. unfold check_fillna. destruct fl; auto. cbn [Z.eqb].
  assert (H1 : Forall2 pairs (replace_inf s) (replace_inf s')).
  { induction H; constructor; auto. rewrite (pairs_inf _ _ H). destruct (fisinf y); auto. apply pairs_nan_nan. }
  assert (H2 : forall a b, pairs a b -> Forall2 pairs (ffill_go a (replace_inf s)) (ffill_go b (replace_inf s'))).
  { clear H. induction H1; intros a b P; constructor; rewrite (pairs_nan _ _ H); destruct (fisnan y); auto. }
  pose proof (H2 NaN NaN pairs_nan_nan) as H3. change (Forall2 pairs (ffill (replace_inf s)) (ffill (replace_inf s'))) in H3.
  clear H H1 H2. induction H3; constructor; auto. rewrite (pairs_nan _ _ H). destruct (fisnan y); auto. left. cbn. f_equal. lra.
Qed.
Notation ups s := (map (fun d : xr => if fltb (fofZ 0) d then d else fofZ 0) s).
Notation downs s := (map (fun d : xr => fopp (if fltb d (fofZ 0) then d else fofZ 0)) s).
Lemma ups_n : forall s, ups (N s) = downs s.
Proof.
  intros. rewrite map_map. apply map_ext. intros x. rewrite <- n_zero at 1. rewrite n_ltb. destruct (fltb x _); auto. now rewrite n_zero.
Qed.
Lemma downs_n : forall s, downs (N s) = ups s.
Proof.
  intros. rewrite map_map. apply map_ext. intros x. rewrite <- n_zero at 1. rewrite n_ltb. destruct (fltb _ x); [apply n_inv|apply n_zero].
Qed.
Lemma ups_pos : forall s : list xr, Forall (fun x => fisinf x = false) s -> Forall nonneg (ups s).
Proof.
  intros s H. apply Forall_map. eapply Forall_impl; [|apply H]. intros [| | |x] X; try discriminate; cbn; try lra.
  destruct (Rlt_dec 0 x); cbn; lra.
Qed.
Lemma diff_noinf : forall s : list xr, Forall (fun x => fisinf x = false) s -> Forall (fun x => fisinf x = false) (diff1 s).
Proof.
  intros s H. unfold diff1, ssub, shift.
  assert (K : forall t, Forall (fun x : xr => fisinf x = false) t -> Forall (fun x => fisinf x = false) (map2 fsub s t)).
  { induction H as [|x s X H IH]; intros t T; [constructor|]. destruct T as [|y t Y T]; [constructor|]. cbn [map2]. constructor; [|now apply IH].
    destruct x, y; auto; discriminate. }
  apply K. unfold shift_fill. destruct (0 <=? 1)%Z; apply Forall_app; split.
  - apply Forall_forall. intros x I. apply repeat_spec in I. now subst.
  - rewrite <- (firstn_skipn (length s - Nat.min (Z.to_nat 1) (length s)) s) in H. apply Forall_app in H. apply H.
  - rewrite <- (firstn_skipn (Nat.min (Z.to_nat (-1)) (length s)) s) in H. apply Forall_app in H. apply H.
  - apply Forall_forall. intros x I. apply repeat_spec in I. now subst.
Qed.
Lemma rsi_runs : forall c w fl, Forall (fun x => fisinf x = false) c ->
  match rsi_run (N c) w fl, rsi_run c w fl with
  | Ok a, Ok b => Forall2 pairs a b
  | Raise e, Raise e' => e = e'
  | _, _ => False
  end.
Proof.
  intros c w fl H. unfold rsi_run. rewrite n_diff1, ups_n, downs_n.
  assert (P : Forall nonneg (ups (diff1 c))) by now apply ups_pos, diff_noinf.
  assert (Q : Forall nonneg (downs (diff1 c))). { rewrite <- ups_n. apply ups_pos. rewrite <- n_diff1. now apply diff_noinf, n_noinf. }
  pose proof (ewm_inv_pair w (minp_of fl w) (ups (diff1 c)) (downs (diff1 c)) P Q) as E. rewrite !map_length in E. specialize (E eq_refl).
  destruct (ewm_inv_alpha w (minp_of fl w) (downs (diff1 c))) as [d|e], (ewm_inv_alpha w (minp_of fl w) (ups (diff1 c))) as [u|e']; try contradiction; cbn [bind]; auto.
  unfold sdiv. clear P Q. induction E; cbn [map2]; constructor; auto. now apply rsi_pair.
Qed.
Theorem rsi_mirrors : forall w fl rows, Forall (fun b => b_close b <> PInf /\ b_close b <> NInf) rows ->
  match compute (Rsi w) fl (mirrored rows), compute (Rsi w) fl rows with
  | Ok a, Ok b => Forall2 (fun x y => x = seen (Complement 100) y \/ (x = Fin 100 /\ y = Fin 100)) a b
  | Raise e, Raise e' => e = e'
  | _, _ => False
  end.
Proof.
  intros w fl rows H. unfold compute.
  assert (Hc : map b_close (mirrored rows) = N (map b_close rows)). { unfold mirrored. rewrite !map_map. apply map_ext. intros b. symmetry. apply opp_opposite. }
  rewrite Hc. assert (K : Forall (fun x : xr => fisinf x = false) (map b_close rows)).
  { apply Forall_map. eapply Forall_impl; [|apply H]. intros b [B B']. destruct (b_close b); congruence || auto. }
  unfold rsi. pose proof (rsi_runs _ w fl K) as E. destruct (rsi_run (N _) w fl), (rsi_run (map b_close rows) w fl); try contradiction; cbn [rmap]; auto.
  now apply pairs_check.
Qed.
