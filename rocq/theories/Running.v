(** * Running: pandas updates rolling sums, means and standard deviations from
    row to row.  In exact arithmetic they are those of the window. *)
From Verif Require Import Lists Api Align Causal Rows.
Local Open Scope R_scope.

(** ** the rows of a window *)
Section Window.
Context {F : Type} {A : Arith F}.
(** the state before row i describes rows i-w .. i-1 *)
Definition before (w i : nat) (p : list F) : list F := skipn (i - w) (firstn i p).
Lemma window_before : forall w i (p : list F), window_at w i p = before w (S i) p.
Proof. reflexivity. Qed.
Lemma firstn_snoc : forall (p : list F) i d, (i < length p)%nat -> firstn (S i) p = firstn i p ++ [nth i p d].
Proof.
  induction p; intros i d H; cbn in H; [lia|]. destruct i; [reflexivity|]. cbn [nth]. rewrite !firstn_cons. cbn [app]. f_equal. apply IHp. lia.
Qed.
Lemma skipn_hd : forall (p : list F) i d, (i < length p)%nat -> skipn i p = nth i p d :: skipn (S i) p.
Proof. induction p; intros i d H; cbn in H; [lia|]. destruct i; [reflexivity|]. cbn [nth]. rewrite !skipn_cons. apply IHp. lia. Qed.
Lemma nth_gone : forall w (p : list F) i, (i < length p)%nat -> nth i (shift (Z.of_nat w) p) fnan = if (i <? w)%nat then fnan else nth (i - w) p fnan.
Proof.
  intros. unfold shift. destruct (Nat.ltb_spec i w); [apply nth_shift_fill_lt; lia|]. rewrite nth_shift_fill_ge by lia. now rewrite Nat2Z.id.
Qed.
(** one row: take out what leaves, put in what comes *)
Lemma run_nth : forall S put take (st : S) gone (s : list F) (P : nat -> S -> Prop) d, length gone = length s -> P 0%nat st ->
  (forall i q, (i < length s)%nat -> P i q -> P (Datatypes.S i) (put (nth i s fnan) (take (nth i gone fnan) q))) ->
  forall i, (i < length s)%nat -> P (Datatypes.S i) (nth i (run_go put take st gone s) d).
Proof.
  intros S put take st gone s. revert st gone. induction s as [|x s IH]; intros st gone P d L P0 PS i Hi; cbn in Hi; [lia|].
  destruct gone as [|g gone]; [discriminate|]. cbn [run_go]. destruct i; cbn [nth].
  - exact (PS 0%nat st ltac:(cbn; lia) P0).
  - apply (IH _ gone (fun k => P (Datatypes.S k))); [now injection L|exact (PS 0%nat st ltac:(cbn; lia) P0)| |lia].
    intros k q Hk. exact (PS (Datatypes.S k) q ltac:(cbn; lia)).
Qed.
Lemma run_follows : forall S put take (st : S) (Q : F -> Prop) (R : list F -> S -> Prop) w (p : list F) d, (1 <= w)%nat -> Forall Q p ->
  R [] st -> (forall l q x, (length l < w)%nat -> Q x -> R l q -> R (l ++ [x]) (put x q)) -> (forall l q x, (length l < w)%nat -> Q x -> R (x :: l) q -> R l (take x q)) ->
  (forall q, take fnan q = q) ->
  forall i, (i < length p)%nat -> R (window_at w i p) (nth i (run put take st w p) d).
Proof.
  intros S put take st Q R w p d Hw HQ R0 Rput Rtake Tn i Hi. rewrite Forall_forall in HQ.
  apply (run_nth S put take st _ p (fun k => R (before w k p))); auto; [apply len_shift|].
  intros k q Hk H. rewrite nth_gone by auto. unfold before in *. rewrite (firstn_snoc p k fnan) by auto.
  rewrite skipn_app, firstn_length. replace (Datatypes.S k - w - Nat.min k (length p))%nat with 0%nat by lia. cbn [skipn].
  apply Rput; [rewrite skipn_length, firstn_length; lia|now apply HQ, nth_In|]. destruct (Nat.ltb_spec k w).
  - rewrite Tn. replace (Datatypes.S k - w)%nat with 0%nat by lia. replace (k - w)%nat with 0%nat in H by lia. exact H.
  - apply Rtake; [rewrite skipn_length, firstn_length; lia|apply HQ, nth_In; lia|]. rewrite (skipn_hd _ _ fnan) in H by (rewrite firstn_length; lia). rewrite nth_firstn_lt in H by lia.
    now replace (Datatypes.S k - w)%nat with (Datatypes.S (k - w)) by lia.
Qed.
End Window.

(** ** exact arithmetic *)
Definition noinf (l : list xr) : Prop := Forall (fun x => fisinf x = false) l.
Lemma noinf_prep : forall s : list xr, noinf (prep s).
Proof. intros. apply Forall_map, Forall_forall. intros x _. now destruct x. Qed.
Fixpoint vals (l : list xr) : list R := match l with [] => [] | Fin r :: l' => r :: vals l' | _ :: l' => vals l' end.
Lemma vals_app : forall a b, vals (a ++ b) = vals a ++ vals b.
Proof. induction a as [|[| | |r] a IH]; intros; cbn [vals app]; rewrite ?IH; reflexivity. Qed.
Lemma obs_vals : forall l, noinf l -> obs l = map Fin (vals l).
Proof.
  induction l as [|[| | |r] l IH]; intros H; inversion H; subst; try discriminate; cbn; [reflexivity|now apply IH|]. f_equal. now apply IH.
Qed.
Lemma noinf_window : forall w i p, noinf p -> noinf (window_at w i p).
Proof. intros. now apply Forall_skipn, Forall_firstn. Qed.

Definition tot (l : list R) : R := fold_right Rplus 0 l.
Definition sq (l : list R) : R := fold_right (fun x a => x * x + a) 0 l.
Lemma tot_snoc : forall l x, tot (l ++ [x]) = tot l + x.
Proof. intros. unfold tot. rewrite fold_right_app. cbn. induction l; cbn; [ring|]. rewrite IHl. ring. Qed.
Lemma sq_snoc : forall l x, sq (l ++ [x]) = sq l + x * x.
Proof. intros. unfold sq. rewrite fold_right_app. cbn. induction l; cbn; [ring|]. rewrite IHl. ring. Qed.
Lemma fold_fin : forall l a, fold_left fadd (map Fin l) (Fin a) = Fin (a + tot l).
Proof. induction l; intros; cbn; [f_equal; ring|]. change (fold_left fadd (map Fin l) (Fin (a0 + a)) = Fin (a0 + (a + tot l))). rewrite IHl. f_equal. ring. Qed.
Lemma fsum_vals : forall l, fsum (map Fin l) = Fin (tot l).
Proof. intros. rewrite fsum_left. change (fofZ 0) with (Fin 0). rewrite fold_fin. f_equal. ring. Qed.

(** the running sum *)
Definition sums (l : list xr) (st : ksum) : Prop := st = mkksum (Fin (tot (vals l))) (Fin 0) (Fin 0).
Lemma sums_put : forall l q x, fisinf x = false -> sums l q -> sums (l ++ [x]) (sum_put x q).
Proof.
  intros l q x N H. unfold sums in *. subst q. rewrite vals_app. destruct x as [| | |r]; try discriminate; cbn [vals].
  - rewrite app_nil_r. reflexivity.
  - rewrite tot_snoc. cbv [sum_put fisnan XR xisnan k_add k_sum k_rem fsub fadd xsub xadd xopp]. f_equal; f_equal; ring.
Qed.
Lemma sums_take : forall l q x, fisinf x = false -> sums (x :: l) q -> sums l (sum_take x q).
Proof.
  intros l q x N H. unfold sums in *. subst q. destruct x as [| | |r]; try discriminate; cbn [vals tot fold_right]; [reflexivity|].
  cbv [sum_take fisnan XR xisnan k_add k_sum k_rem fsub fadd fopp xsub xadd xopp]. fold (tot (vals l)). f_equal; f_equal; ring.
Qed.

(** the running variance *)
Definition cnt (l : list R) : R := INR (length l).
Definition vars (l : list xr) (st : kvar) : Prop :=
  let o := vals l in
  st = mkkvar (length o) (Fin (tot o / cnt o)) (Fin (sq o - tot o * tot o / cnt o)) (Fin 0) (Fin 0).
Lemma nz : forall n, INR (S n) <> 0.
Proof. intros. rewrite S_INR. pose proof (pos_INR n). lra. Qed.
Lemma fofnat_S : forall n, @fofnat xr _ (S n) = Fin (INR (S n)).
Proof. intros. unfold fofnat. cbn [fofZ XR]. f_equal. now rewrite <- INR_IZR_INZ. Qed.
Lemma fdiv_S : forall a n, fdiv (Fin a) (Fin (INR (S n))) = Fin (a / INR (S n)).
Proof. intros. cbn [fdiv XR xdiv]. destruct (Req_EM_T _ _) as [E|]; auto. now apply nz in E. Qed.
Lemma vars_put : forall l q x, fisinf x = false -> vars l q -> vars (l ++ [x]) (var_put x q).
Proof.
  intros l q x N H. unfold vars in *. cbv zeta in *. subst q. rewrite vals_app. destruct x as [| | |r]; try discriminate; cbn [vals].
  { rewrite app_nil_r. reflexivity. }
  set (o := vals l). unfold cnt. rewrite app_length, tot_snoc, sq_snoc, Nat.add_1_r.
  unfold var_put. cbn [fisnan XR xisnan v_n v_mean v_ssq v_add v_rem]. cbv zeta. rewrite fofnat_S.
  cbn [fsub XR xsub xopp fadd xadd]. rewrite fdiv_S. cbn [XR fadd fsub xsub xadd xopp fmul xmul].
  pose proof (nz (length o)) as Z. f_equal; f_equal; try ring; destruct o as [|y o'] eqn:Eo.
  1,3: unfold tot, sq, Rdiv; cbn [fold_right length INR]; rewrite ?Rmult_0_l; field.
  all: rewrite <- Eo in *; pose proof (nz (length o')) as Z'; replace (length o) with (S (length o')) in * by (rewrite Eo; reflexivity);
       rewrite (S_INR (S _)) in *; field; auto.
Qed.
Lemma vars_take : forall l q x, fisinf x = false -> vars (x :: l) q -> vars l (var_take x q).
Proof.
  intros l q x N H. unfold vars in *. cbv zeta in *. subst q. destruct x as [| | |r]; try discriminate; cbn [vals]; [reflexivity|].
  set (o := vals l). unfold var_take. cbn [fisnan XR xisnan v_n v_mean v_ssq v_add v_rem length pred].
  destruct o as [|y o'] eqn:Eo.
  - cbn. f_equal; f_equal; unfold cnt; cbn; unfold Rdiv; ring.
  - rewrite <- Eo in *. assert (E : length o = S (length o')) by (rewrite Eo; reflexivity). rewrite E. cbv zeta. rewrite fofnat_S.
    cbn [fsub XR xsub xopp fadd xadd]. rewrite fdiv_S. cbn [XR fadd fsub xsub xadd xopp fmul xmul]. unfold cnt. cbn [length]. rewrite E.
    change (tot (r :: o)) with (r + tot o). change (sq (r :: o)) with (r * r + sq o).
    pose proof (nz (length o')) as Z. pose proof (nz (S (length o'))) as Z'. rewrite (S_INR (S _)) in *.
    f_equal; f_equal; try ring; field; auto.
Qed.

(** ** the clamps do nothing *)
Lemma tot_nonneg : forall l, Forall (fun x => 0 <= x) l -> 0 <= tot l.
Proof. induction 1; cbn; [lra|]. fold (tot l). lra. Qed.
Lemma tot_neg : forall l, Forall (fun x => x < 0) l -> tot l <= 0.
Proof. induction 1; cbn; [lra|]. fold (tot l). lra. Qed.
Lemma signbit_fin : forall r, signbit (Fin r) = if Rlt_dec r 0 then true else false.
Proof.
  intros. unfold signbit. cbn [fltb fofZ XR xltb feqb xeqb]. change (IZR 0) with 0. destruct (Rlt_dec r 0); auto. cbn [orb].
  destruct (Req_EM_T r 0) as [->|]; auto. cbn. destruct (Req_EM_T 0 0); [|lra]. unfold rsign. destruct (Rlt_dec 0 1); [reflexivity|lra].
Qed.
Lemma none_neg : forall l, length (filter signbit (map Fin l)) = 0%nat -> Forall (fun x => 0 <= x) l.
Proof.
  induction l; intros H; [constructor|]. cbn [map filter] in H. rewrite signbit_fin in H. destruct (Rlt_dec a 0); [discriminate|].
  constructor; [lra|]. now apply IHl.
Qed.
Lemma filter_le : forall (l : list xr), (length (filter signbit l) <= length l)%nat.
Proof. induction l; cbn; [auto|]. destruct (signbit a); cbn; lia. Qed.
Lemma all_neg : forall l, length (filter signbit (map Fin l)) = length (map Fin l) -> Forall (fun x => x < 0) l.
Proof.
  induction l; intros H; [constructor|]. cbn [map filter length] in H. rewrite signbit_fin in H.
  destruct (Rlt_dec a 0); [constructor; [auto|apply IHl; cbn in H; lia]|]. pose proof (filter_le (map Fin l)). lia.
Qed.
Lemma dev_sum : forall l m, tot (map (fun x => (x - m) * (x - m)) l) = sq l - 2 * m * tot l + INR (length l) * (m * m).
Proof.
  induction l; intros; [cbn; ring|]. cbn [map length]. rewrite S_INR. change (tot ((a - m) * (a - m) :: map (fun x => (x - m) * (x - m)) l)) with ((a - m) * (a - m) + tot (map (fun x => (x - m) * (x - m)) l)).
  rewrite IHl. change (tot (a :: l)) with (a + tot l). change (sq (a :: l)) with (a * a + sq l). ring.
Qed.
Lemma dev_pos : forall l m, 0 <= tot (map (fun x => (x - m) * (x - m)) l).
Proof. intros. apply tot_nonneg, Forall_map, Forall_forall. intros. apply Rle_0_sqr. Qed.

Lemma run_sums : forall w i p, noinf p -> (1 <= w)%nat -> (i < length p)%nat ->
  sums (window_at w i p) (nth i (run sum_put sum_take sum_start w p) sum_start).
Proof.
  intros w i p N Hw Hi. apply (run_follows _ sum_put sum_take sum_start (fun x => fisinf x = false) sums); auto using sums_put, sums_take. reflexivity.
Qed.
Lemma run_vars : forall w i p, noinf p -> (1 <= w)%nat -> (i < length p)%nat ->
  vars (window_at w i p) (nth i (run var_put var_take var_start w p) var_start).
Proof.
  intros w i p N Hw Hi. apply (run_follows _ var_put var_take var_start (fun x => fisinf x = false) vars); auto using vars_put, vars_take.
  unfold vars, var_start. cbn. f_equal; f_equal; unfold Rdiv; ring.
Qed.

Lemma empty_window : forall i (p : list xr), window_at 0 i p = [].
Proof. intros. unfold window_at. apply skipn_all2. rewrite firstn_length. lia. Qed.
Lemma calc_window : forall agg w m i p, noinf p -> (i < length p)%nat -> calc_row agg w m i p = win_agg agg m (window_at w i p).
Proof.
  intros agg w m i p N Hi. destruct w as [|w].
  { destruct agg; cbn [calc_row win_agg]; rewrite empty_window; [| | |reflexivity];
    unfold calc_sum, calc_mean, calc_std0, win_sum, win_mean, win_std0; cbn [obs filter length]; rewrite ?fsum_left; now destruct (0 <? m)%nat. }
  pose proof (noinf_window (S w) i p N) as Nw. pose proof (run_sums (S w) i p N ltac:(lia) Hi) as Es.
  pose proof (run_vars (S w) i p N ltac:(lia) Hi) as Ev. set (win := window_at (S w) i p) in *.
  destruct agg; cbn [calc_row win_agg]; auto; unfold sums, vars in *; cbv zeta in *; fold win.
  - rewrite Es. unfold calc_sum, win_sum. rewrite obs_vals by auto. destruct (_ <? _)%nat; auto. rewrite map_length, fsum_vals.
    destruct (vals win); reflexivity.
  - rewrite Es. unfold calc_mean, win_mean. rewrite obs_vals by auto. set (o := vals win). destruct (_ || _)%bool eqn:E; auto.
    apply orb_false_iff in E as [_ E]. apply Nat.eqb_neq in E. rewrite map_length in *. cbn [k_sum]. rewrite fsum_vals.
    destruct (length o) as [|k] eqn:Ek; [lia|]. rewrite fofnat_S, fdiv_S. pose proof (nz k). pose proof (pos_INR (S k)). assert (P : 0 < / INR (S k)) by (apply Rinv_0_lt_compat; lra).
    destruct (_ =? 0)%nat eqn:E0; cbn [andb].
    + apply Nat.eqb_eq, none_neg, tot_nonneg in E0. cbn [fltb XR xltb fofZ]. destruct (Rlt_dec _ _) as [C|]; [unfold Rdiv in C; nra|].
      destruct (_ =? S k)%nat eqn:E1; auto. rewrite <- Ek, <- (map_length Fin o) in E1. apply Nat.eqb_eq, all_neg, tot_neg in E1.
      destruct (Rlt_dec _ _) as [C|]; [unfold Rdiv in C; nra|reflexivity].
    + destruct (_ =? S k)%nat eqn:E1; auto. rewrite <- Ek, <- (map_length Fin o) in E1. apply Nat.eqb_eq, all_neg, tot_neg in E1.
      cbn [fltb XR xltb fofZ andb]. destruct (Rlt_dec _ _) as [C|]; [unfold Rdiv in C; nra|reflexivity].
  - rewrite Ev. unfold calc_std0, win_std0. rewrite obs_vals by auto. set (o := vals win). destruct (_ || _)%bool eqn:E; auto.
    apply orb_false_iff in E as [_ E]. apply Nat.eqb_neq in E. rewrite map_length in *. cbn [v_ssq]. rewrite fsum_vals.
    destruct (length o) as [|k] eqn:Ek; [lia|]. rewrite fofnat_S, !fdiv_S. cbv zeta.
    set (m0 := tot o / INR (S k)). rewrite map_map.
    assert (D : fsum (map (fun x => fmul (fsub (Fin x) (Fin m0)) (fsub (Fin x) (Fin m0))) o) = Fin (sq o - tot o * tot o / INR (S k))).
    { rewrite (map_ext _ (fun x => Fin ((x - m0) * (x - m0)))) by reflexivity. rewrite <- (map_map (fun x => (x - m0) * (x - m0)) Fin), fsum_vals, dev_sum, Ek.
      f_equal. unfold m0. pose proof (nz k). field. auto. }
    rewrite D, fdiv_S. unfold cnt. rewrite Ek.
    assert (P : 0 <= (sq o - tot o * tot o / INR (S k)) / INR (S k)).
    { pose proof (nz k). pose proof (pos_INR (S k)). apply Rmult_le_pos; [|apply Rlt_le, Rinv_0_lt_compat; lra].
      pose proof (dev_pos o m0) as Q. rewrite dev_sum, Ek in Q. unfold m0 in Q.
      replace (sq o - tot o * tot o / INR (S k)) with (sq o - 2 * (tot o / INR (S k)) * tot o + INR (S k) * (tot o / INR (S k) * (tot o / INR (S k)))) by (field; auto). exact Q. }
    destruct k as [|k].
    + cbn [Nat.eqb]. destruct o as [|x [|]]; try discriminate.
      replace ((sq [x] - tot [x] * tot [x] / INR 1) / INR 1) with 0 by (cbn; field).
      cbn [fltb fofZ XR xltb]. destruct (Rlt_dec 0 0); [lra|reflexivity].
    + cbn [Nat.eqb]. cbn [fltb fofZ XR xltb]. destruct (Rlt_dec _ _); [lra|reflexivity].
Qed.

(** On exact numbers, missing ones included, the running aggregations are those
    of the window. *)
Theorem roll_rows_xr : forall w m agg p, noinf p -> roll_rows w m agg p = map (fun i => win_agg agg m (window_at w i p)) (seq 0 (length p)).
Proof.
  intros w m agg p N. apply list_eq_nth with (d := fnan); [now rewrite len_roll_rows, map_length, seq_length|].
  rewrite len_roll_rows. intros i Hi.
  assert (R : nth i (roll_rows w m agg p) fnan = calc_row agg w m i p).
  { destruct agg; cbn [roll_rows calc_row].
    1,2: rewrite nth_map2 with (da := 0%nat) (db := sum_start) by (rewrite ?seq_length, ?len_run; lia); now rewrite seq_nth.
    - rewrite nth_map2 with (da := 0%nat) (db := var_start) by (rewrite ?seq_length, ?len_run; lia). now rewrite seq_nth.
    - rewrite nth_indep with (d' := g m (window_at w 0 p)) by (rewrite map_length, seq_length; auto).
      rewrite map_nth with (f := fun i => g m (window_at w i p)). now rewrite seq_nth. }
  rewrite R, calc_window by auto. rewrite nth_indep with (d' := win_agg agg m (window_at w 0 p)) by (rewrite map_length, seq_length; auto).
  rewrite map_nth with (f := fun i => win_agg agg m (window_at w i p)). now rewrite seq_nth.
Qed.
Theorem rolling_xr : forall w m agg (s : list xr), rolling w m agg s =
  if (m <? 0)%Z || (w <? m)%Z || (w <? 0)%Z then Raise ValueError
  else Ok (map (fun i => win_agg agg (Z.to_nat m) (window_at (Z.to_nat w) i (prep s))) (seq 0 (length s))).
Proof. intros. unfold rolling. destruct (_ || _)%bool; auto. now rewrite roll_rows_xr, len_prep by apply noinf_prep. Qed.
Lemma nth_rolling_xr : forall w m agg (s r : list xr) i d, rolling w m agg s = Ok r -> (i < length s)%nat ->
  nth i r d = win_agg agg (Z.to_nat m) (window_at (Z.to_nat w) i (prep s)).
Proof. intros. rewrite (nth_rolling_row _ _ _ _ _ _ _ H) by auto. apply calc_window; [apply noinf_prep|now rewrite len_prep]. Qed.

Global Instance windowed_xr : Windowed xr.
Proof. intros agg w m i s H. apply calc_window; [apply noinf_prep|now rewrite len_prep]. Qed.
