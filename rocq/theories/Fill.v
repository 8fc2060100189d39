(** * Fill: gap filling (C06, C07, C08). *)
From Verif Require Import Lists Api SpecCausal Align Rows SpecFill.

Section Fill.
Context {F : Type} {A : Arith F} {L : ArithLaws F}.

Lemma fin_not_nan : forall x : F, ffinite x = true -> fisnan x = false.
Proof. unfold ffinite. intros x H. apply andb_prop in H as [H _]. now apply negb_true_iff in H. Qed.
Lemma fin_not_inf : forall x : F, ffinite x = true -> fisinf x = false.
Proof. unfold ffinite. intros x H. apply andb_prop in H as [_ H]. now apply negb_true_iff in H. Qed.
Lemma ffinite_nan : ffinite (fnan : F) = false.
Proof. unfold ffinite. now rewrite isnan_nan. Qed.

Definition rinf (x : F) : F := if fisinf x then fnan else x.
Lemma rinf_nan : forall x, fisnan (rinf x) = negb (ffinite x).
Proof.
  intros. unfold rinf, ffinite. destruct (fisinf x) eqn:E.
  - rewrite isnan_nan. now destruct (fisnan x).
  - now destruct (fisnan x).
Qed.
Lemma rinf_fin : forall x, ffinite x = true -> rinf x = x.
Proof. intros. unfold rinf. now rewrite fin_not_inf. Qed.

(** the constant fill as one pass *)
Fixpoint fill_go (last : F) (s : list F) : list F :=
  match s with
  | [] => []
  | x :: r => let y := if ffinite x then x else last in y :: fill_go y r
  end.

Lemma fill_const_go : forall v (s : list F) a, fisnan v = false ->
  map (fun x => if fisnan x then v else x) (ffill_go a (replace_inf s)) =
  fill_go (if fisnan a then v else a) s.
Proof.
  induction s; intros; cbn; auto. fold (rinf a). rewrite rinf_nan.
  destruct (ffinite a) eqn:E; cbn [negb].
  - rewrite rinf_fin by auto. rewrite (fin_not_nan a) by auto. f_equal.
    rewrite IHs by auto. now rewrite (fin_not_nan a) by auto.
  - f_equal. rewrite IHs by auto. now destruct (fisnan a0).
Qed.

Lemma check_const : forall z (s : list F), (z =? -1)%Z = false -> (-1000 <= z <= 1000)%Z ->
  check_fillna true (FillInt z) s = fill_go (fofZ z) s.
Proof.
  intros. unfold check_fillna, fillna_const, ffill. rewrite H.
  rewrite fill_const_go by (apply isnan_small; auto). now rewrite isnan_nan.
Qed.

Lemma len_fill_go : forall (s : list F) a, length (fill_go a s) = length s.
Proof. induction s; cbn; auto. Qed.

Lemma fill_go_filled : forall (s : list F) v, filled_with v s (fill_go v s).
Proof.
  intros. split; [apply len_fill_go|]. revert v.
  induction s as [|x s IH]; intros v [|i] Hi; cbn in Hi; try lia; cbn.
  - reflexivity.
  - rewrite IH by lia. destruct i; reflexivity.
Qed.

Lemma fill_go_finite : forall (s : list F) v, ffinite v = true -> Forall (fun x => ffinite x = true) (fill_go v s).
Proof. induction s; cbn; intros; constructor; auto; destruct (ffinite a) eqn:E; auto. Qed.

Lemma ffinite_small : forall z, (-1000 <= z <= 1000)%Z -> ffinite (fofZ z : F) = true.
Proof. intros. unfold ffinite. now rewrite isnan_small, isinf_small by auto. Qed.

Lemma check_const_finite : forall z (s : list F), (z =? -1)%Z = false -> (-1000 <= z <= 1000)%Z ->
  Forall (fun x => ffinite x = true) (check_fillna true (FillInt z) s).
Proof. intros. rewrite check_const by auto. apply fill_go_finite, ffinite_small; auto. Qed.

Lemma check_const_filled : forall z (s : list F), (z =? -1)%Z = false -> (-1000 <= z <= 1000)%Z ->
  filled_with (fofZ z) s (check_fillna true (FillInt z) s).
Proof. intros. rewrite check_const by auto. apply fill_go_filled. Qed.

(** backward *)
Lemma check_back : forall s : list F, check_fillna true (FillInt (-1)) s = bfill (ffill (replace_inf s)).
Proof. reflexivity. Qed.

Lemma bfill_known : forall (s : list F), Forall (fun x => fisnan x = false) s -> bfill s = s.
Proof. induction 1; cbn; auto. now rewrite H, IHForall. Qed.
Lemma ffill_go_known : forall (s : list F) a, fisnan a = false ->
  ffill_go a (replace_inf s) = fill_go a s /\ Forall (fun x => fisnan x = false) (ffill_go a (replace_inf s)).
Proof.
  induction s; intros; cbn; [split; auto|]. fold (rinf a). rewrite rinf_nan.
  destruct (ffinite a) eqn:E; cbn [negb].
  - rewrite rinf_fin by auto. destruct (IHs a) as [E1 E2]; [now apply fin_not_nan|].
    unfold replace_inf in E1, E2. split; [now rewrite E1|constructor; auto; now apply fin_not_nan].
  - destruct (IHs a0) as [E1 E2]; auto. unfold replace_inf in E1, E2. split; [now rewrite E1|constructor; auto].
Qed.

(** no finite value: nothing is filled; otherwise the leading gap takes the
    first finite value *)
Lemma back_split : forall s : list F,
  ((forall k, k < length s -> ffinite (nth k s fnan) = false) /\
   bfill (ffill (replace_inf s)) = repeat fnan (length s)) \/
  (exists p x r, s = p ++ x :: r /\ ffinite x = true /\ Forall (fun y => ffinite y = false) p /\
   bfill (ffill (replace_inf s)) = repeat x (length p) ++ x :: fill_go x r).
Proof.
  unfold ffill. induction s as [|y s IH].
  - left. split; [intros; cbn in *; lia|reflexivity].
  - cbn [replace_inf map ffill_go bfill]. fold (rinf y). change (map _ s) with (replace_inf s).
    rewrite rinf_nan. destruct (ffinite y) eqn:E; cbn [negb].
    + right. exists [], y, s. rewrite rinf_fin by auto.
      destruct (ffill_go_known s y (fin_not_nan _ E)) as [E1 E2].
      repeat split; auto. cbn. rewrite (fin_not_nan _ E), bfill_known by auto. now rewrite E1.
    + rewrite isnan_nan. destruct IH as [[H1 H2]|(p & x & r & -> & Hx & Hp & H2)].
      * left. split.
        -- intros [|k] Hk; cbn in *; auto. apply H1. lia.
        -- rewrite H2. cbn. f_equal. destruct s; reflexivity.
      * right. exists (y :: p), x, r. repeat split; auto.
        rewrite H2. cbn. f_equal. destruct p; reflexivity.
Qed.

Lemma back_filled : forall s : list F, filled_backward s (check_fillna true (FillInt (-1)) s).
Proof.
  intros s. rewrite check_back. destruct (back_split s) as [[H ->]|(p & x & r & -> & Hx & Hp & ->)].
  - split; [apply repeat_length|]. split; [intros i Hi E; rewrite H in E by lia; discriminate|].
    split; [intros i j Hj E; rewrite H in E by lia; discriminate|].
    split; [intros i j Hj E; rewrite H in E by lia; discriminate|].
    intros _ i Hi. now rewrite nth_repeat_lt.
  - assert (G : forall i, i < length p -> ffinite (nth i (p ++ x :: r) fnan) = false).
    { intros. rewrite app_nth1 by auto. rewrite Forall_forall in Hp. apply Hp, nth_In; auto. }
    destruct (fill_go_filled (x :: r) x) as [_ FG]. cbn [fill_go] in FG. rewrite Hx in FG.
    split; [rewrite !app_length, repeat_length; cbn; now rewrite len_fill_go|].
    rewrite app_length. cbn [length].
    assert (R : forall i, length p <= i -> nth i (repeat x (length p) ++ x :: fill_go x r) fnan =
                nth (i - length p) (x :: fill_go x r) fnan)
      by (intros; rewrite app_nth2 by (rewrite repeat_length; auto); now rewrite repeat_length).
    assert (R' : forall i, length p <= i -> nth i (p ++ x :: r) fnan = nth (i - length p) (x :: r) fnan)
      by (intros; now rewrite app_nth2).
    split; [|split; [|split]].
    + intros i Hi E. destruct (Nat.lt_ge_cases i (length p)); [rewrite G in E by auto; discriminate|].
      rewrite R by auto. rewrite R' in * by auto. rewrite FG by (cbn; lia). now rewrite E.
    + intros i j Hj Ej Ei. destruct (Nat.lt_ge_cases j (length p)); [rewrite G in Ej by auto; discriminate|].
      rewrite !R by lia. rewrite R' in Ei by lia. rewrite FG by (cbn; lia). rewrite Ei.
      destruct (i - length p) eqn:D; [lia|]. now replace (i - 1 - length p) with n by lia.
    + intros i j Hj Ej Hk.
      assert (j = length p).
      { destruct (Nat.lt_trichotomy j (length p)) as [|[|]]; auto.
        - rewrite G in Ej by auto. discriminate.
        - specialize (Hk (length p) H). rewrite R', Nat.sub_diag in Hk by auto. cbn in Hk. congruence. }
      subst j. rewrite R', Nat.sub_diag by auto. cbn [nth].
      rewrite app_nth1 by (rewrite repeat_length; lia). apply nth_repeat_lt. lia.
    + intros H. specialize (H (length p) ltac:(lia)). rewrite R', Nat.sub_diag in H by auto. cbn in H. congruence.
Qed.

(** a finite raw row is kept by every kind of filling *)
Lemma check_keeps : forall z (s : list F) i, (-1000 <= z <= 1000)%Z -> i < length s ->
  ffinite (nth i s fnan) = true -> nth i (check_fillna true (FillInt z) s) fnan = nth i s fnan.
Proof.
  intros z s i Hz Hi E. destruct (z =? -1)%Z eqn:Ez.
  - apply Z.eqb_eq in Ez. subst. destruct (back_filled s) as (_ & H & _). auto.
  - destruct (check_const_filled z s Ez Hz) as [_ H]. rewrite H by auto. now rewrite E.
Qed.

Lemma filled_finite : forall v (raw out : list F), filled_with v raw out -> ffinite v = true ->
  forall i, i < length out -> ffinite (nth i out fnan) = true.
Proof.
  intros v raw out [Hl H] Hv. induction i; intros Hi; rewrite H by lia;
    destruct (ffinite (nth _ raw _)) eqn:E; auto. apply IHi. lia.
Qed.

(** C06 *)
Lemma fill_const_finite : forall (ind : indicator F) v rows out, fill_value ind = Some v ->
  compute ind true rows = Ok out -> Forall (fun x => ffinite x = true) out.
Proof.
  intros ind v rows out Hv H.
  assert (C : forall z (s : list F), In z [0; 1; 20; 50; -50; 1000]%Z ->
     Forall (fun x => ffinite x = true) (fillna_const (fofZ z) (ffill (replace_inf s)))).
  { intros z s Hz. assert (E : (z =? -1)%Z = false /\ (-1000 <= z <= 1000)%Z).
    { cbn in Hz. repeat (destruct Hz as [<-|Hz]; [split; [reflexivity|lia]|]). contradiction. }
    destruct E as [E1 E2]. pose proof (check_const_finite z s E1 E2) as G.
    unfold check_fillna in G. now rewrite E1 in G. }
  destruct ind; try discriminate Hv; cbn [compute] in H;
    try (cbn [fill_value] in Hv; destruct (Z.eqb_spec offset 0); [subst offset|discriminate Hv]);
    unf_ind; inv_ok; try (apply C; cbn; tauto).
  refine (C 1000%Z (fofZ 1000 :: nvi_go (fofZ 1000) (tl (pct_change (f :: l))) _ _) _).
  cbn; tauto.
Qed.

(** C07: the flag only fills *)
Lemma flag_free_ok : forall (ind : indicator F) rows raw, flag_free ind = true ->
  compute ind false rows = Ok raw ->
  exists v, compute ind true rows = Ok (check_fillna true (FillInt v) raw) /\
    v = match fill_value ind with Some v => v | None => (-1)%Z end.
Proof.
  intros ind rows raw Hf H.
  destruct ind; try discriminate Hf; eexists; (split; [|reflexivity]); cbn [compute fill_value] in *.
  all: unfold roc, wma, adx, adx_pos, adx_neg, average_true_range, ulcer_index, acc_dist_index,
    on_balance_volume, ease_of_movement, daily_return, daily_log_return,
    psar, psar_up, psar_down in *; cbn [check_fillna] in H.
  all: try (injection H as <-; reflexivity).
  all: try (revert H; repeat match goal with
     |- context [bind ?m _] => destruct m; cbn [bind]; [|discriminate]
     end; intros H; try (injection H as <-; reflexivity)).
  all: try (destruct (_ <=? _); [discriminate H|]; injection H as <-; reflexivity).
  - unfold ichimoku_b, ichimoku_run in *. cbn [flag_free] in Hf. apply andb_prop in Hf as [H1 H2].
    apply Z.leb_le in H1, H2. cbn [minp_of] in *.
    rewrite !rolling_ok in H by lia. rewrite !rolling_ok by lia. cbn [bind] in *.
    destruct (rolling window3 0 agg_max _); cbn [bind] in *; [|discriminate].
    destruct (rolling window3 0 agg_min _); cbn [bind] in *; [|discriminate].
    injection H as <-. reflexivity.
  - destruct (_ <=? _)%Z; [destruct (_ <? _)%Z|destruct (_ <? _)]; try discriminate;
    injection H as <-; reflexivity.
  - unfold volume_price_trend in *. cbn [flag_free] in Hf.
    destruct smoothing_factor; [rewrite Hf in *|]; cbn [bind check_fillna] in *;
      injection H as <-; reflexivity.
  - unfold negative_volume_index in *. destruct (map b_close rows); [discriminate|].
    cbn [check_fillna] in H. injection H as <-. reflexivity.
  - unfold cumulative_return in *. destruct (map b_close rows); [discriminate|].
    cbn [check_fillna] in H. injection H as <-. reflexivity.
Qed.

Lemma fill_value_range : forall (ind : indicator F) v, fill_value ind = Some v ->
  (v =? -1)%Z = false /\ (-1000 <= v <= 1000)%Z.
Proof.
  intros ind v H. destruct ind; cbn in H; try discriminate H;
    try (destruct (offset =? 0)%Z; [|discriminate H]);
    injection H as <-; split; try reflexivity; lia.
Qed.

Lemma flag_free_filled : forall (ind : indicator F) rows raw, flag_free ind = true ->
  compute ind false rows = Ok raw ->
  exists out, compute ind true rows = Ok out /\
    match fill_value ind with
    | Some v => filled_with (fofZ v) raw out
    | None => filled_backward raw out
    end.
Proof.
  intros ind rows raw Hf H. destruct (flag_free_ok ind rows raw Hf H) as (v & H1 & Hv).
  exists (check_fillna true (FillInt v) raw). split; auto.
  destruct (fill_value ind) as [u|] eqn:E; subst v.
  - destruct (fill_value_range ind u E). now apply check_const_filled.
  - apply back_filled.
Qed.

(** C08: [le l m]: every row of [l] is missing or equal to that of [m] *)
Definition le (l m : list F) : Prop := Forall2 (fun x y => x = fnan \/ x = y) l m.

Lemma le_refl : forall l, le l l.
Proof. induction l; constructor; auto. Qed.
Lemma le_len : forall l m, le l m -> length l = length m.
Proof. induction 1; cbn; auto. Qed.
Lemma le_nth : forall l m i, le l m -> nth i l fnan = fnan \/ nth i l fnan = nth i m fnan.
Proof. intros l m i H. revert i. induction H; intros [|i]; cbn; auto. Qed.
Lemma le_intro : forall l m, length l = length m ->
  (forall i, i < length l -> nth i l fnan = fnan \/ nth i l fnan = nth i m fnan) -> le l m.
Proof.
  induction l; destruct m; cbn; intros Hl H; try discriminate; constructor.
  - apply (H 0). lia.
  - apply IHl; [lia|]. intros i Hi. apply (H (S i)). lia.
Qed.

Lemma le_map2 : forall (f : F -> F -> F) l l' m m',
  (forall x, f fnan x = fnan) -> (forall x, f x fnan = fnan) ->
  le l l' -> le m m' -> le (map2 f l m) (map2 f l' m').
Proof.
  intros f l l' m m' H1 H2 Hl. revert m m'. induction Hl; intros m m' Hm; [constructor|].
  destruct Hm; cbn; constructor; [|apply IHHl; auto].
  destruct H as [->| ->]; [rewrite H1; auto|]. destruct H0 as [->| ->]; [rewrite H2|]; auto.
Qed.
Lemma le_map : forall (f : F -> F) l l', f fnan = fnan -> le l l' -> le (map f l) (map f l').
Proof.
  intros f l l' H Hl. induction Hl; cbn; constructor; auto.
  destruct H0 as [->| ->]; [rewrite H|]; auto.
Qed.
Lemma le_sadd : forall l l' m m', le l l' -> le m m' -> le (sadd l m) (sadd l' m').
Proof. intros; apply le_map2; auto using add_nan_l', add_nan_r'. Qed.
Lemma le_ssub : forall l l' m m', le l l' -> le m m' -> le (ssub l m) (ssub l' m').
Proof. intros; apply le_map2; auto using sub_nan_l', sub_nan_r'. Qed.
Lemma le_smul : forall l l' m m', le l l' -> le m m' -> le (smul l m) (smul l' m').
Proof. intros; apply le_map2; auto using mul_nan_l', mul_nan_r'. Qed.
Lemma le_sdiv : forall l l' m m', le l l' -> le m m' -> le (sdiv l m) (sdiv l' m').
Proof. intros; apply le_map2; auto using div_nan_l', div_nan_r'. Qed.
Lemma le_scal : forall c l l', le l l' -> le (scal c l) (scal c l').
Proof. intros; apply le_map; auto using mul_nan_r'. Qed.
Lemma le_divs : forall c l l', le l l' -> le (divs l c) (divs l' c).
Proof. intros; apply le_map; auto using div_nan_l'. Qed.
Lemma le_muls : forall c l l', le l l' -> le (muls l c) (muls l' c).
Proof. intros; apply le_map; auto using mul_nan_l'. Qed.
Lemma le_subs : forall c l l', le l l' -> le (subs l c) (subs l' c).
Proof. intros; apply le_map; auto using sub_nan_l'. Qed.
Lemma le_fabs : forall l l', le l l' -> le (map fabs l) (map fabs l').
Proof. intros; apply le_map; auto using abs_nan'. Qed.

Lemma nth_prep' : forall (s : list F) i, nth i (prep s) fnan = rinf (nth i s fnan).
Proof.
  intros. unfold prep. rewrite <- (map_nth rinf). f_equal. unfold rinf. now rewrite isinf_nan.
Qed.

(** aggregations that need [m] observations and otherwise do not look at [m] *)
Definition agg_std (agg : @aggregation F) : Prop := forall m win,
  (length (obs win) < m -> win_agg agg m win = fnan) /\ (m <= length (obs win) -> win_agg agg m win = win_agg agg 0 win).
Lemma std_sum : agg_std agg_sum.
Proof.
  intros m win. cbn [win_agg agg_max agg_min]. unfold win_sum. split; intros H.
  - now rewrite (proj2 (Nat.ltb_lt _ _)).
  - now rewrite (proj2 (Nat.ltb_ge _ _)).
Qed.
Lemma std_mean : agg_std agg_mean.
Proof.
  intros m win. cbn [win_agg agg_max agg_min]. unfold win_mean. split; intros H.
  - now rewrite (proj2 (Nat.ltb_lt _ _)).
  - now rewrite (proj2 (Nat.ltb_ge _ _)).
Qed.
Lemma std_std : agg_std agg_std0.
Proof.
  intros m win. cbn [win_agg agg_max agg_min]. unfold win_std0. split; intros H.
  - now rewrite (proj2 (Nat.ltb_lt _ _)).
  - now rewrite (proj2 (Nat.ltb_ge _ _)).
Qed.
Lemma std_max : agg_std agg_max.
Proof.
  intros m win. cbn [win_agg agg_max agg_min]. unfold win_max. split; intros H.
  - now rewrite (proj2 (Nat.ltb_lt _ _)).
  - now rewrite (proj2 (Nat.ltb_ge _ _)).
Qed.
Lemma std_min : agg_std agg_min.
Proof.
  intros m win. cbn [win_agg agg_max agg_min]. unfold win_min. split; intros H.
  - now rewrite (proj2 (Nat.ltb_lt _ _)).
  - now rewrite (proj2 (Nat.ltb_ge _ _)).
Qed.
Lemma std_apply : forall g, agg_std (agg_apply g).
Proof.
  intros g m win. cbn [win_agg agg_apply]. unfold win_apply. split; intros H.
  - now rewrite (proj2 (Nat.leb_gt _ _)).
  - now rewrite (proj2 (Nat.leb_le _ _)).
Qed.

Lemma obs_full : forall (l : list F), length (obs l) = length l -> Forall (fun x => fisnan x = false) l.
Proof.
  induction l; intros; constructor; unfold obs in *; cbn in H.
  - destruct (fisnan a); auto. cbn in H. pose proof (length_obs l). unfold obs in H0. lia.
  - destruct (negb (fisnan a)); cbn in H; [apply IHl; lia|].
    pose proof (length_obs l). unfold obs in H0. lia.
Qed.

(** the last step: a refined raw series, filled *)
Lemma stable_le : forall l m, le l m -> stable l m.
Proof.
  intros l m H i Hi E. destruct (le_nth l m i H) as [E'|E']; [|auto].
  rewrite E', ffinite_nan in E. discriminate.
Qed.
(** full windows: any refinement of the input gives a refinement of the result *)
Lemma full_window : forall w s t i, length s = length t -> stable s t -> i < length s ->
  w <= length (obs (window_at w i (prep s))) -> window_at w i (prep s) = window_at w i (prep t).
Proof.
  intros w s t i Ls Hst Hi Hge. set (win := window_at w i (prep s)) in *.
  assert (Lw : length win = Nat.min w (S i)) by (apply length_window_at; rewrite len_prep; lia).
  pose proof (length_obs win). apply list_eq_nth with fnan.
  - subst win. rewrite !length_window_at by (rewrite len_prep; lia). reflexivity.
  - intros j Hj. assert (Hn : fisnan (nth j win fnan) = false).
    { assert (FA := obs_full win ltac:(lia)). rewrite Forall_forall in FA. apply FA, nth_In; auto. }
    revert Hn. subst win. rewrite !window_at_nth by (rewrite ?len_prep; lia).
    rewrite !nth_prep'. rewrite rinf_nan. intros Hn. apply negb_false_iff in Hn.
    rewrite <- (Hst (S i - w + j)); auto. lia.
Qed.

Lemma rolling_minp : forall w m agg (s r : list F), rolling w m agg s = Ok r -> (0 <= m <= w)%Z.
Proof.
  unfold rolling. intros w m agg s r H.
  destruct (Z.ltb_spec m 0); [discriminate|]. destruct (Z.ltb_spec w m); [discriminate|]. lia.
Qed.

Lemma le_rolling_stable : forall w m agg s t r r', windowwise agg -> agg_std agg -> length s = length t -> stable s t ->
  rolling w w agg s = Ok r -> rolling w m agg t = Ok r' -> le r r'.
Proof.
  intros w m agg s t r r' Hl Ha Ls Hst Hr Hr'. assert (Hm := rolling_minp _ _ _ _ _ Hr').
  assert (Lr := len_rolling _ _ _ _ _ Hr).
  assert (Lr' := len_rolling _ _ _ _ _ Hr').
  apply le_intro; [lia|]. intros i Hi.
  rewrite (nth_windowwise _ _ _ _ _ _ _ Hl Hr), (nth_windowwise _ _ _ _ _ _ _ Hl Hr') by lia.
  set (win := window_at (Z.to_nat w) i (prep s)).
  destruct (Nat.lt_ge_cases (length (obs win)) (Z.to_nat w)) as [Hlt|Hge].
  - left. now apply Ha.
  - right. rewrite <- (full_window _ s t) by (auto; lia). fold win.
    rewrite (proj2 (Ha (Z.to_nat w) win)) by lia.
    now rewrite (proj2 (Ha (Z.to_nat m) win)) by lia.
Qed.
Lemma le_rolling_full : forall w m agg s t r r', windowwise agg -> agg_std agg -> le s t ->
  rolling w w agg s = Ok r -> rolling w m agg t = Ok r' -> le r r'.
Proof. intros. eapply (le_rolling_stable w m agg s t); eauto using le_len, stable_le. Qed.
(** same input, fewer required observations: running aggregations too *)
Lemma le_rolling_same : forall w m agg s r r', agg_std agg ->
  rolling w w agg s = Ok r -> rolling w m agg s = Ok r' -> le r r'.
Proof.
  intros w m agg s r r' Ha Hr Hr'. destruct agg as [| | |g]; [| | |now apply (le_rolling_full w m (by_window g) s s); auto using le_refl; right].
  all: assert (Hm := rolling_minp _ _ _ _ _ Hr'); assert (Lr := len_rolling _ _ _ _ _ Hr);
    assert (Lr' := len_rolling _ _ _ _ _ Hr'); apply le_intro; [lia|]; intros i Hi;
    rewrite (nth_rolling_row _ _ _ _ _ _ _ Hr), (nth_rolling_row _ _ _ _ _ _ _ Hr') by lia;
    cbn [calc_row]; unfold calc_sum, calc_mean, calc_std0;
    set (o := obs _); destruct (Nat.ltb_spec (length o) (Z.to_nat w)); auto;
    right; now rewrite (proj2 (Nat.ltb_ge (length o) (Z.to_nat m))) by lia.
Qed.

(** a series minus something that needs its whole window *)
Lemma le_sub_window : forall w m s t r r', length s = length t -> stable s t ->
  rolling w w agg_min s = Ok r -> rolling w m agg_min t = Ok r' -> le (ssub s r) (ssub t r').
Proof.
  intros w m s t r r' Ls Hst Hr Hr'. assert (Hm := rolling_minp _ _ _ _ _ Hr').
  assert (Lr := len_rolling _ _ _ _ _ Hr). assert (Lr' := len_rolling _ _ _ _ _ Hr').
  pose proof (le_rolling_stable w m agg_min s t r r' (or_intror I) std_min Ls Hst Hr Hr') as Hle.
  apply le_intro; unfold ssub; [rewrite !length_map2; lia|]. rewrite length_map2. intros i Hi.
  rewrite !(nth_map2 fsub) with (da := fnan) (db := fnan) by lia.
  destruct (le_nth r r' i Hle) as [E|E]; [left; rewrite E; apply sub_nan_r'|].
  destruct (fisnan (nth i r fnan)) eqn:En.
  { left. rewrite (nan_unique _ En). apply sub_nan_r'. }
  right. rewrite E. f_equal.
  rewrite (nth_windowwise _ _ _ _ _ _ _ (or_intror I : windowwise agg_min) Hr) in En by lia.
  set (win := window_at (Z.to_nat w) i (prep s)) in *.
  destruct (Nat.lt_ge_cases (length (obs win)) (Z.to_nat w)) as [Hlt|Hge].
  { rewrite (proj1 (std_min _ _) Hlt), isnan_nan in En. discriminate. }
  destruct (Nat.eq_dec (Z.to_nat w) 0) as [E0|E0].
  { subst win. rewrite E0 in En. unfold window_at in En. rewrite Nat.sub_0_r in En.
    rewrite skipn_all2 in En by (rewrite firstn_length; lia). cbn in En. rewrite isnan_nan in En. discriminate. }
  assert (Lw : length win = Nat.min (Z.to_nat w) (S i)) by (apply length_window_at; rewrite len_prep; lia).
  pose proof (length_obs win). assert (FA := obs_full win ltac:(lia)). rewrite Forall_forall in FA.
  symmetry. apply Hst; [lia|].
  assert (Hin : In (nth (Z.to_nat w - 1) win fnan) win) by (apply nth_In; lia). apply FA in Hin. clear FA.
  rename Hin into FA.
  subst win. rewrite window_at_nth in FA by (rewrite ?len_prep; lia).
  replace (S i - Z.to_nat w + (Z.to_nat w - 1)) with i in FA by lia.
  rewrite nth_prep', rinf_nan in FA. now apply negb_false_iff in FA.
Qed.

(** same input, fewer required observations *)
Lemma le_ewm_go : forall s al m m' n a o, m' <= m ->
  le (ewm_go al m n a o s) (ewm_go al m' n a o s).
Proof.
  induction s; intros; cbn [ewm_go]; [constructor|].
  destruct (if negb (fisnan a0) then _ else _) as [a' o']. constructor; [|apply IHs; auto].
  destruct (Nat.leb_spec m (if negb (fisnan a) then S n else n)); auto.
  rewrite (proj2 (Nat.leb_le m' _)) by lia. auto.
Qed.
Lemma le_ewm_span : forall w m m' s r r', (m' <= m)%Z -> ewm_span w m s = Ok r ->
  ewm_span w m' s = Ok r' -> le r r'.
Proof.
  unfold ewm_span. intros. destruct (_ <? _)%Z; [discriminate|]. injection H0 as <-. injection H1 as <-.
  apply le_ewm_go. lia.
Qed.
Lemma le_ewm_inv : forall w m m' s r r', (m' <= m)%Z -> ewm_inv_alpha w m s = Ok r ->
  ewm_inv_alpha w m' s = Ok r' -> le r r'.
Proof.
  unfold ewm_inv_alpha. intros. destruct (_ =? _)%Z; [discriminate|]. destruct (_ <? _)%Z; [discriminate|].
  injection H0 as <-. injection H1 as <-. apply le_ewm_go. lia.
Qed.

Lemma stable_check : forall z l m, (-1000 <= z <= 1000)%Z -> le l m ->
  stable (check_fillna false (FillInt z) l) (check_fillna true (FillInt z) m).
Proof.
  intros z l m Hz H i Hi E. change (check_fillna false (FillInt z) l) with l in *. pose proof (le_len _ _ H).
  assert (E2 : nth i m fnan = nth i l fnan) by (apply (stable_le _ _ H); auto).
  rewrite check_keeps; auto; [congruence|]. now rewrite E2.
Qed.
Lemma le_check : forall z l m, (-1000 <= z <= 1000)%Z -> le l m ->
  Forall (fun x => fisinf x = false) l ->
  le (check_fillna false (FillInt z) l) (check_fillna true (FillInt z) m).
Proof.
  intros z l m Hz H Hf. change (check_fillna false (FillInt z) l) with l. apply le_intro.
  - rewrite (le_len _ _ H). symmetry. exact (len_check true z m).
  - intros i Hi. destruct (ffinite (nth i l fnan)) eqn:E.
    + right. symmetry. apply (stable_check z l m Hz H); auto.
    + left. apply nan_unique. rewrite Forall_forall in Hf. specialize (Hf (nth i l fnan) (nth_In _ _ Hi)).
      unfold ffinite in E. rewrite Hf in E. destruct (fisnan (nth i l fnan)); auto.
Qed.
End Fill.
