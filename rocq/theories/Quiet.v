(** * Quiet: missing rows at the start, any data, any arithmetic (C10). *)
From Coq Require Import Lia.
From Verif Require Import Lists Api SpecQuiet.
Local Open Scope f_scope.

Section Quiet.
Context {F : Type} {A : Arith F} {L : ArithLaws F}.


Lemma quiet_le : forall j k s, (j <= k)%nat -> quiet k s -> quiet j s.
Proof. intros j k s H Q i Hi. apply Q. lia. Qed.
Lemma quiet_0 : forall s, quiet 0 s.
Proof. intros s i Hi. lia. Qed.
Lemma nth_nan : forall s i, (length s <= i)%nat -> fisnan (nth i s fnan) = true.
Proof. intros s i H. rewrite nth_overflow by exact H. apply isnan_nan. Qed.
Lemma nan_hd : forall s, fisnan (nth 0 s fnan) = true -> match s with x :: _ => fisnan x = true | [] => True end.
Proof. intros [|x s] H; auto. Qed.

Lemma quiet_map : forall (f : F -> F) k s, (forall x, fisnan x = true -> fisnan (f x) = true) -> quiet k s -> quiet k (map f s).
Proof.
  intros f k s N Q i Hi. destruct (Nat.lt_ge_cases i (length s)) as [H|H].
  - rewrite (nth_indep _ fnan (f fnan)) by (rewrite map_length; exact H). rewrite map_nth. apply N, Q, Hi.
  - apply nth_nan. rewrite map_length. exact H.
Qed.
Lemma quiet_map2 : forall (f : F -> F -> F) k s t,
  (forall i, (i < k)%nat -> fisnan (f (nth i s fnan) (nth i t fnan)) = true) -> quiet k (map2 f s t).
Proof.
  intros f k. induction k as [|k IH]; intros s t N i Hi; [lia|]. destruct s as [|x s]; [destruct i; apply isnan_nan|].
  destruct t as [|y t]; [destruct i; apply isnan_nan|]. destruct i as [|i]; [exact (N 0%nat Hi)|]. cbn [map2 nth].
  apply (IH s t); [|lia]. intros j Hj. apply (N (S j)). lia.
Qed.
Lemma quiet_add_l : forall k s t, quiet k s -> quiet k (sadd s t).
Proof. intros k s t Q. apply quiet_map2. intros i Hi. apply add_nan_l, Q, Hi. Qed.
Lemma quiet_add_r : forall k s t, quiet k t -> quiet k (sadd s t).
Proof. intros k s t Q. apply quiet_map2. intros i Hi. apply add_nan_r, Q, Hi. Qed.
Lemma quiet_sub_l : forall k s t, quiet k s -> quiet k (ssub s t).
Proof. intros k s t Q. apply quiet_map2. intros i Hi. apply sub_nan_l, Q, Hi. Qed.
Lemma quiet_sub_r : forall k s t, quiet k t -> quiet k (ssub s t).
Proof. intros k s t Q. apply quiet_map2. intros i Hi. apply sub_nan_r, Q, Hi. Qed.
Lemma quiet_mul_l : forall k s t, quiet k s -> quiet k (smul s t).
Proof. intros k s t Q. apply quiet_map2. intros i Hi. apply mul_nan_l, Q, Hi. Qed.
Lemma quiet_div_l : forall k s t, quiet k s -> quiet k (sdiv s t).
Proof. intros k s t Q. apply quiet_map2. intros i Hi. apply div_nan_l, Q, Hi. Qed.
Lemma quiet_div_r : forall k s t, quiet k t -> quiet k (sdiv s t).
Proof. intros k s t Q. apply quiet_map2. intros i Hi. apply div_nan_r, Q, Hi. Qed.
Lemma quiet_max2 : forall (f : F -> F -> F) a b s t, (forall x y, fisnan x = true -> fisnan (f x y) = true) ->
  (forall x y, fisnan y = true -> fisnan (f x y) = true) -> quiet a s -> quiet b t -> quiet (Nat.max a b) (map2 f s t).
Proof.
  intros f a b s t N M Q R. apply quiet_map2. intros i Hi. destruct (Nat.lt_ge_cases i a) as [H|H]; [apply N, Q, H|].
  apply M, R. lia.
Qed.
Lemma quiet_add2 : forall a b s t, quiet a s -> quiet b t -> quiet (Nat.max a b) (sadd s t).
Proof. intros. apply quiet_max2; auto; [apply add_nan_l|apply add_nan_r]. Qed.
Lemma quiet_sub2 : forall a b s t, quiet a s -> quiet b t -> quiet (Nat.max a b) (ssub s t).
Proof. intros. apply quiet_max2; auto; [apply sub_nan_l|apply sub_nan_r]. Qed.
Lemma quiet_div2 : forall a b s t, quiet a s -> quiet b t -> quiet (Nat.max a b) (sdiv s t).
Proof. intros. apply quiet_max2; auto; [apply div_nan_l|apply div_nan_r]. Qed.
Lemma quiet_mul2 : forall a b s t, quiet a s -> quiet b t -> quiet (Nat.max a b) (smul s t).
Proof. intros. apply quiet_max2; auto; [apply mul_nan_l|apply mul_nan_r]. Qed.
Lemma quiet_scal : forall k c s, quiet k s -> quiet k (scal c s).
Proof. intros. apply quiet_map; auto. intros x. apply mul_nan_r. Qed.
Lemma quiet_muls : forall k c s, quiet k s -> quiet k (muls s c).
Proof. intros. apply quiet_map; auto. intros x. apply mul_nan_l. Qed.
Lemma quiet_divs : forall k c s, quiet k s -> quiet k (divs s c).
Proof. intros. apply quiet_map; auto. intros x. apply div_nan_l. Qed.
Lemma quiet_subs : forall k c s, quiet k s -> quiet k (subs s c).
Proof. intros. apply quiet_map; auto. intros x. apply sub_nan_l. Qed.
Lemma quiet_prep : forall k s, quiet k s -> quiet k (prep s).
Proof. intros. apply quiet_map; auto. intros x H1. destruct (fisinf x); [apply isnan_nan|exact H1]. Qed.
Lemma quiet_abs : forall k s, quiet k s -> quiet k (map fabs s).
Proof. intros. apply quiet_map; auto. intros x H1. rewrite abs_nan. exact H1. Qed.

(** shift k rows down *)
Lemma quiet_shift : forall j k s, quiet k s -> quiet (j + k) (shift (Z.of_nat j) s).
Proof.
  intros j k s Q i Hi. unfold shift, shift_fill. destruct (Z.leb_spec 0 (Z.of_nat j)); [|lia].
  rewrite Nat2Z.id. set (m := Nat.min j (length s)). destruct (Nat.lt_ge_cases i m) as [H1|H1].
  - rewrite app_nth1 by (rewrite repeat_length; exact H1). rewrite nth_repeat_any. apply isnan_nan.
  - rewrite app_nth2 by (rewrite repeat_length; exact H1). rewrite repeat_length.
    destruct (Nat.lt_ge_cases (i - m) (length s - m)) as [H2|H2].
    + rewrite nth_firstn_lt by exact H2. destruct (Nat.lt_ge_cases (length s) j); [subst m; lia|].
      replace m with j by (subst m; lia). apply Q. lia.
    + apply nth_nan. rewrite firstn_length. lia.
Qed.
Lemma quiet_shift1 : forall s, quiet 1 (shift 1 s).
Proof. intros s. apply (quiet_shift 1 0 s (quiet_0 s)). Qed.
Lemma quiet_shift_fill : forall j k v s, quiet k s -> forall i, (j <= i < j + k)%nat -> fisnan (nth i (shift_fill (Z.of_nat j) v s) fnan) = true.
Proof.
  intros j k v s Q i Hi. unfold shift_fill. destruct (Z.leb_spec 0 (Z.of_nat j)); [|lia].
  rewrite Nat2Z.id. set (m := Nat.min j (length s)).
  rewrite app_nth2 by (rewrite repeat_length; subst m; lia). rewrite repeat_length.
  destruct (Nat.lt_ge_cases (i - m) (length s - m)) as [H2|H2].
  - rewrite nth_firstn_lt by exact H2. destruct (Nat.lt_ge_cases (length s) j); [subst m; lia|].
    replace m with j by (subst m; lia). apply Q. lia.
  - apply nth_nan. rewrite firstn_length. lia.
Qed.
Lemma quiet_diff1 : forall s, quiet 1 (diff1 s).
Proof. intros s. apply quiet_sub_r, quiet_shift1. Qed.

(** observations in the rows up to i *)
Lemma obs_quiet : forall s k i, quiet k s -> (length (obs (firstn (S i) s)) <= S i - k)%nat.
Proof.
  intros s. induction s as [|x s IH]; intros k i Q; [cbn; lia|]. unfold obs. cbn [firstn filter].
  assert (Q' : quiet (pred k) s) by (intros j Hj; apply (Q (S j)); lia).
  assert (len : (length (obs (firstn i s)) <= i - pred k)%nat).
  { destruct i as [|i]; [cbn; lia|]. apply (IH (pred k) i Q'). }
  destruct k as [|k].
  - destruct (negb (fisnan x)); cbn [length]; fold (obs (firstn i s)); cbn [pred] in len; lia.
  - pose proof (Q 0%nat ltac:(lia)) as X. cbn [nth] in X. rewrite X. cbn [negb]. fold (obs (firstn i s)). cbn [pred] in len. lia.
Qed.
Lemma obs_skipn : forall s k, (length (obs (skipn k s)) <= length (obs s))%nat.
Proof.
  induction s as [|x s IH]; intros [|k]; cbn [skipn]; auto. specialize (IH k). unfold obs in *. cbn [filter].
  destruct (negb (fisnan x)); cbn [length]; lia.
Qed.
Lemma obs_window : forall s k w i, quiet k s -> (length (obs (window_at w i s)) <= S i - k)%nat.
Proof. intros s k w i Q. unfold window_at. pose proof (obs_skipn (firstn (S i) s) (S i - w)). pose proof (obs_quiet s k i Q). lia. Qed.

Inductive counts : aggregation -> Prop :=
| counts_sum : counts agg_sum | counts_mean : counts agg_mean | counts_std : counts agg_std0
| counts_max : counts agg_max | counts_min : counts agg_min | counts_apply g : counts (agg_apply g).

Lemma nth_map2_seq : forall {B} (f : nat -> B -> F) n (l : list B) a i, (i < n)%nat ->
  (exists st, nth i (map2 f (seq a n) l) fnan = f (a + i)%nat st) \/ nth i (map2 f (seq a n) l) fnan = fnan.
Proof.
  intros B f n. induction n as [|n IH]; intros l a i Hi; [lia|]. cbn [seq map2]. destruct l as [|y l]; [right; destruct i; reflexivity|].
  destruct i as [|i]; [left; exists y; rewrite Nat.add_0_r; reflexivity|]. cbn [nth].
  destruct (IH l (S a) i ltac:(lia)) as [[st E]|E]; [left; exists st; rewrite E; f_equal; lia|right; exact E].
Qed.

Lemma nth_map_seq : forall (f : nat -> F) n i, (i < n)%nat -> nth i (map f (seq 0 n)) fnan = f i.
Proof.
  intros f n i H. rewrite (nth_indep _ fnan (f 0%nat)) by (rewrite map_length, seq_length; exact H).
  rewrite map_nth, seq_nth by exact H. reflexivity.
Qed.

(** A row of a rolling aggregation with fewer than minp observations. *)
Lemma quiet_rolling : forall w minp agg s out k, counts agg -> quiet k s -> (1 <= minp)%Z -> rolling w minp agg s = Ok out ->
  quiet (k + Z.to_nat minp - 1) out.
Proof.
  intros w minp agg s out k C Q M E i Hi. unfold rolling in E. destruct (_ || _); [discriminate E|]. injection E as <-.
  pose proof (obs_window (prep s) k (Z.to_nat w) i (quiet_prep k s Q)) as O.
  assert (m : (length (obs (window_at (Z.to_nat w) i (prep s))) <? Z.to_nat minp) = true) by (apply Nat.ltb_lt; lia).
  assert (m' : (Z.to_nat minp <=? length (obs (window_at (Z.to_nat w) i (prep s)))) = false) by (apply Nat.leb_gt; lia).
  destruct (Nat.lt_ge_cases i (length (prep s))) as [H|H].
  2:{ apply nth_nan. destruct C; cbn [roll_rows agg_max agg_min agg_apply]; rewrite ?map_length, ?length_map2, seq_length; lia. }
  destruct C; cbn [roll_rows agg_max agg_min agg_apply].
  1-3: match goal with |- context [map2 ?f (seq 0 ?n) ?l] => destruct (nth_map2_seq f n l 0 i H) as [[st ->]| ->]; [|apply isnan_nan] end;
       cbn [Nat.add]; unfold calc_sum, calc_mean, calc_std0; rewrite m; apply isnan_nan.
  all: rewrite nth_map_seq by exact H; unfold win_max, win_min, win_apply; rewrite ?m, ?m'; apply isnan_nan.
Qed.
(** A mean needs one observation, whatever min_periods. *)
Lemma quiet_mean : forall w minp s out k, quiet k s -> rolling w minp agg_mean s = Ok out -> quiet k out.
Proof.
  intros w minp s out k Q E i Hi. unfold rolling in E. destruct (_ || _); [discriminate E|]. injection E as <-.
  pose proof (obs_window (prep s) k (Z.to_nat w) i (quiet_prep k s Q)) as O.
  assert (m : (length (obs (window_at (Z.to_nat w) i (prep s))) =? 0) = true) by (apply Nat.eqb_eq; lia).
  destruct (Nat.lt_ge_cases i (length (prep s))) as [H|H].
  2:{ apply nth_nan. cbn [roll_rows]; rewrite ?length_map2, seq_length; lia. }
  cbn [roll_rows]. match goal with |- context [map2 ?f (seq 0 ?n) ?l] => destruct (nth_map2_seq f n l 0 i H) as [[st ->]| ->]; [|apply isnan_nan] end.
  cbn [Nat.add]. unfold calc_mean. rewrite m, Bool.orb_true_r. apply isnan_nan.
Qed.

Lemma quiet_ewm_go : forall alpha minp s nobs avg oldw k, quiet k s -> (nobs < minp)%nat ->
  quiet (k + (minp - nobs) - 1) (ewm_go alpha minp nobs avg oldw s) .
Proof.
  intros alpha minp s. induction s as [|x s IH]; intros nobs avg oldw k Q LT i Hi; [destruct i; apply isnan_nan|].
  cbn [ewm_go]. cbv zeta. match goal with |- context [let '(_, _) := ?p in _] => destruct p as [avg' oldw'] end.
  assert (Q' : quiet (pred k) s) by (intros j Hj; apply (Q (S j)); lia).
  assert (X : (0 < k)%nat -> negb (fisnan x) = false) by (intros H; pose proof (Q 0%nat H) as Y; cbn [nth] in Y; rewrite Y; reflexivity).
  destruct i as [|i]; cbn [nth].
  - match goal with |- context [if ?c then _ else _] => destruct c eqn:E end; [|apply isnan_nan].
    apply Nat.leb_le in E. exfalso. destruct k as [|k]; [revert E; destruct (negb (fisnan x)); lia|]. rewrite X in E by lia. lia.
  - refine (IH _ _ _ (pred k) Q' _ i _).
    + destruct k as [|k]; [destruct (negb (fisnan x)); lia|]. rewrite X by lia. lia.
    + destruct k as [|k]; [destruct (negb (fisnan x)); cbn [pred]; lia|]. rewrite X by lia. cbn [pred]. lia.
Qed.
Lemma quiet_ewm_com : forall com minp s k, quiet k s -> (1 <= minp)%Z -> quiet (k + Z.to_nat (minp - 1)) (ewm_com com minp s).
Proof.
  intros com minp s k Q M. unfold ewm_com. eapply quiet_le; [|apply quiet_ewm_go; [apply quiet_prep, Q|lia]]. lia.
Qed.
Lemma quiet_ewm_span : forall span minp s out k, quiet k s -> (1 <= minp)%Z -> ewm_span span minp s = Ok out ->
  quiet (k + Z.to_nat (minp - 1)) out.
Proof. intros span minp s out k Q M E. unfold ewm_span in E. destruct (_ <? _)%Z; [discriminate E|]. injection E as <-. apply quiet_ewm_com; auto. Qed.
Lemma quiet_ewm_inv : forall w minp s out k, quiet k s -> (1 <= minp)%Z -> ewm_inv_alpha w minp s = Ok out ->
  quiet (k + Z.to_nat (minp - 1)) out.
Proof.
  intros w minp s out k Q M E. unfold ewm_inv_alpha in E. destruct (_ =? _)%Z; [discriminate E|]. destruct (_ <? _)%Z; [discriminate E|].
  injection E as <-. apply quiet_ewm_com; auto.
Qed.
Lemma quiet_ema : forall w s out k, quiet k s -> (1 <= w)%Z -> ema_ s w false = Ok out -> quiet (k + Z.to_nat (w - 1)) out.
Proof. intros w s out k Q M E. exact (quiet_ewm_span w w s out k Q M E). Qed.
Lemma quiet_cumsum_go : forall s acc k, quiet k s -> quiet k (cumsum_go acc s).
Proof.
  induction s as [|x s IH]; intros acc k Q i Hi; [destruct i; apply isnan_nan|]. cbn [cumsum_go].
  pose proof (Q 0%nat ltac:(lia)) as X. cbn [nth] in X. rewrite X. destruct i as [|i]; [apply isnan_nan|]. cbn [nth].
  apply (IH acc (pred k)); [intros j Hj; apply (Q (S j)); lia|lia].
Qed.
Lemma quiet_cumsum : forall s k, quiet k s -> quiet k (cumsum s).
Proof. intros. apply quiet_cumsum_go. auto. Qed.
Lemma quiet_kama_go : forall sc close first prev k, quiet k sc -> quiet k (kama_go sc close first prev).
Proof.
  induction sc as [|x sc IH]; intros close first prev k Q i Hi; [destruct i; apply isnan_nan|].
  destruct close as [|c close]; [destruct i; apply isnan_nan|]. cbn [kama_go].
  pose proof (Q 0%nat ltac:(lia)) as X. cbn [nth] in X. rewrite X. destruct i as [|i]; [apply isnan_nan|]. cbn [nth].
  apply (IH close first fnan (pred k)); [intros j Hj; apply (Q (S j)); lia|lia].
Qed.

(** The rules above, applied to the goal and to the steps of a computation. *)
Ltac q :=
  first [ eassumption | apply quiet_shift1 | apply quiet_diff1
        | eapply quiet_scal; q | eapply quiet_muls; q | eapply quiet_divs; q | eapply quiet_subs; q | eapply quiet_abs; q
        | eapply quiet_sub2; [q|q] | eapply quiet_add2; [q|q] | eapply quiet_div2; [q|q] | eapply quiet_mul2; [q|q]
        | eapply quiet_cumsum; q | apply quiet_0 ].
Ltac fwd1 E :=
  lazymatch type of E with
  | rolling _ _ _ _ = Ok _ => eapply quiet_rolling in E; [ | constructor | q | lia ]
  | ema_ _ _ false = Ok _ => eapply quiet_ema in E; [ | q | lia ]
  | ewm_span _ _ _ = Ok _ => eapply quiet_ewm_span in E; [ | q | lia ]
  | ewm_inv_alpha _ _ _ = Ok _ => eapply quiet_ewm_inv in E; [ | q | lia ]
  | _ => idtac
  end.
Ltac unbind H :=
  repeat match type of H with
  | bind ?m _ = Ok _ => let E := fresh "E" in destruct m eqn:E; cbn [bind] in H; [|discriminate H]; try fwd1 E
  | (let (_, _) := ?p in _) = Ok _ => destruct p
  end.
Ltac done H := injection H as <-; cbn [check_fillna]; eapply quiet_le; [|q]; lia.

Lemma q_rsi_run : forall c w out, (1 <= w)%Z -> rsi_run c w false = Ok out -> quiet (Z.to_nat (w - 1)) out.
Proof.
  intros c w out W H. unfold rsi_run in H. cbn [minp_of] in H. unbind H. injection H as <-.
  apply quiet_map2. intros i Hi.
  assert (N : fisnan (nth i a0 fnan) = true) by (apply E0; lia). rewrite (eqb_nan_l _ _ N).
  apply sub_nan_r, div_nan_r, add_nan_r. apply (quiet_div_r _ a a0 E0). lia.
Qed.
Lemma q_rsi : forall c w out, (1 <= w)%Z -> rsi c w false = Ok out -> quiet (Z.to_nat (w - 1)) out.
Proof.
  intros c w out W H. unfold rsi, rmap in H. destruct (rsi_run c w false) eqn:E; [|discriminate H].
  injection H as <-. exact (q_rsi_run c w _ W E).
Qed.

Section Runs.
Variables (h l c v : list F).
Lemma q_tsi : forall (s f : Z) out, (1 <= s)%Z -> (1 <= f)%Z -> tsi c s f false = Ok out -> quiet (Z.to_nat (s + f - 1)) out.
Proof.
  intros s f out S1 F1 H. unfold tsi, rmap in H. destruct (tsi_run c s f false) eqn:E; [|discriminate H]. injection H as <-.
  unfold tsi_run in E. cbn [minp_of] in E. unbind E. done E.
Qed.
Lemma quiet_bp : quiet 1 (ssub c (map2 npmin2 l (shift 1 c))).
Proof.
  apply quiet_sub_r, quiet_map2. intros i Hi. unfold npmin2. rewrite (quiet_shift1 c i Hi).
  destruct (fisnan (nth i l fnan)) eqn:E; [exact E|]. apply quiet_shift1. exact Hi.
Qed.
Lemma q_uo : forall w1 w2 w3 k1 k2 k3 out, (1 <= w1)%Z -> (1 <= w2)%Z -> (1 <= w3)%Z ->
  ultimate_oscillator h l c w1 w2 w3 k1 k2 k3 false = Ok out -> quiet (Z.to_nat (Z.max w1 (Z.max w2 w3))) out.
Proof.
  intros w1 w2 w3 k1 k2 k3 out W1 W2 W3 H. pose proof quiet_bp as B. unfold ultimate_oscillator, rmap in H.
  destruct (uo_run _ _ _ _ _ _ _ _ _ _) eqn:E; [|discriminate H]. injection H as <-.
  unfold uo_run in E. cbn [minp_of] in E. unbind E. done E.
Qed.
Lemma q_stoch_run : forall w out, (1 <= w)%Z -> stoch_run h l c w false = Ok out -> quiet (Z.to_nat (w - 1)) out.
Proof. intros w out W H. unfold stoch_run in H. cbn [minp_of] in H. unbind H. done H. Qed.
Lemma q_kama : forall w p r out, (1 <= w)%Z -> kama c w p r false = Ok out -> quiet (Z.to_nat (w - 1)) out.
Proof.
  intros w p r out W H. unfold kama, rmap in H. destruct (kama_run c w p r false) eqn:E; [|discriminate H]. injection H as <-.
  unfold kama_run in E. destruct (kama_sc c w p r false) eqn:E1; [|discriminate E]. cbn [bind] in E. injection E as <-.
  unfold kama_sc in E1. cbn [minp_of] in E1. unbind E1. destruct (_ || _); [discriminate E1|]. injection E1 as <-.
  apply quiet_kama_go, quiet_map.
  - intros x X. apply mul_nan_l, add_nan_l, mul_nan_l, X.
  - apply quiet_map2. intros i Hi. assert (N : fisnan (nth i a fnan) = true) by (apply E; lia).
    rewrite (eqb_nan_l _ _ N). cbn [negb]. apply div_nan_r, N.
Qed.
Lemma q_stochrsi_run : forall (w s1 : Z) a b, (1 <= w)%Z -> stochrsi_run c w s1 false = Ok (a, b) ->
  quiet (Z.to_nat (2 * (w - 1))) a /\ ((1 <= s1)%Z -> quiet (Z.to_nat (2 * (w - 1) + (s1 - 1))) b).
Proof.
  intros w s1 a b W H. unfold stochrsi_run in H.
  destruct (rsi c w false) eqn:E; [|discriminate H]. cbn [bind] in H. apply q_rsi in E; [|exact W].
  destruct (rolling w w agg_min a0) eqn:E0; [|discriminate H]. cbn [bind] in H.
  destruct (rolling w w agg_max a0) eqn:E1; [|discriminate H]. cbn [bind] in H. cbv zeta in H.
  destruct (rolling s1 s1 _ _) eqn:E2; [|discriminate H]. cbn [bind] in H.
  eapply quiet_rolling in E0; [|constructor|q|lia]. eapply quiet_rolling in E1; [|constructor|q|lia].
  injection H as <- <-. split; [eapply quiet_le; [|q]; lia|]. intros S1.
  eapply quiet_rolling in E2; [|constructor|q|lia]. eapply quiet_le; [|exact E2]. lia.
Qed.

(** PSAR: the loop starts at row 2. *)
Lemma upd_off : forall (s : list F) j i x, i <> j -> nth i (upd j x s) fnan = nth i s fnan.
Proof.
  induction s as [|y s IH]; intros [|j] [|i] x N; cbn [upd nth]; try reflexivity; [congruence|]. apply IH. congruence.
Qed.
Lemma quiet_psar : forall st mx js ps, Forall (fun j => (2 <= j)%nat) js -> quiet 2 (ps_up ps) -> quiet 2 (ps_down ps) ->
  quiet 2 (ps_up (fold_left (psar_step h l st mx) js ps)) /\ quiet 2 (ps_down (fold_left (psar_step h l st mx) js ps)).
Proof.
  intros st mx js. induction js as [|j js IH]; intros ps J U D; [split; assumption|]. cbn [fold_left].
  inversion J as [|? ? J1 J2]; subst. apply IH; [exact J2| |]; clear IH; unfold psar_step;
    cbv zeta; match goal with |- context [match ?p with _ => _ end] => destruct p as [[[[r ?] ?] ?] [? ?]] end;
    cbn [ps_up ps_down]; destruct (xorb (ps_up_trend ps) r); try assumption; intros i Hi; rewrite upd_off by lia; auto.
Qed.
Lemma quiet_repeat : forall k n, quiet k (repeat (fnan : F) n).
Proof. intros k n i _. rewrite nth_repeat_any. apply isnan_nan. Qed.
Lemma q_psar : forall b st mx ps, psar_run h l c b st mx = Ok ps -> quiet 2 (ps_up ps) /\ quiet 2 (ps_down ps).
Proof.
  intros b st mx ps H. unfold psar_run in H. 
  assert (E : ps = fold_left (psar_step h l st mx) (seq 2 (length c - 2)) (psar_init h l c b st)) by (destruct h; [discriminate H|injection H as <-; reflexivity]).
  rewrite E. apply quiet_psar; [apply Forall_forall; intros j Hj; apply in_seq in Hj; lia| |]; apply quiet_repeat.
Qed.
Lemma nan_row_div : forall i (t p : list F), fisnan (nth i p fnan) = true -> fisnan (nth i (sdiv t p) fnan) = true.
Proof.
  unfold sdiv. induction i as [|i IH]; intros [|x t] [|y p] X; cbn [map2 nth] in *; try apply isnan_nan; [apply div_nan_r, X|apply IH, X].
Qed.
Lemma quiet_fsub : forall (x y : list F) a, quiet a x -> (1 <= a)%nat ->
  quiet (S a) (muls (sdiv (ssub x (shift_fill 1 (smean x) x)) (shift_fill 1 (smean x) x)) (#100)).
Proof.
  intros x y a Q A1. apply quiet_muls. intros i Hi. destruct (Nat.eq_dec i 0) as [->|N].
  - apply (quiet_div_l a); [apply quiet_sub_l, Q|lia].
  - pose proof (quiet_shift_fill 1 a (smean x) x Q) as P.
    set (p := shift_fill _ _ _) in *.
    apply nan_row_div, P. lia.
Qed.
Lemma q_trix : forall w out, (1 <= w)%Z -> trix c w false = Ok out -> quiet (Z.to_nat (if (w =? 1)%Z then 0 else 3 * (w - 1) + 1)) out.
Proof.
  intros w out W H. destruct (Z.eqb_spec w 1) as [E|E]; [apply quiet_0|]. unfold trix in H. unbind H. injection H as <-.
  cbn [check_fillna]. eapply quiet_le; [|eapply quiet_fsub; [exact []|exact E2|lia]]. lia.
Qed.
Lemma q_ichimoku : forall w1 w2 a b, ichimoku_run h l w1 w2 false = Ok (a, b) ->
  ((1 <= w1)%Z -> quiet (Z.to_nat (w1 - 1)) a) /\ ((1 <= w2)%Z -> quiet (Z.to_nat (w2 - 1)) b).
Proof.
  intros w1 w2 a b H. unfold ichimoku_run in H. cbn [minp_of] in H.
  destruct (rolling w1 w1 agg_max h) eqn:E1; [|discriminate H]. cbn [bind] in H.
  destruct (rolling w1 w1 agg_min l) eqn:E2; [|discriminate H]. cbn [bind] in H.
  destruct (rolling w2 w2 agg_max h) eqn:E3; [|discriminate H]. cbn [bind] in H.
  destruct (rolling w2 w2 agg_min l) eqn:E4; [|discriminate H]. cbn [bind] in H. injection H as <- <-.
  split; intros W; [fwd1 E1; fwd1 E2|fwd1 E3; fwd1 E4]; (eapply quiet_le; [|q]; lia).
Qed.
Lemma q_kst : forall r1 r2 r3 r4 w1 w2 w3 w4 n a b, atleast1 [w1; w2; w3; w4] -> kst_run c r1 r2 r3 r4 w1 w2 w3 w4 n false = Ok (a, b) ->
  quiet (Z.to_nat (Z.max (Z.max w1 w2) (Z.max w3 w4) - 1)) a /\ quiet (Z.to_nat (Z.max (Z.max w1 w2) (Z.max w3 w4) - 1)) b.
Proof.
  intros r1 r2 r3 r4 w1 w2 w3 w4 n a b W H. unfold atleast1 in W. repeat (inversion W as [|? ? ? W']; subst; clear W; rename W' into W).
  unfold kst_run, kst_rocma in H. cbn [minp_of] in H. cbv zeta in H.
  do 4 (match type of H with bind ?m _ = _ => let E := fresh "E" in destruct m eqn:E; cbn [bind] in H; [|discriminate H]; fwd1 E end).
  match type of H with bind (rolling _ _ _ ?k) _ = _ => assert (K : quiet (Z.to_nat (Z.max (Z.max w1 w2) (Z.max w3 w4) - 1)) k) end.
  { eapply quiet_le; [|q]. lia. }
  match type of H with bind ?m _ = _ => let E := fresh "E" in destruct m eqn:E; cbn [bind] in H; [|discriminate H]; eapply quiet_mean in E; [|exact K] end.
  injection H as <- <-. split; assumption.
Qed.
Lemma q_macd : forall ws wf wg a b d, macd_run c ws wf wg false = Ok (a, b, d) -> (1 <= ws)%Z -> (1 <= wf)%Z ->
  quiet (Z.to_nat (Z.max ws wf - 1)) a /\ ((1 <= wg)%Z -> quiet (Z.to_nat (Z.max ws wf - 1 + (wg - 1))) b /\ quiet (Z.to_nat (Z.max ws wf - 1 + (wg - 1))) d).
Proof.
  intros ws wf wg a b d H S1 F1. unfold macd_run in H.
  do 2 (match type of H with bind ?m _ = _ => let E := fresh "E" in destruct m eqn:E; cbn [bind] in H; [|discriminate H]; fwd1 E end).
  cbv zeta in H. match type of H with bind ?m _ = _ => let E := fresh "E" in destruct m eqn:E; cbn [bind] in H; [|discriminate H] end.
  injection H as <- <- <-. split; [eapply quiet_le; [|q]; lia|]. intros G. fwd1 E1. split; (eapply quiet_le; [|q]; lia).
Qed.
Lemma q_ppo : forall ws wf wg a b d, ppo_run c ws wf wg false = Ok (a, b, d) -> (1 <= ws)%Z -> (1 <= wf)%Z ->
  quiet (Z.to_nat (Z.max ws wf - 1)) a /\ ((1 <= wg)%Z -> quiet (Z.to_nat (Z.max ws wf - 1 + (wg - 1))) b /\ quiet (Z.to_nat (Z.max ws wf - 1 + (wg - 1))) d).
Proof.
  intros ws wf wg a b d H S1 F1. unfold ppo_run in H.
  do 2 (match type of H with bind ?m _ = _ => let E := fresh "E" in destruct m eqn:E; cbn [bind] in H; [|discriminate H]; fwd1 E end).
  cbv zeta in H. match type of H with bind ?m _ = _ => let E := fresh "E" in destruct m eqn:E; cbn [bind] in H; [|discriminate H] end.
  injection H as <- <- <-. split; [eapply quiet_le; [|q]; lia|]. intros G. fwd1 E1. split; (eapply quiet_le; [|q]; lia).
Qed.
Lemma q_stc_stoch : forall x cy out k, (1 <= cy)%Z -> quiet k x -> stc_stoch x cy = Ok out -> quiet (k + Z.to_nat (cy - 1)) out.
Proof. intros x cy out k C Q H. unfold stc_stoch in H. unbind H. done H. Qed.
Lemma q_stc : forall ws wf cy s1 s2 out, atleast1 [ws; wf; cy; s1; s2] -> stc c ws wf cy s1 s2 false = Ok out ->
  quiet (Z.to_nat (Z.max ws wf - 1 + 2 * (cy - 1) + (s1 - 1) + (s2 - 1))) out.
Proof.
  intros ws wf cy s1 s2 out W H. unfold atleast1 in W. repeat (inversion W as [|? ? ? W']; subst; clear W; rename W' into W).
  unfold stc in H. cbv zeta in H.
  do 2 (match type of H with bind ?m _ = _ => let E := fresh "E" in destruct m eqn:E; cbn [bind] in H; [|discriminate H]; fwd1 E end).
  match type of H with bind ?m _ = _ => destruct m eqn:K1; cbn [bind] in H; [|discriminate H] end. eapply q_stc_stoch in K1; [|lia|q].
  match type of H with bind ?m _ = _ => destruct m eqn:K2; cbn [bind] in H; [|discriminate H] end. fwd1 K2.
  match type of H with bind ?m _ = _ => destruct m eqn:K3; cbn [bind] in H; [|discriminate H] end. eapply q_stc_stoch in K3; [|lia|q].
  match type of H with bind ?m _ = _ => destruct m eqn:K4; cbn [bind] in H; [|discriminate H] end. fwd1 K4. done H.
Qed.
Lemma q_donchian : forall w a b, (1 <= w)%Z -> donchian_run h l w false = Ok (a, b) ->
  quiet (Z.to_nat (w - 1)) a /\ quiet (Z.to_nat (w - 1)) b.
Proof.
  intros w a b W H. unfold donchian_run in H. cbn [donchian_minp] in H. unbind H. injection H as <- <-.
  split; (eapply quiet_le; [|q]; lia).
Qed.
Lemma q_offset : forall w o x, (1 <= w)%Z -> (0 <= o)%Z -> quiet (Z.to_nat (w - 1)) x -> quiet (Z.to_nat (w - 1 + o)) (donchian_offset o x).
Proof.
  intros w o x W O Q. unfold donchian_offset. destruct (Z.eqb_spec o 0) as [->|N]; cbn [negb]; [rewrite Z.add_0_r; exact Q|].
  rewrite <- (Z2Nat.id o) at 2 by exact O. eapply quiet_le; [|apply quiet_shift, Q]. lia.
Qed.
Lemma q_bb : forall w d st, (1 <= w)%Z -> bollinger_run c w d false = Ok st ->
  quiet (Z.to_nat (w - 1)) (bb_mavg st) /\ quiet (Z.to_nat (w - 1)) (bb_hband st) /\ quiet (Z.to_nat (w - 1)) (bb_lband st).
Proof.
  intros w d st W H. unfold bollinger_run in H. cbn [minp_of] in H. unbind H. injection H as <-. cbn [bb_mavg bb_hband bb_lband].
  repeat split; (eapply quiet_le; [|q]; lia).
Qed.
Lemma q_kc : forall w a o m st, (1 <= w)%Z -> keltner_run h l c w a false o m = Ok st ->
  quiet (Z.to_nat (w - 1)) (kc_tp st) /\ (o = false -> quiet (Z.to_nat (w - 1)) (kc_high st) /\ quiet (Z.to_nat (w - 1)) (kc_low st)).
Proof.
  intros w a o m st W H. unfold keltner_run in H. destruct o; cbv zeta in H.
  - match type of H with bind ?m _ = _ => destruct m eqn:K1; cbn [bind] in H; [|discriminate H] end. fwd1 K1.
    do 2 (match type of H with bind ?m _ = _ => let E := fresh "E" in destruct m eqn:E; cbn [bind] in H; [|discriminate H] end).
    injection H as <-. cbn [kc_tp]. split; [eapply quiet_le; [|q]; lia|discriminate].
  - match type of H with bind ?m _ = _ => destruct m eqn:K1; cbn [bind] in H; [|discriminate H] end. fwd1 K1.
    do 1 (match type of H with bind ?m _ = _ => let E := fresh "E" in destruct m eqn:E; cbn [bind] in H; [|discriminate H] end).
    injection H as <-. cbn [kc_tp kc_high kc_low]. repeat split; (eapply quiet_le; [|q]; lia).
Qed.
Lemma q_vortex : forall w a b, (1 <= w)%Z -> vortex_run h l c w false = Ok (a, b) -> quiet (Z.to_nat w) a /\ quiet (Z.to_nat w) b.
Proof.
  intros w a b W H. unfold vortex_run in H. cbn [minp_of] in H. unbind H. injection H as <- <-.
  split; (eapply quiet_le; [|q]; lia).
Qed.
Lemma q_aroon : forall w a b, (1 <= w)%Z -> aroon_run h l w false = Ok (a, b) -> quiet (Z.to_nat w) a /\ quiet (Z.to_nat w) b.
Proof.
  intros w a b W H. unfold aroon_run in H. cbv zeta in H. unbind H. destruct (_ && _); [discriminate H|]. destruct (_ && _); [discriminate H|].
  injection H as <- <-. split; (eapply quiet_le; [|q]; lia).
Qed.
Lemma q_mfi : forall w out, (1 <= w)%Z -> money_flow_index h l c v w false = Ok out -> quiet (Z.to_nat (w - 1)) out.
Proof.
  intros w out W H. unfold money_flow_index in H. cbn [minp_of] in H. cbv zeta in H. unbind H. injection H as <-. cbn [check_fillna].
  apply quiet_map; [intros x X; apply sub_nan_r, div_nan_r, add_nan_r, X|]. eapply quiet_le; [|q]. lia.
Qed.
Lemma quiet_pct : quiet 1 (pct_change c).
Proof. unfold pct_change. cbv zeta. eapply quiet_le; [|q]. lia. Qed.
Lemma q_bbp : forall w d out, (1 <= w)%Z -> bollinger_pband c w d false = Ok out -> quiet (Z.to_nat (w - 1)) out.
Proof.
  intros w d out W H. unfold bollinger_pband in H. destruct (bollinger_run c w d false) eqn:E; cbn [bind] in H; [|discriminate H].
  injection H as <-. destruct (q_bb w d _ W E) as (M & U & D). cbn [check_fillna]. eapply quiet_le; [|q]. lia.
Qed.
End Runs.

Ltac split_atleast W := unfold atleast1 in W; repeat (apply Forall_cons_iff in W; let W1 := fresh "W1" in destruct W as [W1 W]); clear W.
Ltac open1 H E := match type of H with bind ?m _ = _ => destruct m eqn:E; cbn [bind] in H; [|discriminate H] end.
Ltac fin := cbn [check_fillna]; first [eassumption | eapply quiet_le; [|q]; lia].
Ltac run1 H := cbn [minp_of] in H; cbv zeta in H; unbind H; injection H as <-; fin.

Ltac pair1 X := match type of X with _ = Ok ?a => destruct a end.
Ltac trip X := match type of X with _ = Ok ?a => destruct a as [[? ?] ?] end.
Ltac kase H :=
  let X := fresh "X" in let Y := fresh "Y" in let V := fresh "V" in
  lazymatch type of H with
  | rsi _ _ _ = _ => eapply q_rsi; eassumption
  | tsi _ _ _ _ = _ => eapply q_tsi; eassumption
  | ultimate_oscillator _ _ _ _ _ _ _ _ _ _ = _ => eapply q_uo; eassumption
  | stoch _ _ _ _ _ _ = _ => unfold stoch, rmap in H; destruct (stoch_run _ _ _ _ _) eqn:X in H; [|discriminate H]; injection H as <-;
      eapply q_stoch_run; eassumption
  | stoch_signal _ _ _ _ _ _ = _ => unfold stoch_signal, rmap in H; cbn [minp_of] in H; open1 H X; apply q_stoch_run in X; [|assumption];
      destruct (rolling _ _ _ _) eqn:Y in H; [|discriminate H]; injection H as <-; fwd1 Y; fin
  | kama _ _ _ _ _ = _ => eapply q_kama; eassumption
  | stochrsi _ _ _ _ _ = _ => unfold stochrsi in H; open1 H X; pair1 X; injection H as <-; apply q_stochrsi_run in X as [X Y]; [|assumption]; fin
  | stochrsi_k _ _ _ _ _ = _ => unfold stochrsi_k in H; open1 H X; pair1 X; injection H as <-; apply q_stochrsi_run in X as [X Y]; [|assumption];
      specialize (Y ltac:(assumption)); fin
  | stochrsi_d _ _ _ _ _ = _ => unfold stochrsi_d in H; open1 H X; pair1 X; apply q_stochrsi_run in X as [X Y]; [|assumption];
      specialize (Y ltac:(assumption)); open1 H V; injection H as <-; fwd1 V; fin
  | ppo _ _ _ _ _ = _ => unfold ppo in H; open1 H X; trip X; injection H as <-; apply q_ppo in X as [X Y]; [|assumption..]; fin
  | ppo_signal _ _ _ _ _ = _ => unfold ppo_signal in H; open1 H X; trip X; injection H as <-; apply q_ppo in X as [X Y]; [|assumption..];
      destruct (Y ltac:(assumption)); fin
  | ppo_hist _ _ _ _ _ = _ => unfold ppo_hist in H; open1 H X; trip X; injection H as <-; apply q_ppo in X as [X Y]; [|assumption..];
      destruct (Y ltac:(assumption)); fin
  | macd _ _ _ _ _ = _ => unfold macd in H; open1 H X; trip X; injection H as <-; apply q_macd in X as [X Y]; [|assumption..]; fin
  | macd_signal _ _ _ _ _ = _ => unfold macd_signal in H; open1 H X; trip X; injection H as <-; apply q_macd in X as [X Y]; [|assumption..];
      destruct (Y ltac:(assumption)); fin
  | macd_diff _ _ _ _ _ = _ => unfold macd_diff in H; open1 H X; trip X; injection H as <-; apply q_macd in X as [X Y]; [|assumption..];
      destruct (Y ltac:(assumption)); fin
  | aroon_up _ _ _ _ = _ => unfold aroon_up in H; open1 H X; pair1 X; injection H as <-; apply q_aroon in X as [X Y]; [|assumption]; fin
  | aroon_down _ _ _ _ = _ => unfold aroon_down in H; open1 H X; pair1 X; injection H as <-; apply q_aroon in X as [X Y]; [|assumption]; fin
  | aroon_indicator _ _ _ _ = _ => unfold aroon_indicator in H; open1 H X; pair1 X; injection H as <-; apply q_aroon in X as [X Y]; [|assumption]; fin
  | trix _ _ _ = _ => eapply q_trix; eassumption
  | ichimoku_conversion_line _ _ _ _ _ _ _ = _ => unfold ichimoku_conversion_line in H; open1 H X; pair1 X; injection H as <-;
      apply q_ichimoku in X as [X Y]; specialize (X ltac:(assumption)); fin
  | ichimoku_base_line _ _ _ _ _ _ _ = _ => unfold ichimoku_base_line in H; open1 H X; pair1 X; injection H as <-;
      apply q_ichimoku in X as [X Y]; specialize (Y ltac:(assumption)); fin
  | ichimoku_a _ _ _ _ _ false _ = _ => unfold ichimoku_a in H; open1 H X; pair1 X; injection H as <-;
      apply q_ichimoku in X as [X Y]; specialize (X ltac:(assumption)); specialize (Y ltac:(assumption)); fin
  | kst _ _ _ _ _ _ _ _ _ _ _ = _ => unfold kst in H; open1 H X; pair1 X; injection H as <-; apply q_kst in X as [X Y]; [|repeat constructor; assumption]; fin
  | kst_sig _ _ _ _ _ _ _ _ _ _ _ = _ => unfold kst_sig in H; open1 H X; pair1 X; injection H as <-; apply q_kst in X as [X Y]; [|repeat constructor; assumption]; fin
  | kst_diff _ _ _ _ _ _ _ _ _ _ _ = _ => unfold kst_diff in H; open1 H X; pair1 X; injection H as <-; apply q_kst in X as [X Y]; [|repeat constructor; assumption]; fin
  | vortex_indicator_pos _ _ _ _ _ = _ => unfold vortex_indicator_pos in H; open1 H X; pair1 X; injection H as <-; apply q_vortex in X as [X Y]; [|assumption]; fin
  | vortex_indicator_neg _ _ _ _ _ = _ => unfold vortex_indicator_neg in H; open1 H X; pair1 X; injection H as <-; apply q_vortex in X as [X Y]; [|assumption]; fin
  | vortex_indicator_diff _ _ _ _ _ = _ => unfold vortex_indicator_diff in H; open1 H X; pair1 X; injection H as <-; apply q_vortex in X as [X Y]; [|assumption]; fin
  | psar_up _ _ _ _ _ _ _ = _ => unfold psar_up in H; open1 H X; injection H as <-; apply q_psar in X as [X Y]; fin
  | psar_down _ _ _ _ _ _ _ = _ => unfold psar_down in H; open1 H X; injection H as <-; apply q_psar in X as [X Y]; fin
  | stc _ _ _ _ _ _ _ = _ => eapply q_stc; [repeat constructor; assumption|eassumption]
  | bollinger_pband _ _ _ _ = _ => eapply q_bbp; eassumption
  | donchian_channel_wband _ _ _ _ _ _ = _ => unfold donchian_channel_wband in H; open1 H X; pair1 X; apply q_donchian in X as [X Y]; [|assumption];
      open1 H V; cbn [donchian_minp] in V; fwd1 V; injection H as <-; apply q_offset; [assumption..|fin]
  | money_flow_index _ _ _ _ _ _ = _ => eapply q_mfi; eassumption
  | ema_indicator _ _ _ = _ => unfold ema_indicator in H; fwd1 H; fin
  | sma_indicator _ _ _ = _ => unfold sma_indicator, sma_ in H; fwd1 H; fin
  | _ => unfold roc, awesome_oscillator, williams_r, wma, mass_index, dpo, cci, ulcer_index, chaikin_money_flow, force_index,
        sma_ease_of_movement, ease_of_movement, emv, daily_return, daily_log_return, volume_weighted_average_price in H; run1 H
  end.

Lemma silent_quiet : forall (ind : indicator F) k rows out, silent ind k -> compute ind false rows = Ok out -> quiet k out.
Proof.
  intros ind k rows out S H. destruct ind; cbn [silent] in S; try contradiction; cbn [compute] in H.
  all: try match goal with o : bool |- _ => destruct o end; try contradiction.
  all: try (destruct S as [W K]; split_atleast W; match type of K with Z.of_nat _ = ?z => replace k with (Z.to_nat z) by lia end; clear K k).
  all: try solve [kase H].
  - unfold roc in H. injection H as <-. apply quiet_muls, quiet_div_r. rewrite <- (Z2Nat.id window) at 2 by lia.
    eapply quiet_le; [|apply (quiet_shift _ 0), quiet_0]. lia.
  - unfold pvo in H. open1 H X. trip X. injection H as <-. change pvo_run with ppo_run in X. apply q_ppo in X as [X Y]; [|assumption..]. fin.
  - unfold pvo_signal in H. open1 H X. trip X. injection H as <-. change pvo_run with ppo_run in X. apply q_ppo in X as [X Y]; [|assumption..].
    destruct (Y ltac:(assumption)). fin.
  - unfold pvo_hist in H. open1 H X. trip X. injection H as <-. change pvo_run with ppo_run in X. apply q_ppo in X as [X Y]; [|assumption..].
    destruct (Y ltac:(assumption)). fin.
  - unfold bollinger_mavg in H. open1 H X. injection H as <-. apply q_bb in X as (X & Y & V); [|assumption]. fin.
  - unfold bollinger_hband in H. open1 H X. injection H as <-. apply q_bb in X as (X & Y & V); [|assumption]. fin.
  - unfold bollinger_lband in H. open1 H X. injection H as <-. apply q_bb in X as (X & Y & V); [|assumption]. fin.
  - unfold bollinger_wband in H. open1 H X. injection H as <-. apply q_bb in X as (X & Y & V); [|assumption]. fin.
  - unfold keltner_channel_mband in H. open1 H X. injection H as <-. apply q_kc in X as [X Y]; [|assumption]. fin.
  - unfold keltner_channel_mband in H. open1 H X. injection H as <-. apply q_kc in X as [X Y]; [|assumption]. fin.
  - unfold keltner_channel_hband in H. open1 H X. injection H as <-. apply q_kc in X as [X Y]; [|assumption]. destruct (Y eq_refl). fin.
  - unfold keltner_channel_lband in H. open1 H X. injection H as <-. apply q_kc in X as [X Y]; [|assumption]. destruct (Y eq_refl). fin.
  - unfold keltner_channel_wband in H. open1 H X. injection H as <-. apply q_kc in X as [X Y]; [|assumption]. fin.
  - unfold keltner_channel_wband in H. open1 H X. injection H as <-. apply q_kc in X as [X Y]; [|assumption]. fin.
  - unfold keltner_channel_pband in H. open1 H X. injection H as <-. apply q_kc in X as [X Y]; [|assumption]. destruct (Y eq_refl). fin.
  - destruct S as (W & O & K). split_atleast W. replace k with (Z.to_nat (window - 1 + offset)) by lia.
    unfold donchian_channel_hband in H. open1 H X. pair1 X. injection H as <-. apply q_donchian in X as [X Y]; [|assumption].
    apply q_offset; [assumption..|fin].
  - destruct S as (W & O & K). split_atleast W. replace k with (Z.to_nat (window - 1 + offset)) by lia.
    unfold donchian_channel_lband in H. open1 H X. pair1 X. injection H as <-. apply q_donchian in X as [X Y]; [|assumption].
    apply q_offset; [assumption..|fin].
  - destruct S as (W & O & K). split_atleast W. replace k with (Z.to_nat (window - 1 + offset)) by lia.
    unfold donchian_channel_mband in H. open1 H X. pair1 X. injection H as <-. apply q_donchian in X as [X Y]; [|assumption].
    apply q_offset; [assumption..|fin].
  - destruct S as (W & O & K). split_atleast W. replace k with (Z.to_nat (window - 1 + offset)) by lia. kase H.
  - destruct S as (W & O & K). split_atleast W. replace k with (Z.to_nat (window - 1 + offset)) by lia.
    unfold donchian_channel_pband in H. open1 H X. pair1 X. injection H as <-. apply q_donchian in X as [X Y]; [|assumption].
    apply q_offset; [assumption..|fin].
  - destruct smoothing_factor; contradiction.
  - pose proof (quiet_pct (map b_close rows)) as P. unfold volume_price_trend in H. cbv zeta in H. destruct smoothing_factor as [z|].
    + destruct S as [W K]. split_atleast W. destruct (Z.eqb_spec z 0) as [E|E]; [lia|]. cbn [minp_of] in H. open1 H X.
      fwd1 X. injection H as <-. fin.
    + cbn [bind] in H. injection H as <-. subst k. fin.
Qed.
End Quiet.
