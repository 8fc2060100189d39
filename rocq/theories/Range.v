(** * Range: oscillators that stay in their range on arbitrary data
    (NaN and infinities included): C19, C25, C26, C55. *)
From Verif Require Import Lists Api SpecNum Align Rows Running Fill Tab Averages.
Local Open Scope R_scope.

(** ** the exponential window preserves relations closed under mixtures *)
Definition rel2 (Rel : R -> R -> Prop) (x y : xr) : Prop :=
  (x = NaN /\ y = NaN) \/ exists a b, x = Fin a /\ y = Fin b /\ Rel a b.
Definition convex (Rel : R -> R -> Prop) : Prop := forall t a b a' b', 0 <= t <= 1 ->
  Rel a b -> Rel a' b' -> Rel (t * a + (1 - t) * a') (t * b + (1 - t) * b').

Lemma ewm_step_fin : forall o al e x, 0 <= o -> 0 < al <= 1 ->
  (if Fin e =.? Fin x then Fin e
   else ((Fin o **. (#1 -. Fin al)) **. Fin e +. Fin al **. Fin x) /. (Fin o **. (#1 -. Fin al) +. Fin al))%F
  = Fin (o * (1 - al) / (o * (1 - al) + al) * e + (1 - o * (1 - al) / (o * (1 - al) + al)) * x).
Proof.
  intros o al e x Ho Ha. assert (0 < o * (1 - al) + al) by nra. cbn.
  destruct (Req_EM_T e x) as [->|]; [f_equal; ring|].
  destruct (Req_EM_T _ 0) as [E|E]; [exfalso; nra|]. f_equal. field. lra.
Qed.
Lemma ewm_weight : forall o al, 0 <= o -> 0 < al <= 1 -> 0 <= o * (1 - al) / (o * (1 - al) + al) <= 1.
Proof.
  intros o al Ho Ha. assert (0 <= o * (1 - al)) by nra. split.
  - apply Rmult_le_pos; auto. apply Rlt_le, Rinv_0_lt_compat. lra.
  - apply Rmult_le_reg_r with (o * (1 - al) + al); [lra|]. unfold Rdiv. rewrite Rmult_assoc, Rinv_l; lra.
Qed.

Lemma ewm_go_rel : forall Rel al m, convex Rel -> 0 < al <= 1 -> forall s s', Forall2 (rel2 Rel) s s' ->
  forall k e e' o, rel2 Rel e e' -> 0 <= o ->
  Forall2 (rel2 Rel) (ewm_go (Fin al) m k e (Fin o) s) (ewm_go (Fin al) m k e' (Fin o) s').
Proof.
  intros Rel al m C Ha s s' H. induction H as [|x y s s' Hxy H IH]; intros k e e' o He Ho; [constructor|].
  cbn [ewm_go]. change (@fisnan xr XR) with xisnan.
  assert (N : rel2 Rel NaN NaN) by (left; auto).
  assert (O : 0 <= o * (1 - al)) by nra.
  destruct He as [[-> ->]|(p & q & -> & -> & Hp)]; destruct Hxy as [[-> ->]|(a & b & -> & -> & Hab)];
    cbn [xisnan negb].
  - constructor; auto. destruct (_ <=? _); auto.
  - assert (rel2 Rel (Fin a) (Fin b)) by (right; eauto). constructor; auto. destruct (_ <=? _); auto.
  - assert (rel2 Rel (Fin p) (Fin q)) by (right; eauto). constructor; [destruct (_ <=? _); auto|].
    change (Fin o **. (#1 -. Fin al))%F with (Fin (o * (1 + - al))).
    apply IH; auto.
  - rewrite !ewm_step_fin by auto.
    match goal with |- Forall2 _ ((if _ then ?u else _) :: _) ((if _ then ?v else _) :: _) =>
      assert (Q : rel2 Rel u v) by (right; do 2 eexists; repeat split; apply C; auto using ewm_weight) end.
    constructor; [destruct (_ <=? _); auto|]. apply IH; auto. cbn. lra.
Qed.

Lemma ewm_span_eq : forall w m (s : list xr), ewm_span w m s =
  if (w <? 1)%Z then Raise ValueError
  else Ok (ewm_go (Fin (2 / (IZR w + 1))) (Z.to_nat (Z.max m 1)) 0 NaN (Fin 1) (prep s)).
Proof.
  intros. unfold ewm_span. destruct (Z.ltb_spec w 1); auto. f_equal. unfold ewm_com. f_equal.
  apply IZR_le in H. cbn. destruct (Req_EM_T 2 0); [lra|]. cbn.
  destruct (Req_EM_T _ 0) as [Hz|Hz]; [exfalso; lra|]. f_equal. field. lra.
Qed.
Lemma ewm_inv_eq : forall w m (s : list xr), ewm_inv_alpha w m s =
  if (w =? 0)%Z then Raise ZeroDivisionError else if (w <? 0)%Z then Raise ValueError
  else Ok (ewm_go (Fin (1 / IZR w)) (Z.to_nat (Z.max m 1)) 0 NaN (Fin 1) (prep s)).
Proof.
  intros. unfold ewm_inv_alpha. destruct (Z.eqb_spec w 0); auto. destruct (Z.ltb_spec w 0); auto. f_equal. unfold ewm_com. f_equal.
  assert (1 <= IZR w) by (apply IZR_le; lia).
  cbn. destruct (Req_EM_T (IZR w) 0); [lra|]. cbn.
  assert (0 < 1 / IZR w) by (apply Rdiv_lt_0_compat; lra).
  destruct (Req_EM_T (1 / IZR w) 0); [lra|]. cbn.
  assert (E : 1 + (1 + - (1 / IZR w)) / (1 / IZR w) = IZR w) by (field; lra).
  rewrite E. destruct (Req_EM_T (IZR w) 0); [lra|]. reflexivity.
Qed.
Lemma span_rangeZ : forall w, (1 <= w)%Z -> 0 < 2 / (IZR w + 1) <= 1.
Proof.
  intros. apply IZR_le in H. split; [apply Rdiv_lt_0_compat; lra|].
  apply Rmult_le_reg_r with (IZR w + 1); [lra|]. unfold Rdiv. rewrite Rmult_assoc, Rinv_l; lra.
Qed.
Lemma wilder_rangeZ : forall w, (1 <= w)%Z -> 0 < 1 / IZR w <= 1.
Proof.
  intros. apply IZR_le in H. split; [apply Rdiv_lt_0_compat; lra|].
  apply Rmult_le_reg_r with (IZR w); [lra|]. unfold Rdiv. rewrite Rmult_assoc, Rinv_l; lra.
Qed.

Lemma ewm_span_rel : forall Rel w m s s' r r', convex Rel -> Forall2 (rel2 Rel) (prep s) (prep s') ->
  ewm_span w m s = Ok r -> ewm_span w m s' = Ok r' -> Forall2 (rel2 Rel) r r'.
Proof.
  intros Rel w m s s' r r' C H. rewrite !ewm_span_eq. destruct (Z.ltb_spec w 1); [discriminate|].
  intros E E'. injection E as <-. injection E' as <-.
  apply ewm_go_rel; auto using span_rangeZ; [left; auto|lra].
Qed.
Lemma ewm_inv_rel : forall Rel w m s s' r r', convex Rel -> Forall2 (rel2 Rel) (prep s) (prep s') ->
  ewm_inv_alpha w m s = Ok r -> ewm_inv_alpha w m s' = Ok r' -> Forall2 (rel2 Rel) r r'.
Proof.
  intros Rel w m s s' r r' C H. rewrite !ewm_inv_eq. destruct (Z.eqb_spec w 0); [discriminate|].
  destruct (Z.ltb_spec w 0); [discriminate|].
  intros E E'. injection E as <-. injection E' as <-.
  apply ewm_go_rel; auto; [apply wilder_rangeZ; lia|left; auto|lra].
Qed.

(** one series with a bound *)
Definition fpred (P : R -> Prop) (x : xr) : Prop := match x with NaN => True | Fin r => P r | _ => False end.
Definition convex1 (P : R -> Prop) : Prop := forall t a a', 0 <= t <= 1 -> P a -> P a' -> P (t * a + (1 - t) * a').
Lemma fpred_rel : forall P x, fpred P x <-> rel2 (fun a b => P a /\ a = b) x x.
Proof.
  intros P x; split; intros H.
  - destruct x; cbn in H; try easy; [left; auto|right; do 2 eexists; repeat split; auto].
  - destruct H as [[-> _]|(a & b & -> & E & H & _)]; cbn; auto.
Qed.
Lemma Forall_rel : forall P s, Forall (fpred P) s <-> Forall2 (rel2 (fun a b => P a /\ a = b)) s s.
Proof.
  induction s; split; intros H; auto; inversion H; subst; constructor; try (now apply fpred_rel); now apply IHs.
Qed.
Lemma convex1_2 : forall P, convex1 P -> convex (fun a b => P a /\ a = b).
Proof. intros P C t a b a' b' Ht [Ha <-] [Ha' <-]. split; auto. Qed.
Lemma ewm_span_pred : forall P w m s r, convex1 P -> Forall (fpred P) (prep s) ->
  ewm_span w m s = Ok r -> Forall (fpred P) r.
Proof.
  intros P w m s r C H E. apply Forall_rel.
  eapply ewm_span_rel; eauto using convex1_2. now apply Forall_rel.
Qed.
Lemma ewm_inv_pred : forall P w m s r, convex1 P -> Forall (fpred P) (prep s) ->
  ewm_inv_alpha w m s = Ok r -> Forall (fpred P) r.
Proof.
  intros P w m s r C H E. apply Forall_rel.
  eapply ewm_inv_rel; eauto using convex1_2. now apply Forall_rel.
Qed.
Lemma nonneg_convex : convex1 (fun r => 0 <= r).
Proof. intros t a b Ht Ha Hb. nra. Qed.
Lemma range_convex : forall lo hi, convex1 (fun r => lo <= r <= hi).
Proof. intros lo hi t a b Ht Ha Hb. nra. Qed.

(** ** rolling windows *)
Lemma prep_pred : forall P s, Forall (fpred P) s -> prep s = s.
Proof.
  induction 1; [reflexivity|]. cbn. rewrite <- IHForall at 2. unfold prep. f_equal.
  destruct x; cbn in *; easy.
Qed.
Lemma rolling_pred : forall (P Q : xr -> Prop) w m agg s r, (forall win, Forall P win -> Q (win_agg agg (Z.to_nat m) win)) ->
  Forall P (prep s) -> rolling w m agg s = Ok r -> Forall Q r.
Proof.
  intros P Q w m agg s r H HP E. rewrite rolling_xr in E. destruct (_ || _); [discriminate|]. injection E as <-.
  apply Forall_forall. intros x Hx. apply in_map_iff in Hx. destruct Hx as (i & <- & _).
  apply H. unfold window_at. now apply Forall_skipn, Forall_firstn.
Qed.
Lemma obs_pred : forall P l, Forall (fpred P) l -> exists rs, obs l = map Fin rs /\ Forall P rs.
Proof.
  induction 1; [exists []; auto|]. destruct IHForall as (rs & E & Hr).
  destruct x; cbn in H; try easy.
  - exists rs; auto.
  - exists (r :: rs). change (obs (Fin r :: l)) with (Fin r :: obs l). rewrite E. auto.
Qed.
Lemma fsum_fin : forall rs, fsum (map Fin rs) = Fin (fold_left Rplus rs 0).
Proof. intros. rewrite fsum_left. cbn [fofZ XR]. apply fsum_fin_acc. Qed.
Lemma fold_bounds : forall rs lo hi x, Forall (fun r => lo <= r <= hi) rs ->
  x + INR (length rs) * lo <= fold_left Rplus rs x <= x + INR (length rs) * hi.
Proof.
  induction rs; intros lo hi x H; cbn [length fold_left]; [cbn; lra|].
  inversion H; subst. specialize (IHrs lo hi (x + a) H3). rewrite S_INR. lra.
Qed.
Lemma agg_mean_within : forall m lo hi win, Forall (within lo hi) win -> within lo hi (win_mean m win).
Proof.
  intros m lo hi win H. apply (obs_pred (fun r => lo <= r <= hi)) in H. destruct H as (rs & E & H).
  unfold win_agg, agg_apply, agg_max, agg_min, win_mean. rewrite E, map_length. destruct (_ || _) eqn:D; [exact I|].
  apply orb_false_elim in D. destruct D as [_ D]. apply Nat.eqb_neq in D.
  assert (0 < INR (length rs)) by (apply lt_0_INR; lia).
  rewrite fsum_fin, fofnat_INR. change (@fdiv xr XR) with xdiv. rewrite xdiv_fin by lra.
  pose proof (fold_bounds _ _ _ 0 H). cbn.
  split; apply Rmult_le_reg_r with (INR (length rs)); auto; unfold Rdiv; rewrite Rmult_assoc, Rinv_l; lra.
Qed.
Lemma rolling_mean_within : forall lo hi w m s r, Forall (within lo hi) s ->
  rolling w m agg_mean s = Ok r -> Forall (within lo hi) r.
Proof.
  intros lo hi w m s r H. apply rolling_pred with (P := within lo hi).
  - intros. now apply agg_mean_within.
  - now rewrite prep_pred with (P := fun r => lo <= r <= hi).
Qed.

(** ** gap filling *)
Lemma check_within : forall lo hi fl z s, (z =? -1)%Z = false -> (-1000 <= z <= 1000)%Z -> lo <= IZR z <= hi ->
  Forall (within lo hi) s -> Forall (within lo hi) (check_fillna fl (FillInt z) s).
Proof.
  intros lo hi [|] z s Hz Hr B H; [|exact H]. rewrite check_const by auto.
  assert (V : within lo hi (Fin (IZR z))) by exact B.
  change (@fofZ xr XR z) with (Fin (IZR z)). revert V. generalize (Fin (IZR z)). clear -H.
  induction H; intros v V; cbn [fill_go]; constructor; destruct (ffinite x); auto.
Qed.

(** ** C19: RSI *)
Lemma Forall_nth_xr : forall (P : xr -> Prop) (l : list xr), (forall i, (i < length l)%nat -> P (nth i l NaN)) -> Forall P l.
Proof. intros. apply Forall_forall. intros x Hx. apply In_nth with (d := NaN) in Hx. destruct Hx as (i & Hi & <-). auto. Qed.
Lemma Forall_prep : forall (P : xr -> Prop) (f : xr -> xr) s, P NaN -> (forall d, P (xprep (f d))) -> Forall P (prep (map f s)).
Proof.
  intros. unfold prep. rewrite map_map. apply Forall_forall. intros x Hx. apply in_map_iff in Hx.
  destruct Hx as (d & <- & _). apply H0.
Qed.
Lemma rsi_run_within : forall c w fl r, rsi_run c w fl = Ok r -> Forall (within 0 100) r.
Proof.
  unfold rsi_run. intros c w fl r H. inv_ok.
  match goal with H1 : ewm_inv_alpha _ _ _ = Ok ?u, H2 : ewm_inv_alpha _ _ _ = Ok ?d |- _ =>
    rename u into up; rename d into dn;
    apply (ewm_inv_pred (fun r => 0 <= r)) in H1; [|exact nonneg_convex|]; [|clear H2];
    [apply (ewm_inv_pred (fun r => 0 <= r)) in H2; [|exact nonneg_convex|]|] end.
  - match goal with H1 : Forall _ up, H2 : Forall _ dn |- _ => rename H1 into U; rename H2 into D end.
    unfold sdiv. revert dn D. induction U as [|x up Hx U IH]; intros [|y dn] D; cbn; auto.
    inversion D; subst. constructor; auto. clear - Hx H1.
    destruct x as [| | |a], y as [| | |b]; cbn in *; try easy.
    + destruct (Req_EM_T b 0); cbn; [lra|exact I].
    + destruct (Req_EM_T b 0); cbn; [lra|].
      assert (0 <= a / b) by (apply Rmult_le_pos; auto; apply Rlt_le, Rinv_0_lt_compat; lra).
      destruct (Req_EM_T (1 + a / b) 0); [exfalso; lra|]. cbn.
      assert (0 <= 100 / (1 + a / b) <= 100); [|lra]. split.
      * apply Rmult_le_pos; [lra|]. apply Rlt_le, Rinv_0_lt_compat. lra.
      * apply Rmult_le_reg_r with (1 + a / b); [lra|]. unfold Rdiv at 1. rewrite Rmult_assoc, Rinv_l by lra. nra.
  - apply Forall_prep; [exact I|]. intros [| | |d]; cbn; try exact I; try lra.
    destruct (Rlt_dec d 0); cbn; lra.
  - apply Forall_prep; [exact I|]. intros [| | |d]; cbn; try lra; try exact I.
    destruct (Rlt_dec 0 d); cbn; lra.
Qed.
Lemma rsi_within : forall c w fl r, rsi c w fl = Ok r -> Forall (within 0 100) r.
Proof.
  unfold rsi. intros c w fl r H. destruct (rsi_run c w fl) eqn:E; [|discriminate]. injection H as <-.
  apply check_within; try (reflexivity || lia || lra). eapply rsi_run_within; eauto.
Qed.
Lemma rsi_range : forall w fl rows out, compute (Rsi w) fl rows = Ok out -> Forall (within 0 100) out.
Proof. intros w fl rows out. apply rsi_within. Qed.

(** ** position inside the window's own range *)
Lemma fold_max_ge : forall rs x, exists M, fold_left fmax2 (map Fin rs) (Fin x) = Fin M /\ x <= M /\
  (forall r, In r rs -> r <= M).
Proof.
  induction rs; intros x; cbn [map fold_left]; [exists x; repeat split; try lra; intros r []|].
  rewrite fmax2_fin. destruct (IHrs (Rmax x a)) as (M & E & H1 & H2). exists M. split; auto.
  pose proof (Rmax_l x a). pose proof (Rmax_r x a). split; [lra|]. intros r [<-|Hr]; [lra|auto].
Qed.
Lemma fold_min_le : forall rs x, exists M, fold_left fmin2 (map Fin rs) (Fin x) = Fin M /\ M <= x /\
  (forall r, In r rs -> M <= r).
Proof.
  induction rs; intros x; cbn [map fold_left]; [exists x; repeat split; try lra; intros r []|].
  rewrite fmin2_fin. destruct (IHrs (Rmin x a)) as (M & E & H1 & H2). exists M. split; auto.
  pose proof (Rmin_l x a). pose proof (Rmin_r x a). split; [lra|]. intros r [<-|Hr]; [lra|auto].
Qed.
Lemma agg_max_cases : forall m l x, Forall (fpred (fun _ => True)) l -> In (Fin x) l ->
  win_max m l = NaN \/ exists M, win_max m l = Fin M /\ x <= M.
Proof.
  intros m l x H Hin. unfold win_agg, agg_apply, agg_max, agg_min, win_max, nanmax. destruct (obs_pred _ _ H) as (rs & E & _).
  assert (Hx : In x rs).
  { assert (In (Fin x) (obs l)) by (unfold obs; apply filter_In; auto). rewrite E in H0.
    apply in_map_iff in H0. destruct H0 as (y & Ey & Hy). now injection Ey as ->. }
  rewrite E. destruct (_ <? _); auto. right. destruct rs as [|y rs]; [destruct Hx|]. cbn [map].
  destruct (fold_max_ge rs y) as (M & EM & H1 & H2). exists M. split; auto. destruct Hx as [->|Hx]; auto.
Qed.
Lemma agg_min_cases : forall m l x, Forall (fpred (fun _ => True)) l -> In (Fin x) l ->
  win_min m l = NaN \/ exists M, win_min m l = Fin M /\ M <= x.
Proof.
  intros m l x H Hin. unfold win_agg, agg_apply, agg_max, agg_min, win_min, nanmin. destruct (obs_pred _ _ H) as (rs & E & _).
  assert (Hx : In x rs).
  { assert (In (Fin x) (obs l)) by (unfold obs; apply filter_In; auto). rewrite E in H0.
    apply in_map_iff in H0. destruct H0 as (y & Ey & Hy). now injection Ey as ->. }
  rewrite E. destruct (_ <? _); auto. right. destruct rs as [|y rs]; [destruct Hx|]. cbn [map].
  destruct (fold_min_le rs y) as (M & EM & H1 & H2). exists M. split; auto. destruct Hx as [->|Hx]; auto.
Qed.
Lemma in_own_window : forall w i (s : list xr), (1 <= w)%nat -> (i < length s)%nat -> In (nth i s NaN) (window_at w i s).
Proof.
  intros w i s Hw Hi. replace (nth i s NaN) with (nth (Nat.min w (S i) - 1) (window_at w i s) NaN).
  - apply nth_In. rewrite length_window_at by auto. lia.
  - rewrite window_at_nth by lia. f_equal. lia.
Qed.
Lemma window_position : forall w m s mn mx i, (1 <= w)%Z -> Forall (fpred (fun _ => True)) s -> (i < length s)%nat ->
  rolling w m agg_min s = Ok mn -> rolling w m agg_max s = Ok mx ->
  nth i s NaN = NaN \/ nth i mn NaN = NaN \/ nth i mx NaN = NaN \/
  exists x a b, nth i s NaN = Fin x /\ nth i mn NaN = Fin a /\ nth i mx NaN = Fin b /\ a <= x <= b.
Proof.
  intros w m s mn mx i Hw H Hi E1 E2.
  rewrite (nth_rolling _ _ _ _ _ i NaN E1 Hi), (nth_rolling _ _ _ _ _ i NaN E2 Hi).
  cbn [win_agg agg_max agg_min]. rewrite (prep_pred _ _ H).
  assert (Hin := in_own_window (Z.to_nat w) i s ltac:(lia) Hi).
  assert (HF : Forall (fpred (fun _ => True)) (window_at (Z.to_nat w) i s))
    by (unfold window_at; now apply Forall_skipn, Forall_firstn).
  assert (Hx : fpred (fun _ => True) (nth i s NaN)) by (rewrite Forall_forall in HF; auto).
  destruct (nth i s NaN) as [| | |x]; cbn in Hx; try easy; auto.
  destruct (agg_min_cases (Z.to_nat m) _ x HF Hin) as [->|(a & -> & Ha)]; auto.
  destruct (agg_max_cases (Z.to_nat m) _ x HF Hin) as [->|(b & -> & Hb)]; auto.
  right. right. right. exists x, a, b. auto.
Qed.
Lemma unit_ratio : forall x a b, a <= x <= b -> within 0 1 (xdiv (Fin (x - a)) (Fin (b - a))).
Proof.
  intros x a b H. rewrite xdiv_ratio. unfold ratio. destruct (Req_EM_T (b - a) 0).
  - replace (x - a) with 0 by lra. destruct (Rlt_dec 0 0); [lra|]. exact I.
  - cbn. split.
    + apply Rmult_le_pos; [lra|]. apply Rlt_le, Rinv_0_lt_compat. lra.
    + apply Rmult_le_reg_r with (b - a); [lra|]. unfold Rdiv. rewrite Rmult_assoc, Rinv_l; lra.
Qed.
Lemma pct_ratio : forall x a b, a <= x <= b -> within 0 100 (xdiv (Fin (100 * (x - a))) (Fin (b - a))).
Proof.
  intros x a b H. rewrite xdiv_ratio. unfold ratio. destruct (Req_EM_T (b - a) 0).
  - replace (100 * (x - a)) with 0 by lra. destruct (Rlt_dec 0 0); [lra|]. exact I.
  - cbn. split.
    + apply Rmult_le_pos; [lra|]. apply Rlt_le, Rinv_0_lt_compat. lra.
    + apply Rmult_le_reg_r with (b - a); [lra|]. unfold Rdiv. rewrite Rmult_assoc, Rinv_l; lra.
Qed.

Lemma within_any : forall lo hi l, Forall (within lo hi) l -> Forall (fpred (fun _ => True)) l.
Proof. intros lo hi l H. eapply Forall_impl; [|exact H]. now intros [| | |]. Qed.
Lemma fpred_any : forall P l, Forall (fpred P) l -> Forall (fpred (fun _ => True)) l.
Proof. intros P l H. eapply Forall_impl; [|exact H]. now intros [| | |]. Qed.

(** ** C25: StochRSI *)
Lemma srsi_within : forall w (s mn mx : list xr), (1 <= w)%Z -> Forall (fpred (fun _ => True)) s ->
  rolling w w agg_min s = Ok mn -> rolling w w agg_max s = Ok mx ->
  Forall (within 0 1) (sdiv (ssub s mn) (ssub mx mn)).
Proof.
  intros w s mn mx Hw H E1 E2. pose proof (len_rolling _ _ _ _ _ E1). pose proof (len_rolling _ _ _ _ _ E2).
  apply Forall_nth_xr. unfold sdiv, ssub. rewrite !length_map2, H0, H1. intros i Hi.
  rewrite nth_map2 with (da := NaN) (db := NaN) by (rewrite length_map2; lia).
  rewrite !nth_map2 with (da := NaN) (db := NaN) by lia.
  destruct (window_position w w s mn mx i Hw H ltac:(lia) E1 E2) as [->|[->|[->|(x & a & b & -> & -> & -> & B)]]].
  - exact I.
  - destruct (nth i s NaN); exact I.
  - change (@fsub xr XR NaN) with (fun _ : xr => NaN). cbn beta. destruct (fsub (nth i s NaN) (nth i mn NaN)); exact I.
  - apply unit_ratio; auto.
Qed.
Lemma srsi_run_within : forall c w s1 fl s k, stochrsi_run c w s1 fl = Ok (s, k) ->
  Forall (within 0 1) s /\ Forall (within 0 1) k.
Proof.
  unfold stochrsi_run. intros c w s1 fl s k H. inv_ok.
  match goal with H : rsi _ _ _ = Ok ?x |- _ => pose proof (rsi_within _ _ _ _ H) as R; rename H into ER end.
  assert (Hw : (1 <= w)%Z).
  { unfold rsi, rsi_run, ewm_inv_alpha in ER. destruct (Z.eqb_spec w 0); [discriminate|].
    destruct (Z.ltb_spec w 0); [discriminate|]. lia. }
  match goal with H1 : rolling _ _ agg_min _ = Ok _, H2 : rolling _ _ agg_max _ = Ok _ |- _ =>
    pose proof (srsi_within _ _ _ _ Hw (within_any _ _ _ R) H1 H2) end.
  split; auto. eapply rolling_mean_within; eauto.
Qed.
Lemma stochrsi_range : forall w s1 s2 fl rows,
  (forall out, compute (StochRsi w s1 s2) fl rows = Ok out -> Forall (within 0 1) out) /\
  (forall out, compute (StochRsiK w s1 s2) fl rows = Ok out -> Forall (within 0 1) out) /\
  (forall out, compute (StochRsiD w s1 s2) fl rows = Ok out -> Forall (within 0 1) out).
Proof.
  intros w s1 s2 fl rows. cbn [compute]. unfold stochrsi, stochrsi_k, stochrsi_d.
  repeat split; intros out H; inv_ok;
    match goal with H : stochrsi_run _ _ _ _ = _ |- _ => apply srsi_run_within in H; destruct H as [H1 H2] end;
    apply check_within; try (reflexivity || lia || lra); auto.
  eapply rolling_mean_within; eauto.
Qed.

(** ** C26: TSI *)
Lemma abs_convex : convex (fun a b => Rabs a <= b).
Proof.
  intros t a b a' b' Ht H H'. eapply Rle_trans; [apply Rabs_triang|].
  rewrite !Rabs_mult, (Rabs_pos_eq t), (Rabs_pos_eq (1 - t)) by lra. nra.
Qed.
Lemma abs_rel : forall s : list xr, Forall2 (rel2 (fun a b => Rabs a <= b)) (prep s) (prep (map fabs s)).
Proof.
  induction s; [constructor|]. cbn. constructor; auto.
  destruct a; cbn; try (left; now auto). right. do 2 eexists. repeat split. lra.
Qed.
Lemma rel_prep : forall Rel s s', Forall2 (rel2 Rel) s s' -> Forall2 (rel2 Rel) (prep s) (prep s').
Proof.
  induction 1; cbn; constructor; auto. destruct H as [[-> ->]|(a & b & -> & -> & H)]; cbn; [left; auto|right; eauto].
Qed.
Lemma tsi_range : forall s f fl rows out, compute (Tsi s f) fl rows = Ok out -> Forall (within (-100) 100) out.
Proof.
  intros s f fl rows out H. cbn [compute] in H. unfold tsi, tsi_run in H. inv_ok.
  apply check_within; try (reflexivity || lia || lra).
  match goal with H1 : ewm_span _ _ (ssub _ _) = Ok ?a, H2 : ewm_span _ _ ?a = Ok ?b,
    H3 : ewm_span _ _ (map _ _) = Ok ?c, H4 : ewm_span _ _ ?c = Ok ?d |- _ =>
    assert (R1 := ewm_span_rel _ _ _ _ _ _ _ abs_convex (abs_rel _) H1 H3);
    assert (R2 := ewm_span_rel _ _ _ _ _ _ _ abs_convex (rel_prep _ _ _ R1) H2 H4) end.
  clear - R2. unfold muls, sdiv. induction R2; cbn; constructor; auto.
  destruct H as [[-> ->]|(a & b & -> & -> & H)]; [exact I|].
  change (@fdiv xr XR) with xdiv. rewrite xdiv_ratio. unfold ratio. assert (0 <= Rabs a) by apply Rabs_pos.
  destruct (Req_EM_T b 0) as [->|Hb].
  - assert (a = 0) by (destruct (Req_dec a 0); auto; apply Rabs_no_R0 in H1; lra). subst.
    destruct (Rlt_dec 0 0); [lra|]. exact I.
  - assert (K : - b <= a <= b) by (unfold Rabs in H; destruct (Rcase_abs a); lra). clear H. cbn.
    assert (-1 <= a / b <= 1); [|lra].
    split; apply Rmult_le_reg_r with b; try lra; unfold Rdiv; rewrite Rmult_assoc, Rinv_l; lra.
Qed.

(** ** C44: STC *)
Lemma stc_stoch_within : forall s cy r, Forall (fpred (fun _ => True)) s -> (0 <= cy)%Z -> stc_stoch s cy = Ok r ->
  Forall (within 0 100) r.
Proof.
  unfold stc_stoch. intros s cy r H Hc E. inv_ok.
  match goal with H1 : rolling _ _ agg_min _ = Ok ?a, H2 : rolling _ _ agg_max _ = Ok ?b |- _ =>
    rename a into mn; rename b into mx; rename H1 into M1; rename H2 into M2 end.
  pose proof (len_rolling _ _ _ _ _ M1). pose proof (len_rolling _ _ _ _ _ M2).
  apply Forall_nth_xr. unfold sdiv, ssub, scal. rewrite !length_map2, map_length, !length_map2, H0, H1. intros i Hi.
  rewrite nth_map2 with (da := NaN) (db := NaN) by (rewrite ?map_length, length_map2; lia).
  rewrite nth_indep with (d' := fmul (Fin 100) NaN) by (rewrite map_length, length_map2; lia).
  rewrite map_nth with (f := fun x => fmul (Fin 100) x).
  rewrite !nth_map2 with (da := NaN) (db := NaN) by lia.
  assert (D : (cy = 0 \/ 1 <= cy)%Z) by lia. destruct D as [->|Hw].
  { rewrite (nth_rolling _ _ _ _ _ i NaN M1), (nth_rolling _ _ _ _ _ i NaN M2) by lia.
    unfold window_at. rewrite skipn_all2 by (rewrite firstn_length; lia). cbn. destruct (nth i s NaN); exact I. }
  destruct (window_position cy cy s mn mx i Hw H ltac:(lia) M1 M2) as [->|[->|[->|(x & a & b & -> & -> & -> & B)]]].
  - exact I.
  - destruct (nth i s NaN); exact I.
  - change (@fsub xr XR NaN) with (fun _ : xr => NaN). cbn beta.
    destruct (fmul (Fin 100) (fsub (nth i s NaN) (nth i mn NaN))); exact I.
  - apply pct_ratio; auto.
Qed.

Lemma prep_any : forall s, Forall (fpred (fun _ => True)) (prep s).
Proof. induction s; cbn; constructor; auto. destruct a; exact I. Qed.
Lemma ema_any : forall s w fl r, ema_ s w fl = Ok r -> Forall (fpred (fun _ => True)) r.
Proof. unfold ema_. intros. eapply ewm_span_pred; eauto using prep_any. now intros t a a'. Qed.
Lemma stc_range : forall ws wf cy s1 s2 fl rows out,
  compute (Stc ws wf cy s1 s2) fl rows = Ok out -> Forall (within 0 100) out.
Proof.
  intros ws wf cy s1 s2 fl rows out H. cbn [compute] in H. unfold stc in H. inv_ok.
  apply check_within; try (reflexivity || lia || lra).
  match goal with H1 : stc_stoch ?m cy = Ok ?k, H2 : ema_ ?k s1 fl = Ok ?d, H3 : stc_stoch ?d cy = Ok ?q,
    H4 : ema_ ?q s2 fl = Ok ?o |- _ => rename H1 into K1; rename H2 into K2; rename H3 into K3; rename H4 into K4 end.
  assert (Hc : (0 <= cy)%Z).
  { unfold stc_stoch in K1. inv_ok.
    match goal with H : rolling _ _ _ _ = Ok _ |- _ => apply rolling_minp in H; lia end. }
  apply stc_stoch_within in K3; auto.
  - unfold ema_ in K4. apply (ewm_span_pred (fun r => 0 <= r <= 100)) in K4; auto using range_convex.
    now rewrite prep_pred with (P := fun r => 0 <= r <= 100).
  - eapply ema_any; eauto.
Qed.

(** ** C55: MFI *)
Lemma sum_clip_pos : forall win : list xr, Forall (fpred (fun _ => True)) win ->
  exists x, fsum (map (fun v => if (#0 <=.? v)%F then v else (#0)%F) win) = Fin x /\ 0 <= x.
Proof.
  intros win H. assert (E : exists rs, map (fun v => if (#0 <=.? v)%F then v else (#0)%F) win = map Fin rs /\
    Forall (fun r => 0 <= r) rs).
  { induction H; [exists []; auto|]. destruct IHForall as (rs & E & F). cbn [map]. rewrite E.
    destruct x as [| | |r]; cbn in H; try easy.
    - exists (0 :: rs). split; [reflexivity|]. constructor; [lra|auto].
    - exists ((if (#0 <=.? Fin r)%F then r else 0) :: rs). cbn. unfold xleb. cbn.
      destruct (Rlt_dec 0 r); cbn; [split; [reflexivity|constructor; [lra|auto]]|].
      destruct (Req_EM_T 0 r); cbn; (split; [reflexivity|constructor; [lra|auto]]). }
  destruct E as (rs & E & F). rewrite E, fsum_fin. eexists. split; [reflexivity|].
  assert (G : forall x, 0 <= x -> 0 <= fold_left Rplus rs x); [|apply G; lra].
  clear E. induction F; cbn; intros; auto. apply IHF. lra.
Qed.
Lemma sum_clip_neg : forall win : list xr, Forall (fpred (fun _ => True)) win ->
  exists x, fsum (map (fun v => if (v <.? #0)%F then v else (#0)%F) win) = Fin x.
Proof.
  intros win H. assert (E : exists rs, map (fun v => if (v <.? #0)%F then v else (#0)%F) win = map Fin rs).
  { induction H; [exists []; auto|]. destruct IHForall as (rs & E). cbn [map]. rewrite E.
    destruct x as [| | |r]; cbn in H; try easy.
    - exists (0 :: rs). reflexivity.
    - exists ((if (Fin r <.? #0)%F then r else 0) :: rs). cbn. destruct (Rlt_dec r 0); reflexivity. }
  destruct E as (rs & E). rewrite E, fsum_fin. eauto.
Qed.
Lemma mfi_range : forall w fl rows out, compute (Mfi w) fl rows = Ok out -> Forall (within 0 100) out.
Proof.
  intros w fl rows out H. cbn [compute] in H. unfold money_flow_index in H. inv_ok.
  apply check_within; try (reflexivity || lia || lra).
  rename r into pm. rename r0 into nm.
  assert (P : Forall (fpred (fun r => 0 <= r)) pm).
  { eapply (rolling_pred (fpred (fun _ => True))); [|apply prep_any|exact E].
    intros win Hw. unfold win_agg, agg_apply, agg_max, agg_min, win_apply. destruct (_ <=? _); [|exact I].
    destruct (sum_clip_pos win Hw) as (x & -> & Hx). exact Hx. }
  assert (N : Forall (fpred (fun r => True)) nm).
  { eapply (rolling_pred (fpred (fun _ => True))); [|apply prep_any|exact E0].
    intros win Hw. unfold win_agg, agg_apply, agg_max, agg_min, win_apply. destruct (_ <=? _); [|exact I].
    destruct (sum_clip_neg win Hw) as (x & ->). exact I. }
  clear E E0. unfold sdiv. revert nm N. induction P as [|x pm Hx P IH]; intros [|y nm] N; cbn [map map2]; auto.
  inversion N; subst. constructor; auto. clear - Hx H1.
  destruct x as [| | |a], y as [| | |b]; cbn in Hx, H1; try easy.
  cbn [fabs xabs XR fdiv]. assert (Ht : 0 <= Rabs b) by apply Rabs_pos. generalize dependent (Rabs b). intros t Ht.
  rewrite xdiv_ratio. unfold ratio. destruct (Req_EM_T t 0).
  - destruct (Rlt_dec 0 a); [cbn; lra|]. destruct (Rlt_dec a 0); [lra|exact I].
  - assert (0 <= a / t) by (apply Rmult_le_pos; auto; apply Rlt_le, Rinv_0_lt_compat; lra).
    cbn. destruct (Req_EM_T (1 + a / t) 0); [exfalso; lra|]. cbn.
    assert (0 <= 100 / (1 + a / t) <= 100); [|lra]. split.
    + apply Rmult_le_pos; [lra|]. apply Rlt_le, Rinv_0_lt_compat. lra.
    + apply Rmult_le_reg_r with (1 + a / t); [lra|]. unfold Rdiv at 1. rewrite Rmult_assoc, Rinv_l by lra. nra.
Qed.
