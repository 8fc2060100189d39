(** * ApartGaps: rows that some column lacks (C102). *)
From Coq Require Import Lia Sorting.Sorted.
From Verif Require Import Lists Align Apart SpecApart ApartProofs ApartIndex Quiet Stuck.
Local Open Scope f_scope.

Section Gaps.
Context {F : Type} {A : Arith F} {L : ArithLaws F}.
Variable t : Z.
Definition gone (a : column F) : Prop := fisnan (row a t) = true.
(** every column in play has increasing labels *)
Definition gap (a : column F) : Prop := ascending a /\ gone a.
Definition up (a : column F) : Prop := ascending a.

Lemma gone_absent : forall a : column F, ~ In t (labels a) -> gone a.
Proof. intros a N. unfold gone. rewrite row_notin by exact N. apply isnan_nan. Qed.
Lemma row_byrow : forall (g : Z -> F) ls, NoDup ls -> In t ls -> row (map (fun u => (u, g u)) ls) t = g t.
Proof.
  intros g ls N I. induction ls as [|u ls IH]; [destruct I|]. cbn [map row]. destruct (Z.eqb_spec t u) as [->|E]; [reflexivity|].
  inversion N; subst. destruct I as [->|I]; [contradiction|]. apply IH; assumption.
Qed.
Lemma gone_op2 : forall (f : F -> F -> F) a b, ascending a -> (fisnan (f (row a t) (row b t)) = true) -> gone (op2 f a b).
Proof.
  intros f a b S H. unfold gone. destruct (in_dec Z.eq_dec t (union (labels a) (labels b))) as [I|N].
  - unfold op2. rewrite row_byrow; [exact H| |exact I]. apply sorted_nodup, union_sorted, S.
  - rewrite row_notin; [apply isnan_nan|]. rewrite labels_op2. exact N.
Qed.
Lemma gap_op2_l : forall f a b, (forall x y, fisnan x = true -> fisnan (f x y) = true) -> gap a -> up b -> gap (op2 f a b).
Proof. intros f a b H [S G] _. split; [unfold ascending; rewrite labels_op2; apply union_sorted, S|]. apply gone_op2; [exact S|]. apply H, G. Qed.
Lemma gap_op2_r : forall f a b, (forall x y, fisnan y = true -> fisnan (f x y) = true) -> up a -> gap b -> gap (op2 f a b).
Proof. intros f a b H S [_ G]. split; [unfold ascending; rewrite labels_op2; apply union_sorted, S|]. apply gone_op2; [exact S|]. apply H, G. Qed.
Lemma up_op2 : forall f (a b : column F), up a -> up b -> up (op2 f a b).
Proof. intros f a b S _. unfold up, ascending. rewrite labels_op2. apply union_sorted, S. Qed.
Lemma up_cmap : forall f (a : column F), up a -> up (cmap f a).
Proof. intros f a S. unfold up, ascending. rewrite labels_cmap. exact S. Qed.
Lemma gap_cmap : forall f a, (forall x, fisnan x = true -> fisnan (f x) = true) -> gap a -> gap (cmap f a).
Proof.
  intros f a H [S G]. split; [apply up_cmap, S|]. unfold gone in *. clear S. unfold cmap. induction a as [|[u x] a IH]; cbn [map row fst snd] in *; [apply isnan_nan|].
  destruct (t =? u)%Z; [apply H, G|]. apply IH, G.
Qed.
(** the position of a label *)
Lemma position : forall ls, In t ls -> NoDup ls -> exists i, (i < length ls)%nat /\ forall x : list F, length x = length ls -> row (combine ls x) t = nth i x fnan.
Proof.
  induction ls as [|u ls IH]; intros I N; [destruct I|]. inversion N; subst. destruct (Z.eq_dec t u) as [->|E].
  - exists 0%nat. split; [cbn; lia|]. intros [|y x] X; [discriminate X|]. cbn. rewrite Z.eqb_refl. reflexivity.
  - destruct I as [->|I]; [contradiction|]. destruct (IH I H2) as (i & B & P). exists (S i). split; [cbn; lia|].
    intros [|y x] X; [discriminate X|]. injection X as X. cbn [combine row nth]. destruct (Z.eqb_spec t u); [contradiction|]. apply P, X.
Qed.
Lemma gone_eachr : forall f (a : column F) r, (forall s x i, f s = Ok x -> fisnan (nth i s fnan) = true -> (i < length s)%nat -> fisnan (nth i x fnan) = true) ->
  (forall s x, f s = Ok x -> length x = length s) -> gap a -> eachr f a = Ok r -> gap r.
Proof.
  intros f a r H Lf [S G] E. unfold eachr in E. destruct (f (values a)) as [x|e] eqn:X; [|discriminate E]. injection E as <-.
  assert (Lx : length x = length (labels a)) by (rewrite (Lf _ _ X), len_values, len_labels; reflexivity).
  split; [unfold ascending; rewrite labels_combine by exact Lx; exact S|].
  destruct (in_dec Z.eq_dec t (labels a)) as [I|N].
  2:{ apply gone_absent. rewrite labels_combine by exact Lx. exact N. }
  destruct (position (labels a) I (sorted_nodup _ S)) as (i & B & P). unfold gone in *. rewrite P by exact Lx.
  rewrite (split_column a), P in G by (rewrite len_values, len_labels; reflexivity). apply (H _ _ i X G). rewrite len_values, <- len_labels. exact B.
Qed.
Lemma gone_each : forall f (a : column F), (forall s i, fisnan (nth i s fnan) = true -> fisnan (nth i (f s) fnan) = true) -> (forall s, length (f s) = length s) -> gap a -> gap (each f a).
Proof.
  intros f a H Lf G. apply (gone_eachr (fun s => Ok (f s)) a); [|intros s x E; injection E as <-; apply Lf|exact G|reflexivity].
  intros s x i E N _. injection E as <-. apply H, N.
Qed.
Lemma up_eachr : forall f (a r : column F), (forall s x, f s = Ok x -> length x = length s) -> up a -> eachr f a = Ok r -> up r.
Proof.
  intros f a r Lf S E. unfold eachr in E. destruct (f (values a)) as [x|e] eqn:X; [|discriminate E]. injection E as <-. unfold up, ascending.
  rewrite labels_combine; [exact S|]. rewrite (Lf _ _ X), len_values, len_labels. reflexivity.
Qed.
Lemma up_each : forall f (a : column F), (forall s, length (f s) = length s) -> up a -> up (each f a).
Proof. intros f a Lf S. unfold up, ascending. rewrite labels_each by apply Lf. exact S. Qed.
Lemma counts_gap : forall w agg (s : list F) r i, counts agg -> (1 <= w)%Z -> rolling w w agg s = Ok r -> fisnan (nth i s fnan) = true -> (i < length s)%nat -> fisnan (nth i r fnan) = true.
Proof.
  intros w agg s r i C W E N I. unfold rolling in E. destruct (_ || _); [discriminate E|]. injection E as <-.
  assert (Lp : length (prep s) = length s) by apply map_length.
  assert (O : (length (obs (window_at (Z.to_nat w) i (prep s))) < Z.to_nat w)%nat).
  { set (win := window_at (Z.to_nat w) i (prep s)).
    assert (Lw : length win = Nat.min (Z.to_nat w) (S i)) by (unfold win, window_at; rewrite skipn_length, firstn_length, Lp; lia).
    assert (length (obs win) < length win)%nat; [|lia].
    apply (obs_short win (length win - 1)); [lia|]. rewrite Lw. unfold win, window_at. rewrite nth_skipn', nth_firstn_lt by lia.
    replace (S i - Z.to_nat w + (Nat.min (Z.to_nat w) (S i) - 1))%nat with i by lia. unfold prep. rewrite (nth_map_lt _ _ _ _ fnan) by auto.
    rewrite (nan_unique _ N), isinf_nan. apply isnan_nan. }
  assert (m : (length (obs (window_at (Z.to_nat w) i (prep s))) <? Z.to_nat w) = true) by (apply Nat.ltb_lt; lia).
  assert (m' : (Z.to_nat w <=? length (obs (window_at (Z.to_nat w) i (prep s)))) = false) by (apply Nat.leb_gt; lia).
  assert (H : (i < length (prep s))%nat) by lia.
  destruct C; cbn [roll_rows agg_max agg_min agg_apply].
  1-3: match goal with |- context [map2 ?f (seq 0 ?n) ?l] => destruct (nth_map2_seq f n l 0 i H) as [[st ->]| ->]; [|apply isnan_nan] end;
       cbn [Nat.add]; unfold calc_sum, calc_mean, calc_std0; rewrite m; apply isnan_nan.
  all: rewrite nth_map_seq by exact H; unfold win_max, win_min, win_apply; rewrite ?m, ?m'; apply isnan_nan.
Qed.
Lemma gap_roll : forall w agg a r, counts agg -> (1 <= w)%Z -> gap a -> croll w w agg a = Ok r -> gap r.
Proof. intros w agg a r C W. apply gone_eachr; [intros s x i E N I; exact (counts_gap w agg s x i C W E N I)|intros s x; apply len_rolling]. Qed.
Lemma roll_gap : forall w m agg a r, ~ In t (labels a) -> ascending a -> croll w m agg a = Ok r -> gap r.
Proof.
  intros w m agg a r N S E. unfold croll, eachr in E. destruct (rolling w m agg (values a)) as [x|e] eqn:X; [|discriminate E]. injection E as <-.
  assert (Lx : length x = length (labels a)) by (rewrite (len_rolling _ _ _ _ _ X), len_values, len_labels; reflexivity).
  split; [unfold ascending; rewrite labels_combine by exact Lx; exact S|]. apply gone_absent. rewrite labels_combine by exact Lx. exact N.
Qed.
Lemma up_roll : forall w m agg a r, up a -> croll w m agg a = Ok r -> up r.
Proof. intros w m agg a r. apply up_eachr. intros s x. apply len_rolling. Qed.
Lemma fill_false : forall z (a : column F), cfill false z a = a.
Proof. intros z a. unfold cfill, each. cbn [check_fillna]. symmetry. apply split_column. Qed.
Lemma offset_0 : forall a : column F, each (donchian_offset 0) a = a.
Proof. intros a. unfold each, donchian_offset. cbn. symmetry. apply split_column. Qed.
Lemma gap_cumsum : forall a, gap a -> gap (each cumsum a).
Proof.
  intros a. apply gone_each; [|intros; apply ln_cumsum; reflexivity]. intros s. unfold cumsum. generalize (#0 : F).
  induction s as [|x s IH]; intros acc i N; [destruct i; exact N|]. cbn [cumsum_go]. destruct i as [|i]; cbn [nth] in *.
  - rewrite N. apply isnan_nan.
  - destruct (fisnan x); cbn [nth]; apply IH, N.
Qed.

(** ** Columns without a row at the label *)
Definition absent (a : column F) : Prop := ascending a /\ ~ In t (labels a).
Lemma absent_gap : forall a, absent a -> gap a.
Proof. intros a [S N]. split; [exact S|apply gone_absent, N]. Qed.
Lemma absent_with : forall (a : column F) x, length x = length (labels a) -> absent a -> absent (combine (labels a) x).
Proof. intros a x X [S N]. unfold absent, ascending. rewrite labels_combine by exact X. split; assumption. Qed.
Lemma up_with : forall (a : column F) x, length x = length (labels a) -> up a -> up (combine (labels a) x).
Proof. intros a x X S. unfold up, ascending. rewrite labels_combine by exact X. exact S. Qed.
Lemma absent_each : forall f (a : column F), (forall s, length (f s) = length s) -> absent a -> absent (each f a).
Proof. intros f a Lf S. apply absent_with; [|exact S]. rewrite Lf, len_values, len_labels. reflexivity. Qed.
Lemma absent_roll : forall w m agg (a r : column F), absent a -> croll w m agg a = Ok r -> absent r.
Proof.
  intros w m agg a r S E. unfold croll, eachr in E. destruct (rolling w m agg (values a)) as [x|e] eqn:X; [|discriminate E]. injection E as <-.
  apply absent_with; [|exact S]. rewrite (len_rolling _ _ _ _ _ X), len_values, len_labels. reflexivity.
Qed.
Lemma gap_up : forall a, gap a -> up a.
Proof. intros a [S _]. exact S. Qed.
Lemma absent_up : forall a, absent a -> up a.
Proof. intros a [S _]. exact S. Qed.
Lemma gap_signed : forall (a : column F) y, length y = length a -> gap a -> gap (combine (labels a) (smul (values a) y)).
Proof.
  intros a y Y G. assert (Y' : length y = length (values a)) by (rewrite len_values; exact Y).
  apply (gone_eachr (fun s => if length s =? length y then Ok (smul s y) else Raise ValueError) a).
  - intros s x i E N I. destruct (Nat.eqb_spec (length s) (length y)) as [Q|]; [|discriminate E]. injection E as <-. unfold smul.
    rewrite (nth_map2_lt _ _ _ _ _ fnan fnan) by lia. apply mul_nan_l, N.
  - intros s x E. destruct (Nat.eqb_spec (length s) (length y)) as [Q|]; [|discriminate E]. injection E as <-. apply ln_map2; [reflexivity|lia].
  - exact G.
  - unfold eachr. rewrite <- Y', Nat.eqb_refl. reflexivity.
Qed.
End Gaps.

Ltac nanlaw := first [ exact add_nan_l | exact add_nan_r | exact sub_nan_l | exact sub_nan_r | exact mul_nan_l | exact mul_nan_r | exact div_nan_l | exact div_nan_r
  | intros x N; cbn beta; rewrite ?abs_nan; solve [exact N | apply mul_nan_l, N | apply mul_nan_r, N | apply div_nan_l, N | apply sub_nan_r, div_nan_r, add_nan_r, N] ].
Ltac solve_up := lazymatch goal with
  | |- up (op2 _ _ _) => apply up_op2; solve_up
  | |- up (cmap _ _) => apply up_cmap; solve_up
  | |- up (each _ _) => apply up_each; [intros; first [apply len_pct|solve [ln]]|solve_up]
  | |- up _ => first [ assumption | solve [eapply absent_up; eassumption] | solve [eapply gap_up; eassumption] ]
  end.
Ltac solve_absent := lazymatch goal with
  | |- absent _ (each _ _) => apply absent_each; [intros; first [apply len_pct|solve [ln]]|solve_absent]
  | |- absent _ _ => assumption
  end.
Ltac solve_gap := lazymatch goal with
  | |- gap _ (op2 _ _ _) => first [ solve [apply gap_op2_l; [nanlaw|solve_gap|solve_up]] | solve [apply gap_op2_r; [nanlaw|solve_up|solve_gap]] ]
  | |- gap _ (cmap _ _) => apply gap_cmap; [nanlaw|solve_gap]
  | |- gap _ (each (@cumsum _ _) _) => apply gap_cumsum; solve_gap
  | |- gap _ (each _ _) => apply absent_gap; solve_absent
  | |- gap _ _ => first [ assumption | apply absent_gap; assumption ]
  end.
Ltac known x := first [ match goal with K : up x |- _ => idtac end | match goal with K : absent _ x |- _ => idtac end | match goal with K : gap _ x |- _ => idtac end ].
Ltac learn t := repeat match goal with
  | E : croll _ _ _ ?a = Ok ?r |- _ =>
      assert_fails (known r);
      first [ assert (absent t r) by (eapply absent_roll; [|exact E]; solve_absent)
            | assert (gap t r) by (eapply gap_roll; [| | |exact E]; [constructor|lia|solve_gap])
            | assert (up r) by (eapply up_roll; [|exact E]; solve_up) ]
  end.

Section Table.
Context {F : Type} {A : Arith F} {L : ArithLaws F}.
Lemma gap_mfi : forall t (h l c v : column F) w out, (1 <= w)%Z -> gap t (cmul (a_typical h l c) v) -> a_mfi h l c v w false = Ok out -> gap t out.
Proof.
  intros t h l c v w out W G E. unfold a_mfi in E. cbv zeta in E. set (flow := cmul (a_typical h l c) v) in *. set (tp := a_typical h l c) in *.
  set (ud := map2 _ (values tp) _) in E. assert (Lu : length ud = length tp) by (unfold ud; rewrite length_map2, len_shift, len_values; lia).
  destruct (negb _ && negb _) eqn:B; [discriminate E|].
  match type of E with context [smul (values flow) ?y] => assert (gap t (combine (labels flow) (smul (values flow) y))) as M end.
  { apply gap_signed; [|exact G]. rewrite !len_values in *. destruct (length flow =? length tp) eqn:Q; [apply Nat.eqb_eq in Q; lia|apply repeat_length]. }
  set (mfr := combine (labels flow) _) in *. revert E. unfold minp_of, cdiv. intros E. inv_ok. rewrite fill_false. learn t. solve_gap.
Qed.
Theorem missing_rows : forall (ind : indicator F) k out t x, all_ascending k -> strict ind = true ->
  compute_apart ind false k = Ok out -> In x (index_from ind) -> ~ In t (labels (pick k x)) -> fisnan (row out t) = true.
Proof.
  intros ind k out t x (Sh & Sl & Sc & Sv) St E I N.
  change (ascending (c_high k)) with (up (c_high k)) in Sh. change (ascending (c_low k)) with (up (c_low k)) in Sl.
  change (ascending (c_close k)) with (up (c_close k)) in Sc. change (ascending (c_volume k)) with (up (c_volume k)) in Sv.
  assert (G : absent t (pick k x)) by (split; [destruct x; assumption|exact N]). clear N.
  cut (gap t out); [intros [_ H]; exact H|].
  destruct ind; cbn [strict] in St; try discriminate St; cbn [compute_apart index_from] in *; try (apply andb_true_iff in St; destruct St as [St St']).
  all: try match type of St with ?b = true => is_var b; subst b end.
  all: try match type of St with negb _ = true => apply negb_true_iff in St; subst end.
  all: try match type of St with (_ =? 0)%Z = true => apply Z.eqb_eq in St; subst end.
  all: try apply Z.leb_le in St. all: try apply Z.leb_le in St'.
  all: revert E; unf_cols; cbv zeta; cbn [bind]; rewrite ?fill_false; unfold minp_of, donchian_minp; intros E.
  all: repeat (destruct I as [<-|I]; [|]); try destruct I; cbn [pick] in G.
  all: inv_ok; cbn [ak_tp ak_high ak_low]; rewrite ?offset_0, ?fill_false; learn t.
  all: try solve [solve_gap].
  1-2: unfold a_aroon, aroon_run in E0; cbv zeta in E0; inv_ok.
  1-2: repeat match goal with U : rolling _ _ _ (values ?a) = Ok ?u |- _ => 
         assert (length u = length (labels a)) by (rewrite (len_rolling _ _ _ _ _ U), len_values, len_labels; reflexivity); clear U end.
  1: apply gap_op2_l; [exact sub_nan_l|apply absent_gap, absent_with; assumption|apply up_with; assumption].
  1: apply gap_op2_r; [exact sub_nan_r|apply up_with; assumption|apply absent_gap, absent_with; assumption].
  1-2: destruct smoothing_factor as [z|]; [apply Z.leb_le in St'; destruct (Z.eqb_spec z 0) as [Z0|Z0]|]; inv_ok; learn t; solve_gap.
  all: eapply gap_mfi; [exact St| |exact E]; unf_cols; solve_gap.
Qed.
End Table.
