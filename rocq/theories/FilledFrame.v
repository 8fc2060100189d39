(** * FilledFrame: lemmas for C76 (no missing cell after fillna=True) *)
From Coq Require Import String Lra.
From Verif Require Import Lists Api SpecNum SpecFill SpecFrame Align Fill Tab Averages Bands Channels Oscillators Returns Lines
  Cycles Sar Frames Wrapper.
Close Scope string_scope.
Local Open Scope R_scope.

(** ** filling, any arithmetic *)
Section Any.
Context {F : Type} {A : Arith F} {L : ArithLaws F}.
Lemma backward_all_or_none : forall raw out : list F, filled_backward raw out ->
  ((exists j, (j < length raw)%nat /\ ffinite (nth j raw fnan) = true) /\ Forall (fun x => ffinite x = true) out) \/
  (Forall (fun x => ffinite x = false) raw /\ Forall (fun x => x = fnan) out).
Proof.
  intros raw out (HL & H1 & H2 & H3 & H4).
  destruct (existsb ffinite raw) eqn:E.
  - left. apply existsb_exists in E as (x & Hx & Fx). apply In_nth with (d := fnan) in Hx as (j & Hj & <-).
    split; [eauto|].
    assert (X : exists j0, (j0 < length raw)%nat /\ ffinite (nth j0 raw fnan) = true /\
                 forall k, (k < j0)%nat -> ffinite (nth k raw fnan) = false).
    { revert Hj Fx. induction j as [j IH] using (well_founded_induction lt_wf). intros Hj Fx.
      destruct (existsb (fun k => ffinite (nth k raw fnan)) (seq 0 j)) eqn:E.
      - apply existsb_exists in E as (k & Hk & Fk). apply in_seq in Hk. apply (IH k); auto; lia.
      - exists j. repeat split; auto. intros k Hk. destruct (ffinite (nth k raw fnan)) eqn:Fk; auto.
        rewrite <- E. symmetry. apply existsb_exists. exists k. split; auto. apply in_seq. lia. }
    destruct X as (j0 & Hj0 & Fj0 & N).
    assert (G : forall i, (i < length raw)%nat -> ffinite (nth i out fnan) = true).
    { induction i as [i IH] using (well_founded_induction lt_wf). intros Hi.
      destruct (ffinite (nth i raw fnan)) eqn:Fi; [rewrite H1; auto|].
      destruct (lt_eq_lt_dec i j0) as [[X|X]|X]; [rewrite (H3 i j0); auto|congruence|].
      rewrite (H2 i j0) by auto. apply IH; lia. }
    apply Forall_forall. intros y Hy. apply In_nth with (d := fnan) in Hy as (i & Hi & <-). apply G. lia.
  - right. assert (G : Forall (fun x => ffinite x = false) raw).
    { apply Forall_forall. intros y Hy. destruct (ffinite y) eqn:Fy; auto.
      rewrite <- E. symmetry. apply existsb_exists. eauto. }
    split; auto. rewrite Forall_forall in G.
    apply Forall_forall. intros y Hy. apply In_nth with (d := fnan) in Hy as (i & Hi & <-).
    apply H4; [|lia]. intros. apply G, nth_In. auto.
Qed.
Lemma series_filled_finite : forall v s : list F, Forall (fun x => ffinite x = true) v ->
  Forall (fun x => ffinite x = true) (check_fillna true (FillSeries v) s).
Proof.
  intros v s Hv. unfold check_fillna, fillna_series.
  assert (G : Forall (fun x => fisnan x = true \/ ffinite x = true) (ffill (replace_inf s))).
  { unfold ffill. assert (N : fisnan (fnan : F) = true \/ ffinite (fnan : F) = true) by (left; apply isnan_nan).
    revert N. generalize (fnan : F) as a. induction s as [|x s IH]; intros a Ha; cbn; constructor.
    - fold (rinf x). rewrite rinf_nan. destruct (ffinite x) eqn:E; cbn [negb]; auto. rewrite rinf_fin; auto.
    - apply IH. fold (rinf x). rewrite rinf_nan. destruct (ffinite x) eqn:E; cbn [negb]; auto. rewrite rinf_fin; auto. }
  revert Hv G. generalize (ffill (replace_inf s)). clear. intros t Hv. revert t.
  induction Hv as [|y v Fy Hv IH]; intros [|x t] G; cbn; constructor; inversion G; subst; auto.
  destruct (fisnan x) eqn:E; auto. destruct H1; auto; discriminate.
Qed.
End Any.

(** ** the plan on finite data *)
Definition fin (x : xr) : Prop := ffinite x = true.
Lemma tab_finite : forall n g, Forall fin (tab n (from 0 g)).
Proof. intros. apply Forall_forall. intros x H. unfold tab in H. apply in_map_iff in H as (i & <- & _). reflexivity. Qed.
Lemma ok_finite : forall r n g out, r = Ok (tab n (from 0 g)) -> r = Ok out -> Forall fin out.
Proof. intros. replace out with (tab n (from 0 g)) by congruence. apply tab_finite. Qed.

Section Plan.
Variables (n : nat) (h l c v : nat -> R) (log : xr -> xr) (b : bool).
Hypotheses (Hn : (1 <= n)%nat) (Hc : c 0%nat <> 0).
Let rows := SpecNum.frame n h l c v.

Lemma bands_finite : forall w d out, (1 <= w)%nat ->
  compute (BbM (Z.of_nat w) (Fin d)) true rows = Ok out \/ compute (BbH (Z.of_nat w) (Fin d)) true rows = Ok out \/
  compute (BbL (Z.of_nat w) (Fin d)) true rows = Ok out -> Forall fin out.
Proof.
  intros w d out Hw E. destruct (bb_formula true w d n h l c v Hw) as (E1 & E2 & E3).
  destruct E as [E|[E|E]]; [exact (ok_finite _ _ _ _ E1 E)|exact (ok_finite _ _ _ _ E2 E)|exact (ok_finite _ _ _ _ E3 E)].
Qed.
Lemma keltner_finite : forall w a m out, (1 <= w)%nat ->
  compute (KcM (Z.of_nat w) a true m) true rows = Ok out \/ compute (KcH (Z.of_nat w) a true m) true rows = Ok out \/
  compute (KcL (Z.of_nat w) a true m) true rows = Ok out -> Forall fin out.
Proof.
  intros w a m out Hw E. destruct (kc_bands_original true w a m n h l c v Hw) as (E1 & E2 & E3 & _).
  destruct E as [E|[E|E]]; [exact (ok_finite _ _ _ _ E1 E)|exact (ok_finite _ _ _ _ E2 E)|exact (ok_finite _ _ _ _ E3 E)].
Qed.
Lemma donchian_finite : forall w out, (1 <= w)%nat ->
  compute (DcH (Z.of_nat w) 0) true rows = Ok out \/ compute (DcL (Z.of_nat w) 0) true rows = Ok out \/
  compute (DcM (Z.of_nat w) 0) true rows = Ok out -> Forall fin out.
Proof.
  intros w out Hw E. destruct (dc_bands true w n h l c v Hw) as (E1 & E2 & E3).
  destruct E as [E|[E|E]]; [exact (ok_finite _ _ _ _ E1 E)|exact (ok_finite _ _ _ _ E2 E)|exact (ok_finite _ _ _ _ E3 E)].
Qed.
Lemma ichi_finite : forall w1 w2 w3 vis out, (1 <= w1)%nat -> (1 <= w2)%nat -> (1 <= w3)%nat ->
  compute (IchiConv (Z.of_nat w1) (Z.of_nat w2) (Z.of_nat w3) vis) true rows = Ok out \/
  compute (IchiBase (Z.of_nat w1) (Z.of_nat w2) (Z.of_nat w3) vis) true rows = Ok out \/
  compute (IchiA (Z.of_nat w1) (Z.of_nat w2) (Z.of_nat w3) vis) true rows = Ok out \/
  compute (IchiB (Z.of_nat w1) (Z.of_nat w2) (Z.of_nat w3) vis) true rows = Ok out -> Forall fin out.
Proof.
  intros w1 w2 w3 vis out H1 H2 H3 E.
  destruct (ichi_formula true w1 w2 w3 vis n h l c v H1 H2 H3) as (E1 & E2 & E3 & E4).
  destruct (ichi_visual true w1 w2 w3 n h l c v H1 H2 H3) as (E5 & E6).
  destruct E as [E|[E|[E|E]]]; [exact (ok_finite _ _ _ _ E1 E)|exact (ok_finite _ _ _ _ E2 E)| |
    destruct vis; [exact (ok_finite _ _ _ _ E6 E)|exact (ok_finite _ _ _ _ E4 E)]].
  destruct vis; [|exact (ok_finite _ _ _ _ E3 E)].
  destruct E5 as (out' & E5 & S). unfold rows in E. replace out with out' by congruence.
  apply backward_all_or_none in S as [[_ S]|[S _]]; [exact S|exfalso].
  unfold warm in S. destruct n as [|n']; [lia|]. destruct w2 as [|w2']; [lia|]. inversion S. discriminate.
Qed.
Lemma psar_ind_finite : forall s m out,
  compute (PsarUpInd b s m) true rows = Ok out \/ compute (PsarDownInd b s m) true rows = Ok out -> Forall fin out.
Proof.
  assert (G : forall u s, Forall fin (psar_indicator u s)).
  { intros u s. unfold psar_indicator. apply Forall_forall. intros x Hx. apply in_map_iff in Hx as (y & <- & _).
    unfold fin. destruct (feqb y (fofZ 0)) eqn:E; [|reflexivity]. destruct y; cbn in E; try discriminate. reflexivity. }
  intros s m out E. cbn [compute] in E. unfold psar_up_indicator, psar_down_indicator in E.
  destruct psar_run; cbn [bind] in E; [|destruct E; discriminate]. destruct E as [[= <-]|[= <-]]; apply G.
Qed.
Lemma kama_finite : forall w p q out, compute (Kama w p q) true rows = Ok out -> Forall fin out.
Proof.
  intros w p q out E. cbn [compute] in E. unfold kama in E.
  destruct (kama_run _ _ _ _ _) as [r|] eqn:K; [|discriminate]. cbn [rmap] in E.
  injection E as <-. apply series_filled_finite. unfold rows. rewrite close_tab. apply tab_finite.
Qed.
Lemma plan_finite : forall vec name ind out, In (name, ind) (selected vec (all_columns log b)) ->
  name <> "trend_psar_up"%string -> name <> "trend_psar_down"%string -> compute ind true rows = Ok out -> Forall fin out.
Proof.
  intros vec name ind out Hi N1 N2 E.
  assert (I : In (name, ind) (selected false (all_columns log b))).
  { unfold selected in *. apply in_map_iff in Hi as (e & <- & He). apply in_map_iff. exists e. split; auto.
    apply filter_In in He as [He _]. apply filter_In. auto. }
  clear Hi vec. cbn in I.
  repeat (destruct I as [I|I]; [injection I as <- <-;
    first [eapply fill_const_finite; [|exact E]; reflexivity
          |congruence
          |apply (bands_finite 20 2 out); [lia|first [left; exact E|right; left; exact E|right; right; exact E]]
          |apply (keltner_finite 10 10 (Fin 2) out); [lia|first [left; exact E|right; left; exact E|right; right; exact E]]
          |apply (donchian_finite 20 out); [lia|first [left; exact E|right; left; exact E|right; right; exact E]]
          |exact (ok_finite _ _ _ _ (sma_formula true 12 n h l c v ltac:(lia)) E)
          |exact (ok_finite _ _ _ _ (sma_formula true 26 n h l c v ltac:(lia)) E)
          |exact (ok_finite _ _ _ _ (ema_formula true 12 n h l c v ltac:(lia)) E)
          |exact (ok_finite _ _ _ _ (ema_formula true 26 n h l c v ltac:(lia)) E)
          |apply (ichi_finite 9 26 52 false out); [lia|lia|lia|first [left; exact E|right; left; exact E|right; right; left; exact E|do 3 right; exact E]]
          |apply (ichi_finite 9 26 52 true out); [lia|lia|lia|first [right; right; left; exact E|do 3 right; exact E]]
          |eapply psar_ind_finite; first [left; exact E|right; exact E]
          |exact (kama_finite _ _ _ _ E)
          |exact (ok_finite _ _ _ _ (cum_formula true n h l c v Hn Hc) E)]|]).
  destruct I.
Qed.
End Plan.

Lemma all_filled : forall log prefix ii n h l c v high low close volume vectorized open (df df' : Wrapper.frame xr),
  apart [high; low; close; volume] (added prefix vectorized (all_columns log ii)) ->
  holds (SpecNum.frame n h l c v) high low close volume df -> (1 <= n)%nat -> c 0%nat <> 0 ->
  add_all_ta_features log (labels_of ii (SpecNum.frame n h l c v)) open high low close volume true prefix vectorized df
    = (df', Ok tt) ->
  forall name ind, In (name, ind) (selected vectorized (all_columns log ii)) ->
  name <> "trend_psar_up"%string -> name <> "trend_psar_down"%string ->
  exists col, column (prefix ++ name) df' = Some col /\ length col = n /\ Forall (fun x => ffinite x = true) col.
Proof.
  intros log prefix ii n h l c v high low close volume vec open df df' Ap Hd Hn Hc E name ind Hi N1 N2.
  destruct (all_extended _ _ _ _ _ _ _ _ _ _ _ _ _ Ap Hd E) as (_ & _ & G).
  destruct (G name ind Hi) as (col & C & K). exists col. split; [exact K|]. split.
  - rewrite <- (len_tab n (fun i => mkbar (Z.of_nat i) (Fin (h i)) (Fin (l i)) (Fin (c i)) (Fin (v i)))).
    apply (compute_length ind true (SpecNum.frame n h l c v) col); [|exact C].
    assert (I : In (name, ind) (selected false (all_columns log ii))).
    { unfold selected in *. apply in_map_iff in Hi as (e & <- & He). apply in_map_iff. exists e. split; auto.
      apply filter_In in He as [He _]. apply filter_In. auto. }
    clear - I. cbn in I. repeat (destruct I as [I|I]; [injection I as <- <-; cbn; try exact Logic.I; try (right; apply frame_default)|]).
    destruct I.
  - exact (plan_finite n h l c v log ii Hn Hc vec name ind col Hi N1 N2 C).
Qed.

Lemma psar_all_or_none : forall F (A : Arith F), ArithLaws F ->
  forall (ind : indicator F) rows raw out, (exists b s m, ind = PsarUp b s m \/ ind = PsarDown b s m) ->
  compute ind false rows = Ok raw -> compute ind true rows = Ok out ->
  (Forall (fun x => ffinite x = true) out /\ Exists (fun x => ffinite x = true) raw) \/
  (Forall (fun x => x = fnan) out /\ Forall (fun x => ffinite x = false) raw).
Proof.
  intros F A L ind rows raw out (b & s & m & Hi) E E'.
  assert (G := flag_free_filled ind rows raw). destruct G as (o & Eo & G); [destruct Hi; subst; reflexivity|auto|].
  replace o with out in G by congruence.
  assert (B : filled_backward raw out) by (destruct Hi; subst; exact G).
  destruct (backward_all_or_none _ _ B) as [[(j & Hj & Fj) X]|[X Y]]; [left|right]; split; auto.
  apply Exists_exists. exists (nth j raw fnan). split; auto. now apply nth_In.
Qed.
