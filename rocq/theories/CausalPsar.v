(** * CausalPsar: PSAR on a prefix; PSAR and row labels (C03, C59). *)
From Verif Require Import Lists Api Align SpecCausal Causal.

Section PsarPrefix.
Context {F : Type} {A : Arith F}.

Lemma upd_firstn : forall {B} k i (v : B) l, upd i v (firstn k l) = firstn k (upd i v l).
Proof.
  induction k; intros; [now destruct i|]. destruct l, i; cbn; try reflexivity. now rewrite IHk.
Qed.
Lemma upd_beyond : forall {B} k i (v : B) l, k <= i -> firstn k (upd i v l) = firstn k l.
Proof.
  induction k; intros; [reflexivity|]. destruct l, i; cbn; try reflexivity; try lia.
  rewrite IHk; auto. lia.
Qed.
Lemma nth_upd_eq : forall {B} i (v : B) l d, i < length l -> nth i (upd i v l) d = v.
Proof. induction i; destruct l; cbn; intros; auto; try lia. apply IHi. lia. Qed.
Lemma nth_upd_neq : forall {B} i j (v : B) l d, i <> j -> nth j (upd i v l) d = nth j l d.
Proof. induction i; destruct l, j; cbn; intros; auto; try lia. Qed.

(** a state on a prefix of the rows *)
Definition ptake (k : nat) (st : @psar_state F) : psar_state :=
  {| ps_up_trend := ps_up_trend st; ps_af := ps_af st; ps_uth := ps_uth st; ps_dtl := ps_dtl st;
     ps_labels := ps_labels st; ps_psar := firstn k (ps_psar st);
     ps_up := firstn k (ps_up st); ps_down := firstn k (ps_down st) |}.

Lemma psar_step_labels : forall h l s m (st : @psar_state F) i, ps_labels st = None ->
  ps_labels (psar_step h l s m st i) = None.
Proof.
  intros. unfold psar_step. destruct (ps_up_trend st); cbn zeta.
  - destruct (fltb _ _); cbn; auto. destruct (fltb _ _); cbn; auto.
  - destruct (fltb _ (nth i h fnan)); cbn; auto.
    destruct (fltb (nth i l fnan) _); cbn;
    (destruct (fltb _ (nth (i - 2) h fnan)); [rewrite H|]; cbn; auto).
Qed.

Lemma psar_step_ptake : forall k h l s m (st : @psar_state F) i, ps_labels st = None -> i < k ->
  psar_step (firstn k h) (firstn k l) s m (ptake k st) i = ptake k (psar_step h l s m st i).
Proof.
  intros k h l s m st i HL Hi.
  unfold psar_step, ptake. cbn [ps_up_trend ps_af ps_uth ps_dtl ps_labels ps_psar ps_up ps_down].
  rewrite !nth_firstn_lt by lia. rewrite HL. cbn [setitem].
  destruct (ps_up_trend st); cbn zeta.
  - destruct (fltb _ _); cbn [xorb].
    + now rewrite !upd_firstn, nth_firstn_lt by lia.
    + destruct (fltb _ _); cbn [xorb]; now rewrite !upd_firstn, nth_firstn_lt by lia.
  - destruct (fltb _ (nth i h fnan)); cbn [xorb].
    + now rewrite !upd_firstn, nth_firstn_lt by lia.
    + destruct (fltb (nth i l fnan) _); cbn [xorb];
      (destruct (fltb _ (nth (i - 2) h fnan)); [|destruct (fltb _ (nth (i - 1) h fnan))]);
      cbn [ps_up_trend ps_af ps_uth ps_dtl ps_labels ps_psar ps_up ps_down];
      now rewrite !upd_firstn, nth_firstn_lt by lia.
Qed.

Lemma psar_step_beyond : forall k h l s m (st : @psar_state F) i, ps_labels st = None -> k <= i ->
  let st' := psar_step h l s m st i in
  firstn k (ps_psar st') = firstn k (ps_psar st) /\ firstn k (ps_up st') = firstn k (ps_up st) /\
  firstn k (ps_down st') = firstn k (ps_down st).
Proof.
  intros k h l s m st i HL Hi. unfold psar_step. rewrite HL. cbn [setitem].
  destruct (ps_up_trend st); cbn zeta.
  - destruct (fltb _ _); cbn; [now rewrite !upd_beyond|].
    destruct (fltb _ _); cbn; now rewrite !upd_beyond.
  - destruct (fltb _ (nth i h fnan)); cbn; [now rewrite !upd_beyond|].
    destruct (fltb (nth i l fnan) _); cbn;
    (destruct (fltb _ (nth (i - 2) h fnan)); [|destruct (fltb _ (nth (i - 1) h fnan))]);
      cbn; now rewrite !upd_beyond.
Qed.

Lemma fold_ptake : forall k h l s m is (st : @psar_state F), ps_labels st = None ->
  Forall (fun i => i < k) is ->
  fold_left (psar_step (firstn k h) (firstn k l) s m) is (ptake k st) =
  ptake k (fold_left (psar_step h l s m) is st) /\
  ps_labels (fold_left (psar_step h l s m) is st) = None.
Proof.
  induction is; cbn; intros; auto. inversion H0; subst.
  rewrite psar_step_ptake by auto. apply IHis; auto. now apply psar_step_labels.
Qed.

Lemma fold_beyond : forall k h l s m is (st : @psar_state F), ps_labels st = None ->
  Forall (fun i => k <= i) is ->
  let st' := fold_left (psar_step h l s m) is st in
  firstn k (ps_psar st') = firstn k (ps_psar st) /\ firstn k (ps_up st') = firstn k (ps_up st) /\
  firstn k (ps_down st') = firstn k (ps_down st).
Proof.
  induction is; intros st HL HF; [cbn; auto|]. inversion HF; subst.
  specialize (IHis (psar_step h l s m st a) (psar_step_labels _ _ _ _ _ _ HL) H2).
  destruct (psar_step_beyond k h l s m st a HL H1) as (E1 & E2 & E3).
  cbn [fold_left]. cbn zeta in *. destruct IHis as (D1 & D2 & D3).
  split; [|split]; congruence.
Qed.

Lemma psar_run_cons : forall h (l c : list F) lab s m, h <> [] ->
  psar_run h l c lab s m = Ok (fold_left (psar_step h l s m) (seq 2 (length c - 2))
                                         (psar_init h l c lab s)).
Proof. intros. unfold psar_run. now destruct h. Qed.

Lemma psar_run_prefix : forall k h l c s m (st st' : @psar_state F),
  length h = length c -> length l = length c -> k <= length c ->
  psar_run h l c None s m = Ok st' ->
  psar_run (firstn k h) (firstn k l) (firstn k c) None s m = Ok st ->
  ps_psar st = firstn k (ps_psar st') /\ ps_up st = firstn k (ps_up st') /\
  ps_down st = firstn k (ps_down st').
Proof.
  intros k h l c s m st st' Hh Hl Hk H' H.
  destruct h as [|h0 h]; [discriminate|]. destruct k; [discriminate|].
  rewrite psar_run_cons in H, H' by discriminate.
  assert (Es : st = fold_left (psar_step (firstn (S k) (h0 :: h)) (firstn (S k) l) s m)
     (seq 2 (length (firstn (S k) c) - 2)) (psar_init (firstn (S k) (h0 :: h)) (firstn (S k) l) (firstn (S k) c) None s))
   by congruence.
  assert (Es' : st' = fold_left (psar_step (h0 :: h) l s m) (seq 2 (length c - 2))
     (psar_init (h0 :: h) l c None s)) by congruence.
  clear H H'. rewrite Es, Es'. clear Es Es' st st'.
  assert (Ei : psar_init (firstn (S k) (h0 :: h)) (firstn (S k) l) (firstn (S k) c) None s =
               ptake (S k) (psar_init (h0 :: h) l c None s)).
  { unfold psar_init, ptake. cbn [ps_up_trend ps_af ps_uth ps_dtl ps_labels ps_psar ps_up ps_down].
    rewrite !nth_firstn_lt by lia. rewrite firstn_length, firstn_repeat. reflexivity. }
  rewrite Ei. rewrite firstn_length, Nat.min_l by lia.
  destruct (fold_ptake (S k) (h0 :: h) l s m (seq 2 (S k - 2)) (psar_init (h0 :: h) l c None s))
    as [F1 F2]; [reflexivity| |].
  { apply Forall_forall. intros i Hi. apply in_seq in Hi. lia. }
  rewrite F1.
  replace (length c - 2) with ((S k - 2) + (length c - 2 - (S k - 2))) by lia.
  rewrite seq_app, fold_left_app.
  set (st1 := fold_left (psar_step (h0 :: h) l s m) (seq 2 (S k - 2)) _) in *.
  destruct (fold_beyond (S k) (h0 :: h) l s m (seq (2 + (S k - 2)) (length c - 2 - (S k - 2))) st1 F2)
    as (E1 & E2 & E3).
  { apply Forall_forall. intros i Hi. apply in_seq in Hi. lia. }
  cbn zeta in *. unfold ptake. cbn [ps_psar ps_up ps_down]. rewrite E1, E2, E3. auto.
Qed.

(** ** Labels 0..n-1 behave like positions *)
Definition relabel (st : @psar_state F) : psar_state :=
  {| ps_up_trend := ps_up_trend st; ps_af := ps_af st; ps_uth := ps_uth st; ps_dtl := ps_dtl st;
     ps_labels := None; ps_psar := ps_psar st; ps_up := ps_up st; ps_down := ps_down st |}.

Definition range_labels (n : nat) : list Z := map Z.of_nat (seq 0 n).

Lemma map2_range_upd : forall (s : list F) i v k,
  map2 (fun l x => if (l =? Z.of_nat (k + i))%Z then v else x) (map Z.of_nat (seq k (length s))) s
  = upd i v s.
Proof.
  induction s; intros; cbn; [now destruct i|].
  destruct i.
  - rewrite Nat.add_0_r, Z.eqb_refl. cbn. f_equal.
    assert (G : forall j, k < j -> map2 (fun l x => if (l =? Z.of_nat k)%Z then v else x)
        (map Z.of_nat (seq j (length s))) s = s).
    { clear. induction s; intros; cbn; auto.
      rewrite (proj2 (Z.eqb_neq _ _)) by lia. f_equal. apply IHs. lia. }
    apply G. lia.
  - rewrite (proj2 (Z.eqb_neq _ _)) by lia. cbn. f_equal.
    rewrite <- (IHs i v (S k)). replace (S k + i) with (k + S i) by lia. reflexivity.
Qed.

Lemma setitem_range : forall n i v (s : list F), length s = n -> i < n ->
  setitem (Some (range_labels n)) i v s = (Some (range_labels n), upd i v s).
Proof.
  intros. unfold setitem. rewrite (proj2 (existsb_exists _ _)).
  - f_equal. subst n. apply (map2_range_upd s i v 0).
  - exists (Z.of_nat i). split; [|apply Z.eqb_refl].
    unfold range_labels. apply in_map, in_seq. lia.
Qed.

Lemma psar_step_relabel : forall n h l s m (st : @psar_state F) i,
  ps_labels st = Some (range_labels n) -> length (ps_psar st) = n -> i < n ->
  relabel (psar_step h l s m st i) = psar_step h l s m (relabel st) i.
Proof.
  intros n h l s m st i HL Hn Hi. unfold psar_step, relabel.
  cbn [ps_up_trend ps_af ps_uth ps_dtl ps_labels ps_psar ps_up ps_down].
  rewrite HL. rewrite !setitem_range by (rewrite ?len_upd; auto). cbn [setitem].
  destruct (ps_up_trend st); cbn zeta.
  - destruct (fltb _ _); cbn [xorb]; [reflexivity|]. destruct (fltb _ _); reflexivity.
  - destruct (fltb _ (nth i h fnan)); cbn [xorb]; [reflexivity|].
    destruct (fltb (nth i l fnan) _); cbn [xorb];
    (destruct (fltb _ (nth (i - 2) h fnan)); reflexivity).
Qed.

Lemma psar_run_relabel : forall h l c s m (st : @psar_state F),
  psar_run h l c (Some (range_labels (length c))) s m = Ok st ->
  psar_run h l c None s m = Ok (relabel st).
Proof.
  intros h l c s m st H. unfold psar_run in *. destruct h; [discriminate|]. injection H as <-.
  f_equal.
  assert (G : forall is st, Forall (fun i => i < length c) is ->
    psar_ok (length c) (Some (range_labels (length c))) st ->
    fold_left (psar_step (f :: h) l s m) is (relabel st) =
    relabel (fold_left (psar_step (f :: h) l s m) is st)).
  { induction is; cbn [fold_left]; intros st HF Hok; auto. inversion HF; subst.
    rewrite <- (psar_step_relabel (length c)); try apply Hok; auto.
    apply IHis; auto. apply psar_step_ok; auto.
    intros ls Els. inversion Els. unfold range_labels. rewrite map_length, seq_length.
    split; auto. intros. apply in_map, in_seq. lia. }
  rewrite <- G.
  - reflexivity.
  - apply Forall_forall. intros i Hi. apply in_seq in Hi. lia.
  - unfold psar_ok. cbn. now rewrite !repeat_length.
Qed.

Lemma psar_run_none_some : forall h l c s m (st : @psar_state F),
  psar_run h l c None s m = Ok st ->
  exists st', psar_run h l c (Some (range_labels (length c))) s m = Ok st' /\ relabel st' = st.
Proof.
  intros. destruct (psar_run h l c (Some (range_labels (length c))) s m) eqn:E.
  - exists a. split; auto. apply psar_run_relabel in E. congruence.
  - unfold psar_run in *. destruct h; [discriminate H|discriminate E].
Qed.

(** PSAR functions on a default index = positional *)
Definition positional (ind : indicator F) : indicator F :=
  match ind with
  | Psar _ s m => Psar false s m
  | PsarUp _ s m => PsarUp false s m
  | PsarDown _ s m => PsarDown false s m
  | PsarUpInd _ s m => PsarUpInd false s m
  | PsarDownInd _ s m => PsarDownInd false s m
  | i => i
  end.

Lemma psar_default_index : forall ind fl rows, default_index rows ->
  compute ind fl rows = compute (positional ind) fl rows.
Proof.
  intros ind fl rows Hd. unfold default_index in Hd.
  assert (Hc : map b_label rows = range_labels (length (map b_close rows)))
    by (rewrite map_length; exact Hd).
  destruct ind; try reflexivity; destruct int_index; try reflexivity;
    cbn [compute positional]; rewrite Hc;
    unfold psar, psar_up, psar_down, psar_up_indicator, psar_down_indicator;
    destruct (psar_run (map b_high rows) (map b_low rows) (map b_close rows) None step max_step) eqn:E;
    try (destruct (psar_run_none_some _ _ _ _ _ _ E) as (st' & -> & <-); reflexivity);
    unfold psar_run in *; destruct (map b_high rows); try discriminate E; inversion E; reflexivity.
Qed.

Lemma default_index_firstn : forall k rows, default_index rows -> default_index (firstn k (rows : list (bar F))).
Proof.
  unfold default_index. intros.
  rewrite <- firstn_map, H, firstn_map, firstn_seq, firstn_length. reflexivity.
Qed.

Lemma psar_prefix_pos : forall ind fl k rows out out', psar_based ind = true ->
  fl = false \/ fills_backward ind = false -> k <= length rows ->
  compute (positional ind) fl rows = Ok out' ->
  compute (positional ind) fl (firstn k rows) = Ok out -> out = firstn k out'.
Proof.
  intros ind fl k rows out out' Hp Hf Hk H' H.
  assert (Lh := map_length b_high rows). assert (Ll := map_length b_low rows).
  assert (Lc := map_length b_close rows).
  destruct ind; try discriminate Hp; cbn [positional compute] in H, H'; rewrite ?pf_map in H;
    try (destruct Hf as [Hf|Hf]; [subst fl|discriminate Hf]);
    unfold psar, psar_up, psar_down, psar_up_indicator, psar_down_indicator in *;
    (destruct (psar_run (firstn k (map b_high rows)) _ _ None step max_step) as [st|] eqn:E; [|discriminate H]);
    (destruct (psar_run (map b_high rows) _ _ None step max_step) as [st'|] eqn:E'; [|discriminate H']);
    destruct (psar_run_prefix _ _ _ _ _ _ _ _ (eq_trans Lh (eq_sym Lc))
       (eq_trans Ll (eq_sym Lc)) (eq_ind_r (fun n => k <= n) Hk Lc) E' E) as (E1 & E2 & E3);
    cbn [bind check_fillna] in *; inversion H; inversion H'; subst; rewrite ?E1, ?E2, ?E3; auto;
    apply pf_psar_indicator.
Qed.

(** C03 for PSAR: positional labels, or a default index on the longer frame *)
Lemma psar_no_lookahead : forall ind fl rows more out out', psar_based ind = true ->
  fl = false \/ fills_backward ind = false ->
  label_dependent ind = false \/ default_index (rows ++ more) ->
  compute ind fl rows = Ok out -> compute ind fl (rows ++ more) = Ok out' ->
  firstn (length rows) out' = out.
Proof.
  intros ind fl rows more out out' Hp Hf Hl H H'. symmetry.
  assert (Hr : firstn (length rows) (rows ++ more) = rows)
    by (rewrite firstn_app, Nat.sub_diag, firstn_all; cbn [firstn]; now rewrite app_nil_r).
  eapply psar_prefix_pos with (ind := ind) (rows := rows ++ more) (fl := fl); eauto.
  - rewrite app_length. lia.
  - destruct Hl.
    + rewrite <- H'. destruct ind; try reflexivity; cbn in H0; subst; reflexivity.
    + now rewrite <- psar_default_index.
  - rewrite Hr. destruct Hl.
    + rewrite <- H. destruct ind; try reflexivity; cbn in H0; subst; reflexivity.
    + rewrite <- psar_default_index; auto. rewrite <- Hr. now apply default_index_firstn.
Qed.
End PsarPrefix.
