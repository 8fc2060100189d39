(** * ApartCut: cutting differently indexed columns at a label (C102). *)
From Coq Require Import Lia Sorting.Sorted.
From Verif Require Import Lists Align Causal Apart SpecApart ApartProofs.
Local Open Scope f_scope.

Section Cut.
Context {F : Type} {A : Arith F}.
Variable t : Z.

Definition upl (ls : list Z) : list Z := filter (fun u => (u <=? t)%Z) ls.
Lemma labels_upto : forall a : column F, labels (upto t a) = upl (labels a).
Proof. unfold labels, upto, upl. induction a as [|[u x] a IH]; cbn; [reflexivity|]. destruct (u <=? t)%Z; cbn; rewrite IH; reflexivity. Qed.
Lemma in_upl : forall u ls, In u (upl ls) <-> In u ls /\ (u <= t)%Z.
Proof. intros u ls. unfold upl. rewrite filter_In, Z.leb_le. reflexivity. Qed.
Lemma upl_sorted : forall ls, StronglySorted Z.lt ls -> StronglySorted Z.lt (upl ls).
Proof.
  intros ls S. induction S as [|y ls S IH H]; cbn; [constructor|]. destruct (y <=? t)%Z; [|exact IH]. constructor; [exact IH|].
  apply Forall_forall. intros u U. apply in_upl in U. rewrite Forall_forall in H. apply H, U.
Qed.
Lemma upl_union : forall ls ms, StronglySorted Z.lt ls -> StronglySorted Z.lt ms -> upl (union ls ms) = union (upl ls) (upl ms).
Proof.
  intros ls ms S T. apply sorted_ext; [apply upl_sorted, union_sorted, S|apply union_sorted, upl_sorted, S|].
  intros u. rewrite in_upl, !in_union, !in_upl. tauto.
Qed.
Lemma row_upto : forall (a : column F) u, (u <= t)%Z -> row (upto t a) u = row a u.
Proof.
  induction a as [|[w x] a IH]; intros u U; [reflexivity|]. cbn. destruct (Z.leb_spec w t) as [W|W]; cbn.
  - destruct (u =? w)%Z; [reflexivity|]. apply IH, U.
  - destruct (Z.eqb_spec u w); [lia|]. apply IH, U.
Qed.
(** a prefix of the rows *)
Lemma upl_firstn : forall ls, StronglySorted Z.lt ls -> forall (x : list F), length x = length ls ->
  upto t (combine ls x) = combine (upl ls) (firstn (length (upl ls)) x).
Proof.
  intros ls S. induction S as [|y ls S IH H]; intros x X; [destruct x; [reflexivity|discriminate X]|].
  destruct x as [|x0 x]; [discriminate X|]. injection X as X. cbn [combine upto filter fst upl]. destruct (Z.leb_spec y t) as [Y|Y].
  - cbn [length firstn combine]. f_equal. apply (IH x X).
  - assert (E : upl ls = []). { destruct (upl ls) as [|u us] eqn:U; [reflexivity|]. exfalso. assert (V : In u (upl ls)) by (rewrite U; left; reflexivity).
      apply in_upl in V as [V W]. rewrite Forall_forall in H. specialize (H u V). lia. }
    fold (upl ls). fold (upto t (combine ls x)). rewrite (IH x X), E. reflexivity.
Qed.
Lemma firstn_upl : forall ls, StronglySorted Z.lt ls -> firstn (length (upl ls)) ls = upl ls.
Proof.
  intros ls S. induction S as [|y ls S IH H]; [reflexivity|]. cbn [upl filter]. destruct (Z.leb_spec y t) as [Y|Y].
  - cbn [length firstn]. f_equal. exact IH.
  - assert (E : upl ls = []). { destruct (upl ls) as [|u us] eqn:U; [reflexivity|]. exfalso. assert (V : In u (upl ls)) by (rewrite U; left; reflexivity).
      apply in_upl in V as [V W]. rewrite Forall_forall in H. specialize (H u V). lia. }
    fold (upl ls). rewrite E. reflexivity.
Qed.
Lemma values_upto : forall a : column F, ascending a -> values (upto t a) = firstn (length (upto t a)) (values a).
Proof.
  intros a S. rewrite (split_column a) at 1. rewrite upl_firstn; [|exact S|rewrite len_values, len_labels; reflexivity].
  rewrite <- (len_labels (upto t a)), labels_upto. rewrite values_combine; [reflexivity|]. rewrite firstn_length, len_values.
  rewrite <- (len_labels a). rewrite <- (firstn_upl (labels a) S) at 2. rewrite firstn_length. lia.
Qed.

(** [b] is what is left of [a] *)
Definition cut (a b : column F) : Prop := ascending a /\ b = upto t a.
Definition rcut (x y : result (column F)) : Prop := forall a, x = Ok a -> exists b, y = Ok b /\ cut a b.
Definition rcut2 (x y : result (column F * column F)) : Prop := forall a, x = Ok a -> exists b, y = Ok b /\ cut (fst a) (fst b) /\ cut (snd a) (snd b).

Lemma cut_op2 : forall f a b a' b', cut a a' -> cut b b' -> cut (op2 f a b) (op2 f a' b').
Proof.
  intros f a b a' b' [Sa ->] [Sb ->]. assert (L : labels (op2 f a b) = union (labels a) (labels b)).
  { unfold op2, labels at 1. rewrite map_map. apply map_id. }
  split; [unfold ascending; rewrite L; apply union_sorted, Sa|].
  unfold op2. rewrite !labels_upto, <- upl_union by assumption. clear L. induction (union (labels a) (labels b)) as [|u us IH]; [reflexivity|].
  cbn. destruct (Z.leb_spec u t) as [U|U]; cbn; [|exact IH]. rewrite !row_upto by exact U. f_equal. exact IH.
Qed.
Lemma cut_each : forall f : list F -> list F, (forall k s, f (firstn k s) = firstn k (f s)) -> (forall s, length (f s) = length s) ->
  forall a a', cut a a' -> cut (each f a) (each f a').
Proof.
  intros f Pf Lf a a' [S ->]. assert (L : length (f (values a)) = length (labels a)) by (rewrite Lf, len_values, len_labels; reflexivity).
  split; unfold each, ascending; [rewrite labels_combine by exact L; exact S|].
  rewrite labels_upto, values_upto, Pf by exact S. rewrite <- (len_labels (upto t a)), labels_upto. symmetry. apply upl_firstn; [exact S|exact L].
Qed.
Lemma cut_eachr : forall f : list F -> result (list F), (forall k s, f (firstn k s) = rmap (firstn k) (f s)) -> (forall s r, f s = Ok r -> length r = length s) ->
  forall a a', cut a a' -> rcut (eachr f a) (eachr f a').
Proof.
  intros f Pf Lf a a' [S ->] r E. unfold eachr in *. destruct (f (values a)) as [x|e] eqn:X; [|discriminate E]. cbn [bind] in E. injection E as <-.
  assert (L : length x = length (labels a)) by (rewrite (Lf _ _ X), len_values, len_labels; reflexivity).
  rewrite labels_upto, values_upto, Pf, X by exact S. cbn [rmap bind]. eexists. split; [reflexivity|].
  split; [unfold ascending; rewrite labels_combine by exact L; exact S|].
  rewrite <- (len_labels (upto t a)), labels_upto. symmetry. apply upl_firstn; [exact S|exact L].
Qed.
Lemma cut_cmap : forall f a a', cut a a' -> cut (cmap f a) (cmap f a').
Proof.
  intros f a a' [S ->]. split.
  - unfold ascending, cmap, labels. rewrite map_map. exact S.
  - unfold cmap, upto. clear S. induction a as [|[u x] a IH]; [reflexivity|]. cbn. destruct (u <=? t)%Z; cbn; rewrite IH; reflexivity.
Qed.
Lemma cut_labels : forall a a', cut a a' -> labels a' = upl (labels a) /\ StronglySorted Z.lt (labels a).
Proof. intros a a' [S ->]. split; [apply labels_upto|exact S]. Qed.
Lemma cut_by_row : forall ls ms (g g' : Z -> F), StronglySorted Z.lt ls -> ms = upl ls -> (forall u, (u <= t)%Z -> g' u = g u) ->
  cut (map (fun u => (u, g u)) ls) (map (fun u => (u, g' u)) ms).
Proof.
  intros ls ms g g' S -> E. split.
  - unfold ascending, labels. rewrite map_map. cbn [fst]. rewrite map_id. exact S.
  - clear S. induction ls as [|u us IH]; [reflexivity|]. cbn. destruct (Z.leb_spec u t) as [U|U]; cbn; [|exact IH]. rewrite E by exact U. f_equal. exact IH.
Qed.
Lemma cut_row : forall a a' u, cut a a' -> (u <= t)%Z -> row a' u = row a u.
Proof. intros a a' u [_ ->] U. apply row_upto, U. Qed.
Lemma cut_true_range : forall h l c h' l' c', cut h h' -> cut l l' -> cut c c' -> cut (ctrue_range h l c) (ctrue_range h' l' c').
Proof.
  intros h l c h' l' c' H L C. unfold ctrue_range, csub.
  pose proof (cut_op2 fsub _ _ _ _ H L) as C1. pose proof (cut_cmap fabs _ _ (cut_op2 fsub _ _ _ _ H C)) as C2.
  pose proof (cut_cmap fabs _ _ (cut_op2 fsub _ _ _ _ L C)) as C3. cbv zeta.
  destruct (cut_labels _ _ C1) as [E1 S1]. destruct (cut_labels _ _ C2) as [E2 S2]. destruct (cut_labels _ _ C3) as [E3 S3].
  apply (cut_by_row _ _ (fun u => nanmax [row (op2 fsub h l) u; row (cmap fabs (op2 fsub h c)) u; row (cmap fabs (op2 fsub l c)) u])
                        (fun u => nanmax [row (op2 fsub h' l') u; row (cmap fabs (op2 fsub h' c')) u; row (cmap fabs (op2 fsub l' c')) u])).
  - apply union_sorted, union_sorted, S1.
  - rewrite E1, E2, E3, !upl_union; auto using union_sorted.
  - intros u U. rewrite (cut_row _ _ u C1 U), (cut_row _ _ u C2 U), (cut_row _ _ u C3 U). reflexivity.
Qed.
Lemma cut_reindex : forall a a' b b', cut a a' -> cut b b' -> cut (reindex (labels a) b) (reindex (labels a') b').
Proof.
  intros a a' b b' Ca Cb. destruct (cut_labels _ _ Ca) as [E S]. unfold reindex. apply cut_by_row; [exact S|exact E|].
  intros u U. apply (cut_row _ _ u Cb U).
Qed.
Lemma cut_same_index : forall a a' b b', cut a a' -> cut b b' -> same_index a b = true -> same_index a' b' = true.
Proof.
  intros a a' b b' [_ ->] [_ ->] E. unfold same_index in *. rewrite !labels_upto. destruct (list_eq_dec _ (labels a) _) as [->|]; [|discriminate E].
  destruct (list_eq_dec _ _ _); congruence.
Qed.
Lemma rcut_ok : forall a b, cut a b -> rcut (Ok a) (Ok b).
Proof. intros a b C x E. injection E as <-. exists b. auto. Qed.
Lemma rcut2_ok : forall a b a' b', cut a a' -> cut b b' -> rcut2 (Ok (a, b)) (Ok (a', b')).
Proof. intros a b a' b' C D x E. injection E as <-. exists (a', b'). auto. Qed.
Lemma rcut_bind : forall x y f g, rcut x y -> (forall a b, cut a b -> rcut (f a) (g b)) -> rcut (bind x f) (bind y g).
Proof.
  intros x y f g C H r E. destruct x as [a|e]; [|discriminate E]. destruct (C a eq_refl) as (b & -> & Cb). cbn [bind] in *. exact (H a b Cb r E).
Qed.
Lemma rcut2_bind : forall x y f g, rcut x y -> (forall a b, cut a b -> rcut2 (f a) (g b)) -> rcut2 (bind x f) (bind y g).
Proof.
  intros x y f g C H r E. destruct x as [a|e]; [|discriminate E]. destruct (C a eq_refl) as (b & -> & Cb). cbn [bind] in *. exact (H a b Cb r E).
Qed.
Lemma rcut_bind2 : forall x y f g, rcut2 x y -> (forall a b a' b', cut a a' -> cut b b' -> rcut (f (a, b)) (g (a', b'))) -> rcut (bind x f) (bind y g).
Proof.
  intros x y f g C H r E. destruct x as [[a b]|e]; [|discriminate E]. destruct (C (a, b) eq_refl) as ([a' b'] & -> & Ca & Cb). cbn [bind] in *.
  exact (H a b a' b' Ca Cb r E).
Qed.
Lemma cut_roll : forall w m g a a', cut a a' -> rcut (croll w m g a) (croll w m g a').
Proof. intros w m g. apply cut_eachr; [intros; apply pf_rolling|intros s r; apply len_rolling]. Qed.
Lemma cut_ema : forall w fl a a', cut a a' -> rcut (cema w fl a) (cema w fl a').
Proof. intros w fl. apply cut_eachr; [intros; unfold ema_; apply pf_ewm_span|intros s r; unfold ema_; apply len_ewm_span]. Qed.
Lemma cut_fill : forall fl z a a', (fl = false \/ z <> -1)%Z -> cut a a' -> cut (cfill fl z a) (cfill fl z a').
Proof. intros fl z a a' H. apply cut_each; [intros; apply pf_check, H|intros; apply len_check]. Qed.
Lemma cut_shift1 : forall a a', cut a a' -> cut (each (shift 1) a) (each (shift 1) a').
Proof. apply cut_each; [apply pf_shift1|intros; apply len_shift]. Qed.
Lemma cut_diff1 : forall a a', cut a a' -> cut (each diff1 a) (each diff1 a').
Proof. apply cut_each; [apply pf_diff1|intros; apply ln_diff1; reflexivity]. Qed.
Lemma cut_pct : forall a a', cut a a' -> cut (each pct_change a) (each pct_change a').
Proof. apply cut_each; [apply pf_pct|apply len_pct]. Qed.
Lemma cut_cumsum : forall a a', cut a a' -> cut (each cumsum a) (each cumsum a').
Proof. apply cut_each; [apply pf_cumsum|intros; apply ln_cumsum; reflexivity]. Qed.
Lemma cut_const : forall x a a', cut a a' -> cut (each (fillna_const x) a) (each (fillna_const x) a').
Proof. intros x. apply cut_each; [intros; apply pf_fill_const|intros; apply ln_fill_const; reflexivity]. Qed.
Lemma cut_offset : forall o a a', (0 <= o)%Z -> cut a a' -> cut (each (donchian_offset o) a) (each (donchian_offset o) a').
Proof. intros o a a' O. apply cut_each; [intros; apply pf_donchian_offset, O|intros; apply ln_donchian_offset; reflexivity]. Qed.

Ltac cut1 := first
  [ eassumption
  | apply rcut_ok | apply rcut2_ok | apply cut_roll | apply cut_ema
  | apply cut_fill; [solve [auto | right; lia]|] | apply cut_shift1 | apply cut_diff1 | apply cut_pct | apply cut_cumsum | apply cut_const
  | apply cut_offset; [lia|] | apply cut_true_range | apply cut_reindex | apply cut_op2 | apply cut_cmap
  | apply rcut_bind; [|intros] | apply rcut2_bind; [|intros] | apply rcut_bind2; [|intros] ].

Section All.
Variables (h l c v h' l' c' v' : column F).
Hypotheses (Ch : cut h h') (Cl : cut l l') (Cc : cut c c') (Cv : cut v v').
Lemma cut_typical : cut (a_typical h l c) (a_typical h' l' c').
Proof. unfold a_typical, cadd. repeat cut1. Qed.
Lemma cut_mid : forall w m, rcut (a_mid h l w m) (a_mid h' l' w m).
Proof. intros. unfold a_mid, cadd. repeat cut1. Qed.
Lemma cut_ichimoku : forall w1 w2 fl, rcut2 (a_ichimoku h l w1 w2 fl) (a_ichimoku h' l' w1 w2 fl).
Proof. intros. unfold a_ichimoku. repeat (apply cut_mid || cut1). Qed.
Lemma cut_donchian : forall w fl, rcut2 (a_donchian h l w fl) (a_donchian h' l' w fl).
Proof. intros. unfold a_donchian. repeat cut1. Qed.
Lemma cut_clv : cut (a_clv h l c) (a_clv h' l' c').
Proof. unfold a_clv, cdiv, csub. repeat cut1. Qed.
Lemma cut_emv : cut (a_emv h l v) (a_emv h' l' v').
Proof. unfold a_emv, cdiv, cmul, cadd, csub. repeat cut1. Qed.
Lemma cut_stoch : forall w fl, rcut (a_stoch_run h l c w fl) (a_stoch_run h' l' c' w fl).
Proof. intros. unfold a_stoch_run, cdiv, csub. repeat cut1. Qed.
Definition kcut (x y : result akc) : Prop :=
  forall s, x = Ok s -> exists s', y = Ok s' /\ cut (ak_tp s) (ak_tp s') /\ cut (ak_high s) (ak_high s') /\ cut (ak_low s) (ak_low s').
Lemma rcut_kbind : forall x y f g, kcut x y ->
  (forall s s', cut (ak_tp s) (ak_tp s') -> cut (ak_high s) (ak_high s') -> cut (ak_low s) (ak_low s') -> rcut (f s) (g s')) -> rcut (bind x f) (bind y g).
Proof.
  intros x y f g C H r E. destruct x as [s|e]; [|discriminate E]. destruct (C s eq_refl) as (s' & -> & C1 & C2 & C3). cbn [bind] in *.
  exact (H s s' C1 C2 C3 r E).
Qed.
Lemma kcut_bind : forall x y f g, rcut x y -> (forall a b, cut a b -> kcut (f a) (g b)) -> kcut (bind x f) (bind y g).
Proof.
  intros x y f g C H r E. destruct x as [a|e]; [|discriminate E]. destruct (C a eq_refl) as (b & -> & Cb). cbn [bind] in *. exact (H a b Cb r E).
Qed.
Lemma cut_keltner : forall w a fl m, kcut (a_keltner h l c w a fl true m) (a_keltner h' l' c' w a fl true m).
Proof.
  intros. unfold a_keltner, cadd, csub. cbv zeta. pose proof cut_typical.
  apply kcut_bind; [repeat cut1|intros tp tp' T]. apply kcut_bind; [repeat cut1|intros th th' U]. apply kcut_bind; [repeat cut1|intros tl tl' V].
  intros s E. injection E as <-. eexists. split; [reflexivity|]. repeat split; cbn [ak_tp ak_high ak_low]; try apply T; try apply U; try apply V.
Qed.
Lemma cut_aroon : forall w fl, rcut2 (a_aroon h l w fl) (a_aroon h' l' w fl).
Proof.
  intros w fl r E. unfold a_aroon, aroon_run in *. cbv zeta in *. set (m := if fl then 1%Z else (w + 1)%Z) in *.
  set (gu := agg_apply (fun x => fofnat (np_argmax x) /. fofZ w **. #100)) in *. set (gd := agg_apply (fun x => fofnat (np_argmin x) /. fofZ w **. #100)) in *.
  pose proof (cut_roll (w + 1) m gu h h' Ch) as U. pose proof (cut_roll (w + 1) m gd l l' Cl) as D. unfold croll, eachr in U, D.
  destruct (rolling (w + 1) m gu (values h)) as [u|e]; [|discriminate E]. destruct (U _ eq_refl) as (ub & Eu & Cu).
  cbn [bind] in E. destruct (rolling (w + 1) m gd (values l)) as [d|e]; [|discriminate E]. destruct (D _ eq_refl) as (db & Ed & Cd).
  destruct (rolling (w + 1) m gu (values h')) as [u'|e]; [|discriminate Eu]. destruct (rolling (w + 1) m gd (values l')) as [d'|e]; [|discriminate Ed].
  cbn [bind] in *. injection Eu as <-. injection Ed as <-.
  assert (O : forall a a' : column F, cut a a' -> length (obs (prep (values a))) = 0%nat -> length (obs (prep (values a'))) = 0%nat).
  { intros a a' [S ->] Z. rewrite values_upto by exact S. rewrite pf_prep. revert Z. generalize (prep (values a)) (length (upto t a)). clear.
    intros s. unfold obs. induction s as [|x s IH]; intros [|k] H; try reflexivity. cbn [firstn filter] in *. destruct (negb (fisnan x)); [discriminate H|]. apply IH, H. }
  assert (N : forall a a' : column F, cut a a' -> length (values a) = 0%nat -> length (values a') = 0%nat).
  { intros a a' [S ->] Z. rewrite len_values in *. destruct a; [reflexivity|discriminate Z]. }
  destruct ((w =? 0)%Z && _) eqn:B0 in E; [discriminate E|]. destruct ((w =? -1)%Z && _) eqn:B1 in E; [discriminate E|].
  cbn [bind] in E. injection E as <-. exists (combine (labels h') u', combine (labels l') d').
  assert (B0' : (w =? 0)%Z && (negb (length (obs (prep (values h'))) =? 0) || negb (length (obs (prep (values l'))) =? 0)) = false).
  { destruct (w =? 0)%Z; [|reflexivity]. cbn [andb] in *. apply orb_false_iff in B0 as [X Y]. apply negb_false_iff, Nat.eqb_eq in X, Y.
    rewrite (O _ _ Ch X), (O _ _ Cl Y). reflexivity. }
  assert (B1' : (w =? -1)%Z && (negb (length (values h') =? 0) || negb (length (values l') =? 0)) = false).
  { destruct (w =? -1)%Z; [|reflexivity]. cbn [andb] in *. apply orb_false_iff in B1 as [X Y]. apply negb_false_iff, Nat.eqb_eq in X, Y.
    rewrite (N _ _ Ch X), (N _ _ Cl Y). reflexivity. }
  rewrite B0', B1'. split; [reflexivity|]. split; [exact Cu|exact Cd].
Qed.
End All.

Theorem cut_apart : forall (ind : indicator F) fillna k, by_label ind = true -> (fillna = false \/ fills_backward ind = false) -> all_ascending k ->
  rcut (compute_apart ind fillna k) (compute_apart ind fillna (known_at t k)).
Proof.
  intros ind fillna k B Fb (Sh & Sl & Sc & Sv).
  assert (Ch : cut (c_high k) (upto t (c_high k))) by (split; [exact Sh|reflexivity]).
  assert (Cl : cut (c_low k) (upto t (c_low k))) by (split; [exact Sl|reflexivity]).
  assert (Cc : cut (c_close k) (upto t (c_close k))) by (split; [exact Sc|reflexivity]).
  assert (Cv : cut (c_volume k) (upto t (c_volume k))) by (split; [exact Sv|reflexivity]).
  destruct ind; try discriminate B; cbn [by_label] in B; cbn [compute_apart known_at c_high c_low c_close c_volume];
    try (apply Z.leb_le in B);
    try (destruct visual; [discriminate B|]); try (destruct original_version; [|discriminate B]); try (destruct dropnans; [discriminate B|]);
    assert (Fz : forall z, (z <> -1)%Z \/ fillna = false -> (fillna = false \/ z <> -1)%Z) by (intros z [H|H]; auto);
    try (assert (fillna = false) by (destruct Fb as [Fb|Fb]; [exact Fb|discriminate Fb]));
    pose proof (cut_typical _ _ _ _ _ _ Ch Cl Cc) as Ct; pose proof (cut_clv _ _ _ _ _ _ Ch Cl Cc) as Ck; pose proof (cut_emv _ _ _ _ _ _ Ch Cl Cv) as Ce;
    unfold a_uo, a_stoch, a_stoch_signal, a_awesome, a_williams, a_aroon_up, a_aroon_down, a_aroon_ind,
      a_mass, a_ichi_conv, a_ichi_base, a_ichi_a, a_ichi_b, a_visual, a_cci,
      a_kc_m, a_kc_h, a_kc_l, a_kc_w, a_kc_p, a_kc_hi, a_kc_li, a_dc_h, a_dc_l, a_dc_m, a_dc_w, a_dc_p,
      a_adi, a_cmf, a_fi, a_eom, a_sma_eom, a_vpt, a_vwap, cadd, csub, cmul, cdiv; cbv zeta.
  all: repeat first [ apply cut_stoch | apply cut_ichimoku | apply cut_mid | apply cut_donchian | apply cut_aroon
    | apply rcut_kbind; [apply cut_keltner; assumption|intros] | cut1 ].
  all: try match goal with |- rcut (if same_index ?a ?b then _ else _) (if same_index ?a' ?b' then _ else _) =>
    let E := fresh in destruct (same_index a b) eqn:E; [rewrite (cut_same_index a a' b b') by assumption; repeat cut1|intros ? X; discriminate X] end.
  destruct smoothing_factor as [z|]; [destruct (z =? 0)%Z|]; repeat cut1.
Qed.
End Cut.

Theorem no_later_apart : forall {F} {A : Arith F} (ind : indicator F) fillna, by_label ind = true -> (fillna = false \/ fills_backward ind = false) ->
  no_later_row (compute_apart ind fillna).
Proof.
  intros F A ind fillna B Fb k t out S E. destruct (cut_apart t ind fillna k B Fb S out E) as (b & -> & _ & ->). reflexivity.
Qed.
