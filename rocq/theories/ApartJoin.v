(** * ApartJoin: outer joins, positions, calls that raise (C102). *)
From Coq Require Import Lia Sorting.Sorted.
From Verif Require Import Lists Align Apart SpecApart ApartProofs ApartIndex.
Local Open Scope f_scope.

Section Join.
Context {F : Type} {A : Arith F} {L : ArithLaws F}.
(** ** Columns as functions of the label *)
Lemma row_byrow' : forall (g : Z -> F) ls t, row (map (fun u => (u, g u)) ls) t = if in_dec Z.eq_dec t ls then g t else fnan.
Proof.
  intros g ls t. induction ls as [|u ls IH]; [reflexivity|]. cbn [map row]. destruct (Z.eqb_spec t u) as [->|E].
  - destruct (in_dec Z.eq_dec u (u :: ls)) as [|N]; [reflexivity|]. destruct N. left. reflexivity.
  - rewrite IH. destruct (in_dec Z.eq_dec t ls) as [I|N], (in_dec Z.eq_dec t (u :: ls)) as [I'|N']; try reflexivity.
    + destruct N'. right. exact I.
    + destruct I' as [->|I']; contradiction.
Qed.
Lemma row_op2 : forall f (a b : column F) t, f fnan fnan = fnan -> row (op2 f a b) t = f (row a t) (row b t).
Proof.
  intros f a b t H. unfold op2. rewrite row_byrow'. destruct (in_dec Z.eq_dec t (union (labels a) (labels b))) as [I|N]; [reflexivity|].
  rewrite in_union in N. rewrite !row_notin by tauto. symmetry. exact H.
Qed.
Lemma row_cmap : forall f (a : column F) t, f fnan = fnan -> row (cmap f a) t = f (row a t).
Proof. intros f a t H. unfold cmap. induction a as [|[u x] a IH]; [symmetry; exact H|]. cbn [map row fst snd]. destruct (t =? u)%Z; [reflexivity|exact IH]. Qed.
Lemma row_reindex : forall ls (a : column F) t, (forall u, In u (labels a) -> In u ls) -> row (reindex ls a) t = row a t.
Proof.
  intros ls a t H. unfold reindex. rewrite row_byrow'. destruct (in_dec Z.eq_dec t ls) as [I|N]; [reflexivity|]. symmetry. apply row_notin. auto.
Qed.
Lemma column_ext : forall a b : column F, ascending a -> labels a = labels b -> (forall t, row a t = row b t) -> a = b.
Proof.
  unfold ascending, labels. induction a as [|[u x] a IH]; intros [|[u' y] b] S E H; try reflexivity; try discriminate E.
  cbn [map fst] in *. injection E as <- E. pose proof (H u) as Hu. cbn [row] in Hu. rewrite Z.eqb_refl in Hu. subst y. f_equal.
  inversion S as [|? ? S' B]; subst. apply IH; [exact S'|exact E|]. intros t. destruct (in_dec Z.eq_dec t (map fst a)) as [I|N].
  - pose proof (H t) as Ht. cbn [row] in Ht. destruct (Z.eqb_spec t u) as [->|_]; [|exact Ht].
    rewrite Forall_forall in B. apply B in I. lia.
  - rewrite !row_notin; [reflexivity| |exact N]. unfold labels. rewrite <- E. exact N.
Qed.

Lemma labels_reindex : forall ls (a : column F), labels (reindex ls a) = ls.
Proof. intros ls a. unfold labels, reindex. rewrite map_map. apply map_id. Qed.
Lemma nan_is : forall x : F, fisnan x = true -> x = fnan.
Proof. intros x. apply nan_unique. Qed.
Lemma nn_add : fnan +. fnan = (fnan : F). Proof. apply nan_is, add_nan_l, isnan_nan. Qed.
Lemma nn_sub : fnan -. fnan = (fnan : F). Proof. apply nan_is, sub_nan_l, isnan_nan. Qed.
Lemma nn_mul : forall x : F, x **. fnan = fnan. Proof. intros x. apply nan_is, mul_nan_r, isnan_nan. Qed.
Lemma nn_div : forall x : F, fnan /. x = fnan. Proof. intros x. apply nan_is, div_nan_l, isnan_nan. Qed.

Section Frame.
Variables (ls : list Z) (h l c : column F).
Hypothesis S : StronglySorted Z.lt ls.
Hypothesis (Sh : ascending h) (Sl : ascending l) (Sc : ascending c).
Let H := reindex ls h.
Let W := reindex ls l.
Let C := reindex ls c.
Ltac ext := apply column_ext;
  [ unfold ascending; rewrite ?labels_cmap, ?labels_op2, ?labels_cmap, ?labels_op2, ?labels_cmap; repeat apply union_sorted; assumption
  | apply sorted_ext; [rewrite ?labels_cmap, ?labels_op2, ?labels_cmap, ?labels_op2, ?labels_cmap; repeat apply union_sorted; assumption
      | rewrite ?labels_cmap, ?labels_op2, ?labels_cmap, ?labels_op2, ?labels_cmap, ?labels_reindex; repeat apply union_sorted; exact S
      | intros t; rewrite ?labels_cmap, ?labels_op2, ?labels_cmap, ?labels_op2, ?labels_cmap, ?labels_reindex, ?in_union ]
  | intros t ].
Lemma join2 : forall f, (f fnan fnan = fnan :> F) -> (forall t, In t ls <-> In t (labels h) \/ In t (labels l)) -> op2 f h l = op2 f H W.
Proof.
  intros f N E. unfold H, W. ext; [rewrite (E t); tauto|].
  rewrite !row_op2 by exact N. rewrite !row_reindex by (intros u U; apply E; auto). reflexivity.
Qed.
Definition full3 := forall t, In t ls <-> In t (labels h) \/ In t (labels l) \/ In t (labels c).
Ltac rows E := repeat first [rewrite row_op2 by (first [exact nn_add|exact nn_sub]) | rewrite row_cmap by (cbn beta; first [apply nn_mul|apply nn_div])];
   rewrite !row_reindex by (intros u U; apply E; auto); reflexivity.
Lemma join_typical : full3 -> a_typical h l c = a_typical H W C.
Proof. intros E. unfold a_typical, cadd, H, W, C. ext; [rewrite (E t); tauto|rows E]. Qed.
Lemma join_high : full3 ->
  cmap (fun x => x /. #3) (cadd (csub (cmap (fmul (#4)) h) (cmap (fmul (#2)) l)) c) = cmap (fun x => x /. #3) (cadd (csub (cmap (fmul (#4)) H) (cmap (fmul (#2)) W)) C).
Proof. intros E. unfold cadd, csub, H, W, C. ext; [rewrite (E t); tauto|rows E]. Qed.
Lemma join_low : full3 ->
  cmap (fun x => x /. #3) (cadd (cadd (cmap (fmul (#-2)) h) (cmap (fmul (#4)) l)) c) = cmap (fun x => x /. #3) (cadd (cadd (cmap (fmul (#-2)) H) (cmap (fmul (#4)) W)) C).
Proof. intros E. unfold cadd, csub, H, W, C. ext; [rewrite (E t); tauto|rows E]. Qed.
Lemma labels_typical : full3 -> labels (a_typical h l c) = ls.
Proof.
  intros E. rewrite (join_typical E). apply sorted_ext; [|exact S|].
  - unfold a_typical, cadd, H, W, C. rewrite labels_cmap, !labels_op2, !labels_reindex. repeat apply union_sorted; exact S.
  - intros t. unfold a_typical, cadd, H, W, C. rewrite labels_cmap, !labels_op2, !labels_reindex, !in_union. tauto.
Qed.
Lemma join_keltner : forall w a fl m, full3 -> a_keltner h l c w a fl true m = a_keltner H W C w a fl true m.
Proof. intros w a fl m E. unfold a_keltner. rewrite <- (join_typical E), <- (join_high E), <- (join_low E). reflexivity. Qed.
Lemma keltner_low : forall w a fl m st, full3 -> a_keltner h l c w a fl true m = Ok st -> labels (ak_low st) = ls.
Proof.
  intros w a fl m st E K. unfold a_keltner in K. rewrite (join_low E) in K. inv_ok. cbn [ak_low]. unfold croll, eachr in E2. inv_ok.
  rewrite labels_combine. 2:{ rewrite (len_rolling _ _ _ _ _ E3), len_values, len_labels. reflexivity. }
  apply sorted_ext; [|exact S|].
  - unfold cadd, csub, H, W, C. rewrite labels_cmap, !labels_op2, !labels_cmap, !labels_reindex. repeat apply union_sorted; exact S.
  - intros t. unfold cadd, csub, H, W, C. rewrite labels_cmap, !labels_op2, !labels_cmap, !labels_reindex, !in_union. tauto.
Qed.
Lemma join_close : forall x, full3 -> labels x = ls -> csub c x = csub C x.
Proof.
  intros x E X. unfold csub, C. apply column_ext.
  - unfold ascending. rewrite labels_op2. apply union_sorted, Sc.
  - apply sorted_ext; rewrite !labels_op2, ?labels_reindex, ?X; try (apply union_sorted; assumption). intros t. rewrite !in_union. pose proof (E t). tauto.
  - intros t. rewrite !row_op2 by exact nn_sub. rewrite row_reindex by (intros u U; apply E; auto). reflexivity.
Qed.
End Frame.

Lemma together_joined : forall ls (k : columns F), together (joined ls k) =
  {| c_high := reindex ls (c_high k); c_low := reindex ls (c_low k); c_close := reindex ls (c_close k); c_volume := reindex ls (c_volume k) |}.
Proof. intros ls k. unfold together, joined, reindex. rewrite !map_map. reflexivity. Qed.
Theorem outer_join : forall (ind : indicator F) fillna k ls, all_ascending k -> joins_first ind = true -> StronglySorted Z.lt ls ->
  (forall t, In t ls <-> exists x, In x (index_from ind) /\ In t (labels (pick k x))) ->
  compute_apart ind fillna k = (x <- compute ind fillna (joined ls k) ;; Ok (combine ls x)).
Proof.
  intros ind fillna k ls (Sh & Sl & Sc & Sv) J S E.
  assert (D : drops_rows ind = false) by (destruct ind; try discriminate J; reflexivity).
  assert (B : label_dependent ind = false) by (destruct ind; try discriminate J; reflexivity).
  assert (M : map b_label (joined ls k) = ls) by (unfold joined; rewrite map_map; apply map_id).
  transitivity (x <- compute ind fillna (joined ls k) ;; Ok (combine (map b_label (joined ls k)) x)); [|rewrite M; reflexivity].
  rewrite <- same_index_rows by (assumption || (rewrite M; exact S)). rewrite together_joined.
  destruct ind; try discriminate J; cbn [joins_first] in J; try subst; cbn [compute_apart c_high c_low c_close c_volume index_from] in *.
  1-2: assert (E2 : forall t, In t ls <-> In t (labels (c_high k)) \/ In t (labels (c_low k))) by
     (intros t; rewrite (E t); split; [intros (x & [<-|[<-|[]]] & X); auto|intros [X|X]; [exists High|exists Low]; cbn; auto]).
  3-8: assert (E3 : full3 ls (c_high k) (c_low k) (c_close k)) by
     (intros t; rewrite (E t); split; [intros (x & [<-|[<-|[<-|[]]]] & X); auto|intros [X|[X|X]]; [exists High|exists Low|exists Close]; cbn; auto]).
  1: unfold a_awesome, cadd; rewrite (join2 ls (c_high k) (c_low k)) by (assumption || exact nn_add); reflexivity.
  1: unfold a_mass, csub; rewrite (join2 ls (c_high k) (c_low k)) by (assumption || exact nn_sub); reflexivity.
  1: unfold a_cci; rewrite (join_typical ls (c_high k) (c_low k) (c_close k)) by assumption; reflexivity.
  1-4: unfold a_kc_m, a_kc_h, a_kc_l, a_kc_w; rewrite (join_keltner ls (c_high k) (c_low k) (c_close k)) by assumption; reflexivity.
  unfold a_kc_p. rewrite <- (join_keltner ls (c_high k) (c_low k) (c_close k)) by assumption. destruct (a_keltner _ _ _ _ _ _ _ _) as [st|e] eqn:K; [|reflexivity]. cbn [bind].
  rewrite (join_close ls (c_high k) (c_low k) (c_close k)); try assumption; [reflexivity|]. eapply keltner_low in K; eassumption.
Qed.

(** ** Rows by position *)
Lemma lengths : forall a b : column F, values a = values b -> length a = length b.
Proof. intros a b E. rewrite <- !len_values, E. reflexivity. Qed.
Theorem positions : forall (ind : indicator F) fillna k k', by_position ind = true ->
  labels (c_high k) = labels (c_low k) -> labels (c_high k') = labels (c_low k') ->
  (forall x, values (pick k x) = values (pick k' x)) -> labels (c_close k) = labels (c_close k') -> compute_apart ind fillna k = compute_apart ind fillna k'.
Proof.
  intros ind fillna k k' P Q Q' V E. pose proof (V High) as Vh. pose proof (V Low) as Vl. pose proof (V Close) as Vc. pose proof (V Volume) as Vv. cbn [pick] in *.
  pose proof (lengths _ _ Vh) as Lh. pose proof (lengths _ _ Vl) as Ll. pose proof (lengths _ _ Vc) as Lc. pose proof (lengths _ _ Vv) as Lv.
  destruct ind; try discriminate P; cbn [compute_apart]; unfold a_adx, a_psar, psar_labels, a_obv, a_nvi, same_index; rewrite ?Q, ?Q', ?Vh, ?Vl, ?Vc, ?Vv, ?E, ?Lh, ?Ll, ?Lc, ?Lv; try reflexivity.
  all: destruct (list_eq_dec Z.eq_dec (labels (c_low k)) _) as [_|n]; [|destruct n; reflexivity]; destruct (list_eq_dec Z.eq_dec (labels (c_low k')) _) as [_|n]; [|destruct n; reflexivity]; reflexivity.
Qed.
Theorem adx_indexes : forall (ind : indicator F) fillna k, match ind with Adx _ | AdxPos _ | AdxNeg _ => True | _ => False end ->
  labels (c_high k) <> labels (c_low k) -> compute_apart ind fillna k = Raise ValueError.
Proof.
  intros ind fillna k I N. destruct ind; try destruct I; cbn [compute_apart]; unfold a_adx, same_index; destruct (list_eq_dec _ _ _) as [e|_]; try contradiction; rewrite andb_false_r; reflexivity.
Qed.
End Join.
