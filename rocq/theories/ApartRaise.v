(** * ApartRaise: indexes that do not fit (C102). *)
From Coq Require Import Lia Sorting.Sorted.
From Verif Require Import Lists Align Apart SpecApart ApartProofs ApartIndex ApartGaps.
Local Open Scope f_scope.

Section Raise.
Context {F : Type} {A : Arith F}.
Lemma labels_tr : forall (h l c : column F) t, In t (labels (ctrue_range h l (each (shift 1) c))) <-> In t (labels h) \/ In t (labels l) \/ In t (labels c).
Proof.
  intros h l c t. unfold ctrue_range, labels at 1. cbv zeta. rewrite map_map. cbn [fst]. rewrite map_id, !in_union. unfold csub.
  rewrite !labels_cmap, !labels_op2, !in_union, labels_each by apply len_shift. tauto.
Qed.
Lemma tr_sorted : forall h l c : column F, ascending h -> ascending (ctrue_range h l (each (shift 1) c)).
Proof.
  intros h l c S. unfold ctrue_range, ascending, labels at 1. cbv zeta. rewrite map_map. cbn [fst]. rewrite map_id. repeat apply union_sorted.
  unfold csub. rewrite labels_op2. apply union_sorted, S.
Qed.
Lemma longer : forall us cs, StronglySorted Z.lt us -> StronglySorted Z.lt cs -> incl cs us -> (exists t, In t us /\ ~ In t cs) -> length us <> length cs.
Proof.
  intros us cs U C I (t & T & N) E. apply N. apply (NoDup_length_incl (l := cs) (l' := us)); [apply sorted_nodup, C|lia|exact I|exact T].
Qed.
Section Three.
Variables h l c : column F.
Hypothesis (Sh : ascending h) (Sl : ascending l) (Sc : ascending c).
Let tr := ctrue_range h l (each (shift 1) c).
Definition alien := exists t, (In t (labels h) \/ In t (labels l)) /\ ~ In t (labels c).
Lemma tr_alien : alien -> length tr <> length c.
Proof.
  intros (t & T & N). rewrite <- (len_labels tr), <- (len_labels c). apply longer; [apply tr_sorted, Sh|exact Sc| |].
  - intros u U. apply labels_tr. tauto.
  - exists t. split; [apply labels_tr; tauto|exact N].
Qed.
Lemma tr_native : ~ alien -> labels tr = labels c.
Proof.
  intros N. apply sorted_ext; [apply tr_sorted, Sh|exact Sc|]. intros t. unfold tr. rewrite labels_tr. split; [|tauto]. intros T.
  destruct (in_dec Z.eq_dec t (labels c)) as [I|O]; [exact I|]. destruct N. exists t. tauto.
Qed.
Lemma atr_values : forall w, (1 <= w <= Z.of_nat (length c))%Z -> forall first k, (length c <= length tr)%nat ->
  length (repeat (#0) (Z.to_nat w - 1) ++ first :: atr_go k first (firstn (length c - Z.to_nat w) (skipn (Z.to_nat w) (values tr)))) = length c.
Proof.
  intros w W first k G. rewrite app_length, repeat_length. cbn [length]. 
  rewrite len_atr_go, firstn_length, skipn_length, len_values. lia.
Qed.
Lemma tr_long : (length c <= length tr)%nat.
Proof.
  rewrite <- (len_labels tr), <- (len_labels c). apply NoDup_incl_length; [apply sorted_nodup, Sc|]. intros u U. apply labels_tr. tauto.
Qed.
Lemma atr_alien : forall w fl, (1 <= w <= Z.of_nat (length c))%Z -> alien -> a_atr h l c w fl = Raise ValueError.
Proof.
  intros w fl W N. pose proof (tr_alien N) as X. unfold a_atr. cbv zeta. fold tr. rewrite (proj2 (Z.leb_gt _ _)) by lia. rewrite (proj2 (Nat.ltb_ge _ _)) by lia.
  unfold with_index. rewrite atr_values by (exact W || exact tr_long). rewrite len_labels. destruct (Nat.eqb_spec (length c) (length tr)); [congruence|]. reflexivity.
Qed.
Lemma atr_native : forall w fl, (1 <= w <= Z.of_nat (length c))%Z -> ~ alien -> exists x, a_atr h l c w fl = Ok x /\ labels x = labels c.
Proof.
  intros w fl W N. pose proof (tr_native N) as X. assert (Y : length tr = length c) by (rewrite <- len_labels, X; apply len_labels). unfold a_atr. cbv zeta. fold tr. rewrite (proj2 (Z.leb_gt _ _)) by lia. rewrite (proj2 (Nat.ltb_ge _ _)) by lia.
  unfold with_index. rewrite atr_values by (exact W || exact tr_long). rewrite len_labels, Y, Nat.eqb_refl. cbn [bind]. eexists. split; [reflexivity|].
  unfold cfill. rewrite labels_each by apply len_check. rewrite labels_combine; [exact X|]. rewrite atr_values by (exact W || exact tr_long). rewrite len_labels. congruence.
Qed.
Lemma roll_ok : forall w m agg (a : column F), (0 <= m <= w)%Z -> exists r, croll w m agg a = Ok r /\ labels r = labels a.
Proof.
  intros w m agg a B. unfold croll, eachr. destruct (rolling w m agg (values a)) as [r|e] eqn:E.
  - exists (combine (labels a) r). split; [reflexivity|]. apply labels_combine. rewrite (len_rolling _ _ _ _ _ E), len_values, len_labels. reflexivity.
  - unfold rolling in E. destruct (_ || _) eqn:Q; [|discriminate E]. apply orb_true_iff in Q as [Q|Q]; [apply orb_true_iff in Q as [Q|Q]|]; apply Z.ltb_lt in Q; lia.
Qed.
Lemma keltner_ema : forall w a fl m, (1 <= w)%Z -> (1 <= a <= Z.of_nat (length c))%Z ->
  (alien -> a_keltner h l c w a fl false m = Raise ValueError) /\
  (~ alien -> exists st, a_keltner h l c w a fl false m = Ok st /\ labels (ak_high st) = labels c /\ labels (ak_low st) = labels c).
Proof.
  intros w a fl m W B. unfold a_keltner. cbv zeta. unfold eachr at 1 2, ewm_span. rewrite (proj2 (Z.ltb_ge _ _)) by lia. cbn [bind]. split; intros N.
  - rewrite (atr_alien a fl B N). reflexivity.
  - destruct (atr_native a fl B N) as (x & -> & X). cbn [bind]. eexists. split; [reflexivity|]. cbn [ak_high ak_low]. unfold cadd, csub.
    rewrite !labels_op2, labels_cmap, X. rewrite labels_combine by (rewrite len_ewm_com, len_values, len_labels; reflexivity).
    split; (apply sorted_ext; [apply union_sorted, Sc|exact Sc|intros t; rewrite in_union; tauto]).
Qed.
Lemma keltner_orig : forall w a fl m, (1 <= w)%Z -> exists st, a_keltner h l c w a fl true m = Ok st /\
  (forall t, In t (labels (ak_high st)) <-> In t (labels h) \/ In t (labels l) \/ In t (labels c)) /\
  (forall t, In t (labels (ak_low st)) <-> In t (labels h) \/ In t (labels l) \/ In t (labels c)) /\ ascending (ak_high st) /\ ascending (ak_low st).
Proof.
  intros w a fl m W. unfold a_keltner. cbv zeta.
  match goal with |- context [croll w ?m agg_mean (a_typical h l c)] => destruct (roll_ok w m agg_mean (a_typical h l c)) as (x & -> & X); [destruct fl; lia|] end. cbn [bind].
  match goal with |- context [croll w ?m agg_mean ?y] => destruct (roll_ok w m agg_mean y) as (y1 & -> & Y1); [lia|] end. cbn [bind].
  match goal with |- context [croll w ?m agg_mean ?y] => destruct (roll_ok w m agg_mean y) as (y2 & -> & Y2); [lia|] end. cbn [bind].
  eexists. split; [reflexivity|]. cbn [ak_high ak_low]. unfold ascending. rewrite Y1, Y2. unfold cadd, csub. rewrite !labels_cmap, !labels_op2, !labels_cmap.
  repeat split; intros; try (repeat apply union_sorted; assumption). all: revert H; rewrite !in_union; tauto.
Qed.
Lemma index_is : forall x : column F, ascending x -> (forall t, In t (labels x) <-> In t (labels h) \/ In t (labels l) \/ In t (labels c)) ->
  (alien -> same_index c x = false) /\ (~ alien -> same_index c x = true).
Proof.
  intros x S X. unfold same_index. destruct (list_eq_dec _ _ _) as [e|n]; split; intros N; try reflexivity.
  - destruct N as (t & T & N). destruct N. rewrite e. apply X. tauto.
  - destruct n. apply sorted_ext; [exact Sc|exact S|]. intros t. rewrite X. split; [tauto|]. intros T.
    destruct (in_dec Z.eq_dec t (labels c)) as [I|O]; [exact I|]. destruct N. exists t. tauto.
Qed.
Lemma index_same : forall x : column F, labels x = labels c -> same_index c x = true.
Proof. intros x X. unfold same_index. destruct (list_eq_dec _ _ _) as [e|n]; [reflexivity|]. congruence. Qed.
End Three.

Lemma typical_in : forall (h l c : column F) t, In t (labels (a_typical h l c)) <-> In t (labels h) \/ In t (labels l) \/ In t (labels c).
Proof. intros h l c t. unfold a_typical, cadd. rewrite labels_cmap, !labels_op2, !in_union. tauto. Qed.
Lemma typical_sorted : forall h l c : column F, ascending h -> ascending (a_typical h l c).
Proof. intros h l c S. unfold ascending, a_typical, cadd. rewrite labels_cmap, !labels_op2. repeat apply union_sorted. exact S. Qed.
Lemma mfi_cases : forall (h l c v : column F) w fl, ascending h -> ascending l -> ascending c -> ascending v -> (1 <= w)%Z -> (2 <= length h)%nat ->
  let alone := exists t, In t (labels v) /\ ~ (In t (labels h) \/ In t (labels l) \/ In t (labels c)) in
  (alone -> a_mfi h l c v w fl = Raise ValueError) /\ (~ alone -> exists out, a_mfi h l c v w fl = Ok out).
Proof.
  intros h l c v w fl Sh Sl Sc Sv W B. cbv zeta. unfold a_mfi. cbv zeta. set (tp := a_typical h l c). set (flow := cmul tp v).
  assert (I : incl (labels tp) (labels flow)) by (intros t T; unfold flow, cmul; rewrite labels_op2, in_union; auto).
  assert (Sf : ascending flow) by (unfold flow, cmul, ascending; rewrite labels_op2; apply union_sorted, typical_sorted, Sh).
  assert (B2 : (2 <= length tp)%nat).
  { rewrite <- len_labels in *. eapply Nat.le_trans; [exact B|]. apply NoDup_incl_length; [apply sorted_nodup, Sh|]. intros t T. apply typical_in. auto. }
  rewrite len_values. split.
  - intros (t & T & N). assert (length flow <> length tp) as D.
    { rewrite <- !len_labels. apply longer; [exact Sf|apply typical_sorted, Sh|exact I|]. exists t. split; [unfold flow, cmul; rewrite labels_op2, in_union; auto|].
      unfold tp. rewrite typical_in. exact N. }
    rewrite (proj2 (Nat.eqb_neq _ _) D). rewrite (proj2 (Nat.eqb_neq (length tp) 1)) by lia. reflexivity.
  - intros N. assert (length flow = length tp) as D.
    { rewrite <- !len_labels. f_equal. apply sorted_ext; [exact Sf|apply typical_sorted, Sh|]. intros t. unfold flow, cmul. rewrite labels_op2, in_union. split; [|auto].
      intros [T|T]; [exact T|]. destruct (in_dec Z.eq_dec t (labels tp)) as [J|O]; [exact J|]. destruct N. exists t. split; [exact T|]. rewrite <- typical_in. exact O. }
    rewrite D, Nat.eqb_refl. cbn [negb andb].
    match goal with |- context [croll w ?m ?g ?y] => destruct (roll_ok w m g y) as (y1 & -> & Y1); [unfold minp_of; destruct fl; lia|] end. cbn [bind].
    match goal with |- context [croll w ?m ?g ?y] => destruct (roll_ok w m g y) as (y2 & -> & Y2); [unfold minp_of; destruct fl; lia|] end. cbn [bind].
    eexists. reflexivity.
Qed.
Lemma outside_close : forall k : columns F, outside k [High; Low] [Close] <-> alien (c_high k) (c_low k) (c_close k).
Proof.
  intros k. split.
  - intros (x & t & X & T & N). exists t. split; [|apply (N Close); left; reflexivity]. destruct X as [<-|[<-|[]]]; auto.
  - intros (t & [T|T] & N); [exists High, t|exists Low, t]; (split; [cbn; auto|]); (split; [exact T|]); intros y [<-|[]]; exact N.
Qed.
Lemma outside_volume : forall k : columns F, outside k [Volume] [High; Low; Close] <->
  exists t, In t (labels (c_volume k)) /\ ~ (In t (labels (c_high k)) \/ In t (labels (c_low k)) \/ In t (labels (c_close k))).
Proof.
  intros k. split.
  - intros (x & t & [<-|[]] & T & N). exists t. split; [exact T|]. pose proof (N High). pose proof (N Low). pose proof (N Close). cbn [In pick] in *. tauto.
  - intros (t & T & N). exists Volume, t. split; [cbn; auto|]. split; [exact T|]. intros y [<-|[<-|[<-|[]]]]; cbn [pick]; tauto.
Qed.
Theorem unmatched : forall (ind : indicator F) fillna k xs ys, all_ascending k -> must_cover ind = Some (xs, ys) -> enough ind k ->
  (outside k xs ys -> compute_apart ind fillna k = Raise ValueError) /\ (~ outside k xs ys -> exists out, compute_apart ind fillna k = Ok out).
Proof.
  intros ind fillna k xs ys (Sh & Sl & Sc & Sv) M N.
  destruct ind; try discriminate M; cbn [must_cover enough compute_apart] in *; try (destruct original_version; try discriminate M); injection M as <- <-; rewrite ?outside_close, ?outside_volume.
  1: split; intros X; [apply atr_alien; assumption|]; edestruct atr_native as (x & -> & _); [exact Sh|exact Sc|exact N|exact X|]; eexists; reflexivity.
  all: try destruct N as [W N]; try specialize (N eq_refl).
  all: unfold a_kc_m, a_kc_h, a_kc_l, a_kc_w, a_kc_p, a_kc_hi, a_kc_li.
  all: try (edestruct (keltner_ema (c_high k) (c_low k) (c_close k) Sh Sc window window_atr fillna multiplier W N) as [X1 X2];
    split; intros Y; [rewrite (X1 Y); reflexivity|]; destruct (X2 Y) as (st & -> & P & Q); cbn [bind];
    try rewrite (index_same _ _ P); try rewrite (index_same _ _ Q); eexists; reflexivity).
  all: try (edestruct (keltner_orig (c_high k) (c_low k) (c_close k) Sh window window_atr fillna multiplier W) as (st & -> & P & Q & P' & Q'); cbn [bind];
    destruct (index_is _ _ _ Sc _ P' P) as [U1 U2]; destruct (index_is _ _ _ Sc _ Q' Q) as [V1 V2]; split; intros Y;
    [rewrite ?(U1 Y), ?(V1 Y); reflexivity|rewrite ?(U2 Y), ?(V2 Y); eexists; reflexivity]).
  apply mfi_cases; assumption.
Qed.
End Raise.
