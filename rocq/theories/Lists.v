(** * Lists: general list lemmas (no model content). *)
From Verif Require Import Series.

Section Lists.
Context {A B C D : Type}.

Lemma length_map2 : forall (f : A -> B -> C) l m,
  length (map2 f l m) = Nat.min (length l) (length m).
Proof. induction l; destruct m; simpl; auto. Qed.

Lemma length_map3 : forall (f : A -> B -> C -> D) l m n,
  length (map3 f l m n) = Nat.min (length l) (Nat.min (length m) (length n)).
Proof. induction l; destruct m; destruct n; simpl; auto. Qed.

Lemma firstn_map2 : forall (f : A -> B -> C) k l m,
  map2 f (firstn k l) (firstn k m) = firstn k (map2 f l m).
Proof.
  induction k; intros; [reflexivity|].
  destruct l; destruct m; simpl; try reflexivity. now rewrite IHk.
Qed.

Lemma firstn_map3 : forall (f : A -> B -> C -> D) k l m n,
  map3 f (firstn k l) (firstn k m) (firstn k n) = firstn k (map3 f l m n).
Proof.
  induction k; intros; [reflexivity|].
  destruct l; destruct m; destruct n; simpl; try reflexivity. now rewrite IHk.
Qed.

Lemma map2_map_l : forall (E : Type) (g : E -> A) (f : A -> B -> C) l m,
  map2 f (map g l) m = map2 (fun x y => f (g x) y) l m.
Proof. induction l; destruct m; simpl; auto. now rewrite IHl. Qed.

Lemma map2_map_r : forall (E : Type) (g : E -> B) (f : A -> B -> C) l m,
  map2 f l (map g m) = map2 (fun x y => f x (g y)) l m.
Proof. induction l; destruct m; simpl; auto. now rewrite IHl. Qed.

Lemma nth_map2 : forall (f : A -> B -> C) l m i da db dc,
  i < length l -> i < length m ->
  nth i (map2 f l m) dc = f (nth i l da) (nth i m db).
Proof.
  induction l; destruct m; simpl; intros; try lia.
  destruct i; auto. apply IHl; lia.
Qed.

Lemma map2_app : forall (f : A -> B -> C) l1 l2 m1 m2, length l1 = length m1 ->
  map2 f (l1 ++ l2) (m1 ++ m2) = map2 f l1 m1 ++ map2 f l2 m2.
Proof.
  induction l1; destruct m1; simpl; intros; try lia; auto.
  now rewrite IHl1 by lia.
Qed.

End Lists.

Lemma map_map2 : forall {A B C D} (g : C -> D) (f : A -> B -> C) l m,
  map g (map2 f l m) = map2 (fun x y => g (f x y)) l m.
Proof. induction l; destruct m; simpl; auto. now rewrite IHl. Qed.

Lemma map2_diag : forall {A B} (f : A -> A -> B) l, map2 f l l = map (fun x => f x x) l.
Proof. induction l; simpl; congruence. Qed.

Lemma map2_map_same : forall {E A B C} (g : E -> A) (h : E -> B) (f : A -> B -> C) l,
  map2 f (map g l) (map h l) = map (fun x => f (g x) (h x)) l.
Proof. induction l; simpl; congruence. Qed.

Lemma map3_map_same : forall {E A B C D} (g : E -> A) (h : E -> B) (j : E -> C)
    (f : A -> B -> C -> D) l,
  map3 f (map g l) (map h l) (map j l) = map (fun x => f (g x) (h x) (j x)) l.
Proof. induction l; simpl; congruence. Qed.

Lemma firstn_repeat : forall {A} (x : A) k n, firstn k (repeat x n) = repeat x (Nat.min k n).
Proof. induction k; destruct n; simpl; auto. now rewrite IHk. Qed.

Lemma skipn_repeat : forall {A} (x : A) k n, skipn k (repeat x n) = repeat x (n - k).
Proof. induction k; destruct n; simpl; auto. Qed.

Lemma repeat_app_eq : forall {A} (x : A) a b, repeat x a ++ repeat x b = repeat x (a + b).
Proof. induction a; simpl; intros; auto. now rewrite IHa. Qed.

Lemma skipn_skipn' : forall {A} (l : list A) a b, skipn a (skipn b l) = skipn (a + b) l.
Proof.
  induction l; intros; [now rewrite !skipn_nil|].
  destruct b; simpl; [now rewrite Nat.add_0_r|].
  rewrite Nat.add_succ_r. simpl. apply IHl.
Qed.

Lemma firstn_seq : forall k s n, firstn k (seq s n) = seq s (Nat.min k n).
Proof. induction k; destruct n; simpl; auto. now rewrite IHk. Qed.

Lemma skipn_seq : forall k s n, skipn k (seq s n) = seq (s + k) (n - k).
Proof.
  induction k; intros; simpl; [now rewrite Nat.add_0_r, Nat.sub_0_r|].
  destruct n; simpl; auto. rewrite IHk. f_equal; lia.
Qed.

Lemma nth_firstn_lt : forall {A} (l : list A) k i d, i < k -> nth i (firstn k l) d = nth i l d.
Proof.
  induction l; intros; [now rewrite firstn_nil|].
  destruct k; [lia|]. destruct i; simpl; auto. apply IHl. lia.
Qed.

Lemma nth_skipn' : forall {A} (l : list A) k i d, nth i (skipn k l) d = nth (k + i) l d.
Proof.
  induction l; intros; [rewrite skipn_nil; now destruct i, k|].
  destruct k; simpl; auto.
Qed.

Lemma nth_repeat_any : forall {A} (x : A) n i, nth i (repeat x n) x = x.
Proof. induction n; destruct i; simpl; auto. Qed.

Lemma nth_repeat_lt : forall {A} (x d : A) n i, i < n -> nth i (repeat x n) d = x.
Proof. induction n; destruct i; simpl; intros; auto; try lia. apply IHn. lia. Qed.

Lemma list_eq_nth : forall {A} (d : A) (l m : list A), length l = length m ->
  (forall i, i < length l -> nth i l d = nth i m d) -> l = m.
Proof. intros. now apply nth_ext with d d. Qed.

Lemma map_seq_nth : forall {A} (d : A) (l : list A), map (fun i => nth i l d) (seq 0 (length l)) = l.
Proof.
  intros. apply list_eq_nth with d; rewrite map_length, seq_length; auto.
  intros. rewrite (nth_indep _ _ (nth 0 l d)), map_nth with (f := fun i => nth i l d)
    by (rewrite map_length, seq_length; auto).
  now rewrite seq_nth.
Qed.

Lemma Forall_map2 : forall {A B C} (P : A -> Prop) (Q : B -> Prop) (S : C -> Prop) f l m,
  (forall a b, P a -> Q b -> S (f a b)) -> Forall P l -> Forall Q m -> Forall S (map2 f l m).
Proof.
  induction l; destruct m; simpl; intros; auto.
  inversion H0; inversion H1; subst; constructor; auto.
Qed.

Lemma Forall_map_i : forall {A B} (P : A -> Prop) (Q : B -> Prop) f l,
  (forall a, P a -> Q (f a)) -> Forall P l -> Forall Q (map f l).
Proof. induction l; simpl; intros; auto. inversion H0; constructor; auto. Qed.

Lemma Forall_skipn : forall {A} (P : A -> Prop) k l, Forall P l -> Forall P (skipn k l).
Proof. induction k; destruct l; simpl; intros; auto. inversion H; auto. Qed.

Lemma Forall_firstn : forall {A} (P : A -> Prop) k l, Forall P l -> Forall P (firstn k l).
Proof. induction k; destruct l; simpl; intros; auto. inversion H; constructor; auto. Qed.

Lemma Forall_filter : forall {A} (P : A -> Prop) g l, Forall P l -> Forall P (filter g l).
Proof. induction l; simpl; intros; auto. inversion H; subst. destruct (g a); auto. Qed.

Lemma map_ext_seq : forall {A} (f g : nat -> A) s n,
  (forall i, s <= i < s + n -> f i = g i) -> map f (seq s n) = map g (seq s n).
Proof. intros. apply map_ext_in. intros i Hi. apply in_seq in Hi. auto. Qed.

Lemma map2_ext_in_l : forall {A B C} (f g : A -> B -> C) l m, (forall x y, In x l -> f x y = g x y) -> map2 f l m = map2 g l m.
Proof. induction l; intros; cbn; [auto|]. destruct m; auto. f_equal; [apply H; now left|]. apply IHl. intros. apply H. now right. Qed.
Lemma in_firstn_seq : forall i k n, In i (firstn k (seq 0 n)) -> i < k.
Proof. intros. rewrite firstn_seq, in_seq in H. lia. Qed.
