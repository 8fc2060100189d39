(** * Sums: numpy's sum adds every term once, in some order. *)
From Coq Require Import Permutation.
From Verif Require Export Series.
Local Open Scope f_scope.

Section Sums.
Context {F : Type} {A : Arith F}.

(** [x] is the result of adding the terms [l], in some order and grouping *)
Inductive totals : list F -> F -> Prop :=
  | totals_nil : totals [] (#0)
  | totals_one : forall x, totals [x] x
  | totals_add : forall l m n x y, totals l x -> totals m y -> Permutation (l ++ m) n -> totals n (x +. y).

Lemma totals_perm : forall l m x, totals l x -> Permutation l m -> totals m x.
Proof.
  intros l m x H P. destruct H as [|x|l1 l2 l x y H1 H2 P'].
  - apply Permutation_nil in P as ->. constructor.
  - apply Permutation_length_1_inv in P as ->. constructor.
  - apply totals_add with l1 l2; auto. now rewrite P'.
Qed.
Lemma totals_pair : forall l m x y, totals l x -> totals m y -> totals (l ++ m) (x +. y).
Proof. intros. eapply totals_add; eauto. Qed.
Lemma totals_fold : forall l m x, totals m x -> totals (m ++ l) (fold_left fadd l x).
Proof.
  induction l as [|y l IH]; intros m x H; cbn [fold_left]; [now rewrite app_nil_r|].
  change (y :: l) with ([y] ++ l). rewrite app_assoc. apply IH. eapply totals_add; [exact H|apply totals_one|reflexivity].
Qed.
Lemma totals_lanes : forall k r l Ls, Forall2 totals Ls r -> length r = 8 -> 8 * k <= length l ->
  exists Ms, Forall2 totals Ms (fst (lanes k r l)) /\ length (fst (lanes k r l)) = 8 /\
    Permutation (concat Ms ++ snd (lanes k r l)) (concat Ls ++ l).
Proof.
  induction k as [|k IH]; intros r l Ls H L K; cbn [lanes]; [exists Ls; now repeat split|].
  assert (Lf : length (firstn 8 l) = 8) by (rewrite firstn_length; lia).
  assert (G : forall (Ls : list (list F)) r f, Forall2 totals Ls r -> length r = length f ->
    Forall2 totals (map2 (fun L x => L ++ [x]) Ls f) (map2 fadd r f) /\ length (map2 fadd r f) = length r /\
    Permutation (concat (map2 (fun L x => L ++ [x]) Ls f)) (concat Ls ++ f)).
  { clear. induction Ls as [|L Ls IH]; intros r f H E; inversion H as [|? x ? r' Hx Hr]; subst.
    - destruct f; [|discriminate]. cbn. now repeat constructor.
    - destruct f as [|y f]; [discriminate|]. cbn in E. destruct (IH r' f Hr ltac:(lia)) as (G1 & G2 & G3). cbn [map2 concat length]. repeat split.
      + constructor; auto. eapply totals_add; [exact Hx|apply totals_one|reflexivity].
      + now rewrite G2.
      + rewrite G3, <- !app_assoc. apply Permutation_app_head. cbn [app]. apply Permutation_middle. }
  destruct (G Ls r (firstn 8 l) H ltac:(lia)) as (G1 & G2 & G3).
  destruct (IH (map2 fadd r (firstn 8 l)) (skipn 8 l) _ G1 ltac:(lia) ltac:(rewrite skipn_length; lia)) as (Ms & M1 & M2 & M3).
  exists Ms. repeat split; auto. rewrite M3, G3, <- app_assoc. now rewrite firstn_skipn.
Qed.
Lemma totals_block : forall l, 8 <= length l -> totals l (sum_block l).
Proof.
  intros l H. unfold sum_block. set (k := length l / 8 - 1).
  assert (K : 8 * k <= length (skipn 8 l)).
  { rewrite skipn_length. unfold k. pose proof (Nat.div_mod (length l) 8 ltac:(lia)). lia. }
  assert (L8 : length (firstn 8 l) = 8) by (rewrite firstn_length; lia).
  assert (S1 : Forall2 totals (map (fun x => [x]) (firstn 8 l)) (firstn 8 l)).
  { clear. induction (firstn 8 l); cbn; constructor; auto. constructor. }
  assert (C1 : concat (map (fun x => [x]) (firstn 8 l)) = firstn 8 l).
  { clear. induction (firstn 8 l); cbn; congruence. }
  destruct (totals_lanes k (firstn 8 l) (skipn 8 l) _ S1 L8 K) as (Ms & M1 & M2 & M3). rewrite C1, firstn_skipn in M3.
  destruct (lanes k (firstn 8 l) (skipn 8 l)) as [r rest]. cbn [fst snd] in *.
  apply totals_perm with (concat Ms ++ rest); auto. apply totals_fold.
  destruct r as [|a [|b [|c [|d [|e [|f [|g [|h [|]]]]]]]]]; try discriminate M2.
  repeat match goal with H : Forall2 _ _ (_ :: _) |- _ => inversion H; subst; clear H | H : Forall2 _ _ [] |- _ => inversion H; subst; clear H end.
  unfold in_pairs. cbn [nth concat].
  match goal with |- totals _ ?v => replace (totals _ v) with (totals (((x ++ x0) ++ (x1 ++ x2)) ++ ((x3 ++ x4) ++ (x5 ++ x6))) v) end;
    [repeat apply totals_pair; assumption|]. now rewrite !app_nil_r, <- !app_assoc.
Qed.
Lemma totals_left : forall l, totals l (fold_left fadd l (#0)).
Proof. intros l. exact (totals_fold l [] _ totals_nil). Qed.
Lemma totals_pairwise : forall fuel l, length l <= fuel -> totals l (pairwise fuel l).
Proof.
  induction fuel as [|fuel IH]; intros l H; cbn [pairwise].
  - destruct (Nat.ltb_spec (length l) 8); [apply totals_left|lia].
  - destruct (Nat.ltb_spec (length l) 8); [apply totals_left|]. destruct (Nat.leb_spec (length l) 128); [now apply totals_block|].
    set (n := length l) in *. set (m := n / 2 - (n / 2) mod 8).
    assert (B : 1 <= m < n).
    { unfold m. pose proof (Nat.mod_upper_bound (n / 2) 8 ltac:(lia)). pose proof (Nat.div_mod n 2 ltac:(lia)). pose proof (Nat.mod_upper_bound n 2 ltac:(lia)). lia. }
    apply totals_add with (firstn m l) (skipn m l); [apply IH; rewrite firstn_length; lia|apply IH; rewrite skipn_length; unfold n in *; lia|].
    now rewrite firstn_skipn.
Qed.
Lemma fsum_totals : forall l, totals l (fsum l).
Proof. intros l. apply totals_add with [] l; [constructor|now apply totals_pairwise|reflexivity]. Qed.

(** a set of numbers closed under addition *)
Lemma totals_closed : forall (P : F -> Prop), P (#0) -> (forall x y, P x -> P y -> P (x +. y)) -> forall l x, totals l x -> Forall P l -> P x.
Proof.
  intros P P0 PA l x H. induction H as [|x|l m n x y H1 IH1 H2 IH2 Pm]; intros HP; auto; [exact (Forall_inv HP)|].
  assert (Q : Forall P (l ++ m)) by (rewrite Forall_forall in *; intros z Z; apply HP; now rewrite <- Pm). apply Forall_app in Q as [Q1 Q2]. auto.
Qed.
Lemma fsum_closed : forall (P : F -> Prop), P (#0) -> (forall x y, P x -> P y -> P (x +. y)) -> forall l, Forall P l -> P (fsum l).
Proof. intros P P0 PA l. apply totals_closed; auto. apply fsum_totals. Qed.
(** a set of numbers that a sum cannot leave *)
Lemma totals_absorbing : forall (P : F -> Prop), (forall x y, P x \/ P y -> P (x +. y)) -> forall l x, totals l x -> Exists P l -> P x.
Proof.
  intros P PA l x H. induction H as [|x|l m n x y H1 IH1 H2 IH2 Pm]; intros HP; [inversion HP|inversion HP; auto; match goal with H : Exists _ [] |- _ => inversion H end|].
  assert (Q : Exists P (l ++ m)) by (rewrite Exists_exists in *; destruct HP as (z & Z & HZ); exists z; split; auto; now rewrite Pm).
  apply Exists_app in Q. apply PA. tauto.
Qed.
(** totals of bounded terms: [P k x] for a sum of k terms *)
Lemma totals_count : forall (P : nat -> F -> Prop) (Q : F -> Prop) N, P 0 (#0) -> (forall x, Q x -> P 1 x) ->
  (forall j k x y, j + k <= N -> P j x -> P k y -> P (j + k) (x +. y)) -> forall l x, totals l x -> length l <= N -> Forall Q l -> P (length l) x.
Proof.
  intros P Q N P0 P1 PA l x H. induction H as [|x|l m n x y H1 IH1 H2 IH2 Pm]; intros HN HQ; auto; [exact (P1 _ (Forall_inv HQ))|].
  assert (R : Forall Q (l ++ m)) by (rewrite Forall_forall in *; intros z Z; apply HQ; now rewrite <- Pm). apply Forall_app in R as [R1 R2].
  apply Permutation_length in Pm. rewrite app_length in Pm. rewrite <- Pm in *. apply PA; auto; [apply IH1|apply IH2]; auto; lia.
Qed.
End Sums.

(** ** exact arithmetic: the order does not matter *)
Definition xsum (l : list xr) : xr := fold_right xadd (Fin 0) l.
Lemma xadd_comm : forall x y, xadd x y = xadd y x.
Proof. intros [| | |r] [| | |s]; cbn; auto. f_equal. apply Rplus_comm. Qed.
Lemma xadd_assoc : forall x y z, xadd x (xadd y z) = xadd (xadd x y) z.
Proof. intros [| | |r] [| | |s] [| | |t]; cbn; auto. f_equal. symmetry. apply Rplus_assoc. Qed.
Lemma xadd_0_l : forall x, xadd (Fin 0) x = x.
Proof. intros [| | |r]; cbn; auto. f_equal. apply Rplus_0_l. Qed.
Lemma xadd_0_r : forall x, xadd x (Fin 0) = x.
Proof. intros. now rewrite xadd_comm, xadd_0_l. Qed.
Lemma xsum_app : forall l m, xsum (l ++ m) = xadd (xsum l) (xsum m).
Proof. induction l as [|x l IH]; intros m; cbn [app xsum fold_right]; [now rewrite xadd_0_l|]. unfold xsum in *. now rewrite IH, xadd_assoc. Qed.
Lemma xsum_perm : forall l m, Permutation l m -> xsum l = xsum m.
Proof.
  intros l m P. induction P; cbn [xsum fold_right]; auto; [unfold xsum in *; congruence| |congruence].
  now rewrite !xadd_assoc, (xadd_comm y x).
Qed.
Lemma totals_xr : forall l x, totals l x -> x = xsum l.
Proof.
  intros l x H. induction H as [|x|l m n x y H1 IH1 H2 IH2 P]; [reflexivity|cbn; now rewrite xadd_0_r|].
  rewrite <- (xsum_perm _ _ P), xsum_app, <- IH1, <- IH2. reflexivity.
Qed.
Lemma fsum_left : forall l : list xr, fsum l = fold_left fadd l (#0)%F.
Proof. intros l. rewrite (totals_xr _ _ (fsum_totals l)). symmetry. apply totals_xr, totals_left. Qed.
Lemma ssum_left : forall l : list xr, ssum l = fold_left fadd (obs l) (#0)%F.
Proof.
  intros l. unfold ssum. rewrite (totals_xr _ _ (fsum_totals _)). symmetry. rewrite (totals_xr _ _ (totals_left _)).
  induction l as [|x l IH]; [reflexivity|].
  assert (E : xsum (obs (x :: l)) = xadd (if fisnan x then Fin 0 else x) (xsum (obs l))) by (destruct x; cbn; auto; symmetry; apply xadd_0_l).
  rewrite E, IH. reflexivity.
Qed.
Lemma ssum_obs : forall l : list xr, ssum l = fsum (obs l).
Proof. intros. now rewrite ssum_left, fsum_left. Qed.
Lemma smean_obs : forall l : list xr, smean l = match obs l with [] => fnan | o => (fsum o /. fofnat (length o))%F end.
Proof. intros. unfold smean. rewrite ssum_obs. now destruct (obs l). Qed.
