(** * Frames: proofs about dropna and the wrapper functions (C62-C65). *)
From Coq Require Import String FinFun.
From Verif Require Import Lists Api SpecRaise Raises SpecFrame Wrapper.
Local Open Scope list_scope.

Section Cols.
Context {F : Type} {A : Arith F}.
Notation steps := (list (string * result (list F))).

Fixpoint extend (s : steps) (df : frame F) : frame F * result unit :=
  match s with
  | [] => (df, Ok tt)
  | (n, Ok c) :: r => extend r (setcol n c df)
  | (n, Raise e) :: _ => (df, Raise e)
  end.

Lemma column_getcol : forall n (df : frame F),
  column n df = match getcol n df with Ok c => Some c | Raise _ => None end.
Proof.
  unfold column. induction df as [|[m c] r IH]; [reflexivity|].
  cbn [find getcol fst]. destruct (String.eqb m n); [reflexivity|exact IH].
Qed.
Lemma column_some : forall n (df : frame F) c, column n df = Some c <-> getcol n df = Ok c.
Proof.
  intros. rewrite column_getcol. destruct (getcol n df); split; intros H; inversion H; reflexivity.
Qed.
Lemma column_set_same : forall n c (df : frame F), column n (setcol n c df) = Some c.
Proof.
  unfold column. induction df as [|[m x] r IH]; cbn [setcol find fst].
  - now rewrite String.eqb_refl.
  - destruct (String.eqb m n) eqn:E; cbn [find fst]; rewrite E; [reflexivity|exact IH].
Qed.
Lemma column_set_other : forall n m c (df : frame F), n <> m -> column n (setcol m c df) = column n df.
Proof.
  intros n m c df H. unfold column. induction df as [|[k x] r IH]; cbn [setcol find fst].
  - destruct (String.eqb_spec m n); [congruence|reflexivity].
  - destruct (String.eqb_spec k m); cbn [find fst].
    + subst k. destruct (String.eqb_spec m n); [congruence|reflexivity].
    + destruct (String.eqb k n); [reflexivity|exact IH].
Qed.
Lemma set_same : forall n c (df : frame F), column n df = Some c -> setcol n c df = df.
Proof.
  unfold column. induction df as [|[m x] r IH]; cbn [setcol find fst]; [discriminate|].
  destruct (String.eqb m n); cbn; intros H; [congruence|]. now rewrite IH.
Qed.
Lemma member_in : forall n l, member n l = true <-> In n l.
Proof.
  intros. unfold member. rewrite existsb_exists. split.
  - intros (x & H & E). apply String.eqb_eq in E. now subst.
  - intros H. exists n. split; auto. apply String.eqb_refl.
Qed.
Lemma names_set : forall n c (df : frame F),
  names (setcol n c df) = names df ++ fresh_names (names df) [n].
Proof.
  intros. unfold fresh_names. cbn [filter]. unfold names.
  induction df as [|[m x] r IH]; [reflexivity|].
  cbn [setcol map fst app]. unfold member. cbn [existsb]. rewrite (String.eqb_sym n m).
  destruct (String.eqb m n); cbn [map fst orb negb].
  - now rewrite app_nil_r.
  - f_equal. exact IH.
Qed.

Lemma fresh_app : forall old a b, fresh_names old (a ++ b) = fresh_names old a ++ fresh_names old b.
Proof. intros. unfold fresh_names. now rewrite filter_app. Qed.
Lemma member_app : forall n a b, member n (a ++ b) = member n a || member n b.
Proof. intros. unfold member. now rewrite existsb_app. Qed.
Lemma fresh_weaken : forall old x l, ~ In x l ->
  fresh_names (old ++ fresh_names old [x]) l = fresh_names old l.
Proof.
  intros. unfold fresh_names at 1 3. apply filter_ext_in. intros n Hn. rewrite member_app.
  unfold fresh_names. cbn [filter]. destruct (member x old); cbn [negb].
  - unfold member at 2. cbn [existsb]. now rewrite orb_false_r.
  - unfold member at 2. cbn [existsb]. destruct (String.eqb_spec n x); [congruence|].
    now rewrite !orb_false_r.
Qed.

(** all steps succeed *)
Lemma extend_ok : forall (s : steps) df df', NoDup (map fst s) -> extend s df = (df', Ok tt) ->
  names df' = names df ++ fresh_names (names df) (map fst s) /\
  (forall n, ~ In n (map fst s) -> column n df' = column n df) /\
  (forall n v, In (n, v) s -> exists col, v = Ok col /\ column n df' = Some col).
Proof.
  induction s as [|[n [c|e]] s IH]; intros df df' ND H; cbn [extend map fst] in *.
  - inversion H; subst. cbn. rewrite app_nil_r. repeat split; auto. contradiction.
  - inversion ND as [|? ? Hn ND']; subst.
    destruct (IH _ _ ND' H) as (H1 & H2 & H3). split; [|split].
    + rewrite H1, names_set, fresh_weaken by assumption.
      rewrite <- app_assoc. now rewrite <- fresh_app.
    + intros m Hm. rewrite H2 by (intros X; apply Hm; now right). apply column_set_other. intros ->. apply Hm. now left.
    + intros m v [E|Hin]; [|now apply H3].
      inversion E; subst. exists c. split; auto. rewrite H2 by assumption. apply column_set_same.
  - discriminate.
Qed.

(** splitting at the first failure *)
Lemma extend_raise : forall (s : steps) n e r df,
  (forall p, In p s -> exists c, snd p = Ok c) ->
  extend (s ++ (n, Raise e) :: r) df = (fst (extend s df), Raise e) /\ snd (extend s df) = Ok tt.
Proof.
  induction s as [|[m [c|x]] s IH]; intros n e r df H; cbn [extend app].
  - split; reflexivity.
  - apply IH. intros p Hp. apply H. now right.
  - destruct (H (m, Raise x) (or_introl eq_refl)) as [c Hc]. discriminate.
Qed.
Lemma extend_all_ok : forall (s : steps) df,
  (forall p, In p s -> exists c, snd p = Ok c) -> extend s df = (fst (extend s df), Ok tt).
Proof.
  induction s as [|[m [c|x]] s IH]; intros df H; cbn [extend]; [reflexivity| |].
  - apply IH. intros p Hp. apply H. now right.
  - destruct (H (m, Raise x) (or_introl eq_refl)) as [c Hc]. discriminate.
Qed.
Lemma extend_again : forall (s : steps) df,
  (forall n v, In (n, v) s -> exists col, v = Ok col /\ column n df = Some col) ->
  extend s df = (df, Ok tt).
Proof.
  induction s as [|[m v] s IH]; intros df H; cbn [extend]; [reflexivity|].
  destruct (H m v (or_introl eq_refl)) as (c & -> & Hc). rewrite set_same by assumption.
  apply IH. intros n w Hin. apply H. now right.
Qed.
Lemma extend_app : forall (a b : steps) df,
  extend (a ++ b) df =
  let '(df', r) := extend a df in match r with Ok _ => extend b df' | Raise e => (df', Raise e) end.
Proof.
  induction a as [|[n [c|e]] a IH]; intros; cbn [extend app]; auto.
Qed.
Lemma extend_keeps : forall (s : steps) df n, ~ In n (map fst s) ->
  getcol n (fst (extend s df)) = getcol n df.
Proof.
  induction s as [|[m [c|e]] s IH]; intros df n H; cbn [extend fst map] in *; [reflexivity| |reflexivity].
  rewrite IH by (intros X; apply H; now right).
  assert (E : column n (setcol m c df) = column n df) by (apply column_set_other; intros ->; apply H; now left).
  rewrite !column_getcol in E.
  assert (K : forall df0 : frame F, match getcol n df0 with Ok _ => True | Raise e => e = KeyError end).
  { clear. induction df0 as [|[k x] r IH]; cbn [getcol]; auto. destruct (String.eqb k n); auto. }
  pose proof (K df). pose proof (K (setcol m c df)).
  destruct (getcol n df), (getcol n (setcol m c df)); congruence.
Qed.

Section Runs.
Variables (high low close volume : string) (h l c v : list F).
Definition reads (df : frame F) :=
  getcol high df = Ok h /\ getcol low df = Ok l /\ getcol close df = Ok c /\ getcol volume df = Ok v.
Definition safe (s : steps) := forall n, In n [high; low; close; volume] -> ~ In n (map fst s).
Definition runs (a : act F) (s : steps) := safe s -> forall df, reads df -> a df = extend s df.

Lemma runs_put : forall p n x, runs (put p n x) [(String.append p n, x)].
Proof. intros p n x _ df _. unfold put. destruct x; reflexivity. Qed.
Lemma runs_seq : forall a b s t, runs a s -> runs b t -> runs (seqa a b) (s ++ t).
Proof.
  intros a b s t Ha Hb Hs df R. unfold seqa.
  assert (S1 : safe s). { intros n Hn Hi. apply (Hs n Hn). rewrite map_app. apply in_or_app. now left. }
  assert (S2 : safe t). { intros n Hn Hi. apply (Hs n Hn). rewrite map_app. apply in_or_app. now right. }
  rewrite extend_app, Ha by assumption. pose proof (extend_keeps s df) as K.
  destruct (extend s df) as [df' [u|e]]; [|reflexivity]. apply Hb; [assumption|]. cbn [fst] in K.
  destruct R as (R1 & R2 & R3 & R4).
  repeat split; rewrite K; auto; apply S1; cbn; auto.
Qed.
Lemma runs_read_h : forall k s, runs (k h) s -> runs (read high k) s.
Proof. intros k s H S df R. unfold read. pose proof R as (E & _). rewrite E. now apply H. Qed.
Lemma runs_read_l : forall k s, runs (k l) s -> runs (read low k) s.
Proof. intros k s H S df R. unfold read. pose proof R as (_ & E & _). rewrite E. now apply H. Qed.
Lemma runs_read_c : forall k s, runs (k c) s -> runs (read close k) s.
Proof. intros k s H S df R. unfold read. pose proof R as (_ & _ & E & _). rewrite E. now apply H. Qed.
Lemma runs_read_v : forall k s, runs (k v) s -> runs (read volume k) s.
Proof. intros k s H S df R. unfold read. pose proof R as (_ & _ & _ & E). rewrite E. now apply H. Qed.
Lemma runs_done : runs (@done F) [].
Proof. intros S df R. reflexivity. Qed.
Lemma runs_eq : forall a s t, runs a s -> s = t -> runs a t.
Proof. intros; subst; auto. Qed.
End Runs.
End Cols.

Ltac run :=
  repeat first [ apply runs_put | apply runs_seq | apply runs_done
               | apply runs_read_h | apply runs_read_l | apply runs_read_c | apply runs_read_v ].

Section Groups.
Context {F : Type} {A : Arith F}.
Variables (log : F -> F) (high low close volume prefix : string) (fl ii : bool) (rows : list (bar F)).
Definition todo (vec : bool) (p : list entry) : list (string * result (list F)) :=
  map (fun e => (String.append prefix (fst e), compute (snd e) fl rows)) (selected vec p).
Notation H := (map b_high rows). Notation L := (map b_low rows).
Notation C := (map b_close rows). Notation V := (map b_volume rows).

Lemma volume_runs : forall vec, runs high low close volume H L C V
  (add_volume_ta high low close volume fl prefix vec) (todo vec volume_columns).
Proof. intros [|]; (eapply runs_eq; [unfold add_volume_ta, whenb; cbn [negb]; run|reflexivity]). Qed.
Lemma volatility_runs : forall vec volume V', runs high low close volume H L C V'
  (add_volatility_ta high low close fl prefix vec) (todo vec volatility_columns).
Proof. intros [|] ? ?; (eapply runs_eq; [unfold add_volatility_ta, whenb; cbn [negb]; run|reflexivity]). Qed.
Lemma trend_runs : forall vec volume V', runs high low close volume H L C V'
  (add_trend_ta (labels_of ii rows) high low close fl prefix vec) (todo vec (trend_columns ii)).
Proof. intros [|] ? ?; (eapply runs_eq; [unfold add_trend_ta, whenb; cbn [negb]; run|reflexivity]). Qed.
Lemma momentum_runs : forall vec, runs high low close volume H L C V
  (add_momentum_ta high low close volume fl prefix vec) (todo vec momentum_columns).
Proof. intros [|]; (eapply runs_eq; [unfold add_momentum_ta, whenb; cbn [negb]; run|reflexivity]). Qed.
Lemma others_runs : forall vec high low volume H' L' V', runs high low close volume H' L' C V'
  (add_others_ta log close fl prefix) (todo vec (others_columns log)).
Proof. intros [|] ? ? ? ? ? ?; (eapply runs_eq; [unfold add_others_ta, whenb; cbn [negb]; run|reflexivity]). Qed.

Lemma todo_app : forall vec a b, todo vec (a ++ b) = todo vec a ++ todo vec b.
Proof. intros. unfold todo, selected. now rewrite filter_app, !map_app. Qed.
Lemma all_runs : forall vec open, runs high low close volume H L C V
  (add_all_ta_features log (labels_of ii rows) open high low close volume fl prefix vec)
  (todo vec (all_columns log ii)).
Proof.
  intros. unfold all_columns, add_all_ta_features. rewrite !todo_app.
  repeat apply runs_seq; [apply volume_runs|apply volatility_runs|apply trend_runs|apply momentum_runs
    |apply others_runs].
Qed.
End Groups.

Lemma append_inj : forall p a b, String.append p a = String.append p b -> a = b.
Proof. induction p; cbn; intros a0 b H; [exact H|]. injection H as H. now apply IHp. Qed.

Fixpoint distinct (l : list string) : bool :=
  match l with [] => true | x :: r => negb (member x r) && distinct r end.
Lemma distinct_nodup : forall l, distinct l = true -> NoDup l.
Proof.
  induction l as [|x l IH]; cbn [distinct]; intros E; constructor;
  apply andb_prop in E as [E1 E2]; [|auto].
  intros Hi. apply member_in in Hi. rewrite Hi in E1. discriminate.
Qed.

Lemma nodup_left : forall {B} (a b : list B), NoDup (a ++ b) -> NoDup a.
Proof.
  induction a as [|x a IH]; intros b N; [constructor|]. inversion N; subst. constructor; [|eauto].
  intros Hi. apply H1. apply in_or_app. now left.
Qed.

Section Wrapped.
Context {F : Type} {A : Arith F}.
Variables (log : F -> F) (prefix : string) (fl ii : bool) (rows : list (bar F)).

Lemma todo_names : forall vec p, map fst (todo prefix fl rows vec p) = added prefix vec p.
Proof. intros. unfold todo, added. now rewrite map_map. Qed.
Lemma added_nodup : forall vec (p : list (@entry F)),
  distinct (map fst (selected vec p)) = true -> NoDup (added prefix vec p).
Proof.
  intros. apply distinct_nodup in H. unfold added.
  rewrite <- (map_map fst (fun s => String.append prefix s)).
  apply Injective_map_NoDup; [|exact H]. intros a b E. now apply append_inj in E.
Qed.

Variables (high low close volume : string).
Notation H := (map b_high rows). Notation L := (map b_low rows).
Notation C := (map b_close rows). Notation V := (map b_volume rows).

Lemma holds_reads : forall df, holds rows high low close volume df ->
  reads high low close volume H L C V df.
Proof. intros df (a & b & c & d). repeat split; now apply column_some. Qed.
Lemma apart_safe : forall vec p, apart [high; low; close; volume] (added prefix vec p) ->
  safe high low close volume (todo prefix fl rows vec p).
Proof. intros vec p Hp n Hn. rewrite todo_names. now apply Hp. Qed.

(** a successful run extends the frame by the plan *)
Lemma runs_extended : forall h l c v a vec p df df',
  runs high low close volume h l c v a (todo prefix fl rows vec p) ->
  distinct (map fst (selected vec p)) = true ->
  apart [high; low; close; volume] (added prefix vec p) ->
  reads high low close volume h l c v df -> a df = (df', Ok tt) ->
  extended prefix fl rows (selected vec p) df df'.
Proof.
  intros h l c v a vec p df df' R D Ap Hd E.
  rewrite (R (apart_safe _ _ Ap) _ Hd) in E.
  apply extend_ok in E; [|rewrite todo_names; now apply added_nodup].
  rewrite todo_names in E. destruct E as (E1 & E2 & E3). unfold added in E1, E2.
  split; [exact E1|split; [exact E2|]].
  intros n i Hi. apply E3.
  unfold todo. apply in_map_iff. exists (n, i). split; auto.
Qed.

(** running again changes nothing *)
Lemma runs_again : forall h l c v a vec p df df',
  runs high low close volume h l c v a (todo prefix fl rows vec p) ->
  distinct (map fst (selected vec p)) = true ->
  apart [high; low; close; volume] (added prefix vec p) ->
  reads high low close volume h l c v df -> a df = (df', Ok tt) -> a df' = (df', Ok tt).
Proof.
  intros h l c v a vec p df df' R D Ap Hd E. pose proof E as E0.
  rewrite (R (apart_safe _ _ Ap) _ Hd) in E.
  pose proof (extend_keeps (todo prefix fl rows vec p) df) as K. rewrite E in K. cbn [fst] in K.
  assert (Hd' : reads high low close volume h l c v df').
  { destruct Hd as (a1 & a2 & a3 & a4).
    repeat split; (rewrite K; [assumption|]); apply (apart_safe _ _ Ap); cbn; auto. }
  rewrite (R (apart_safe _ _ Ap) _ Hd'). apply extend_again.
  apply extend_ok in E; [|rewrite todo_names; now apply added_nodup]. apply E.
Qed.

(** how far a run gets *)
Lemma runs_all_ok : forall a vec p df,
  runs high low close volume H L C V a (todo prefix fl rows vec p) ->
  apart [high; low; close; volume] (added prefix vec p) ->
  reads high low close volume H L C V df ->
  fisnan (fnan : F) = true ->
  Forall (fun e => failing_check (snd e) fl rows = None) (selected vec p) ->
  exists df', a df = (df', Ok tt).
Proof.
  intros a vec p df R Ap Hd Hn Fa. rewrite (R (apart_safe _ _ Ap) _ Hd).
  eexists. apply extend_all_ok. intros q Hq. unfold todo in Hq. apply in_map_iff in Hq as (e & <- & He).
  rewrite Forall_forall in Fa. pose proof (Fa e He) as N. cbn [snd].
  pose proof (raises_exactly (snd e) fl rows Hn) as X. rewrite N in X. exact X.
Qed.

Lemma firstn_map_nth : forall {B D} (f : B -> D) k (l : list B) x, nth_error l k = Some x ->
  map f l = map f (firstn k l) ++ f x :: map f (skipn (S k) l).
Proof.
  induction k; destruct l; cbn; intros x E; try discriminate.
  - inversion E; subst. reflexivity.
  - f_equal. exact (IHk _ _ E).
Qed.

Lemma runs_stop : forall a vec p df k n i e,
  runs high low close volume H L C V a (todo prefix fl rows vec p) ->
  distinct (map fst (selected vec p)) = true ->
  apart [high; low; close; volume] (added prefix vec p) ->
  reads high low close volume H L C V df ->
  fisnan (fnan : F) = true ->
  Forall (fun e => failing_check (snd e) fl rows = None)
         (firstn k (selected vec p)) ->
  nth_error (selected vec p) k = Some (n, i) ->
  failing_check i fl rows = Some e ->
  exists df', a df = (df', Raise e) /\ extended prefix fl rows (firstn k (selected vec p)) df df'.
Proof.
  intros a vec p df k n i e R D Ap Hd Hn Fa Nk Fi. rewrite (R (apart_safe _ _ Ap) _ Hd).
  unfold todo. rewrite (firstn_map_nth _ _ _ _ Nk). cbn [fst snd].
  pose proof (raises_exactly i fl rows Hn) as X. rewrite Fi in X. rewrite X.
  match goal with |- context [extend (?s ++ _ :: ?r) _] => set (S0 := s); set (R0 := r) end.
  destruct (extend_raise S0 (String.append prefix n) e R0 df) as (E1 & E2).
  { intros q Hq. unfold S0 in Hq. apply in_map_iff in Hq as (d & <- & Hin).
    rewrite Forall_forall in Fa. pose proof (Fa d Hin) as N. cbn [snd].
    pose proof (raises_exactly (snd d) fl rows Hn) as Y. rewrite N in Y. exact Y. }
  rewrite E1. eexists. split; [reflexivity|].
  destruct (extend S0 df) as [df' r'] eqn:E. cbn [fst snd] in *. subst r'.
  assert (NDs : NoDup (map fst S0)).
  { pose proof (added_nodup _ _ D) as ND. unfold added in ND. unfold S0. rewrite map_map. cbn [fst].
    rewrite (firstn_map_nth _ _ _ _ Nk) in ND. now apply nodup_left in ND. }
  destruct (extend_ok S0 df df' NDs E) as (X1 & X2 & X3).
  assert (NS : map fst S0 = map (fun e => String.append prefix (fst e)) (firstn k (selected vec p)))
    by (unfold S0; now rewrite map_map).
  rewrite NS in X1, X2. split; [exact X1|split; [exact X2|]].
  intros m j Hj. apply X3. unfold S0. apply in_map_iff. exists (m, j). split; auto.
Qed.

Lemma missing_column : forall vec open labels df n, In n [high; low; close; volume] ->
  column n df = None ->
  add_all_ta_features log labels open high low close volume fl prefix vec df = (df, Raise KeyError).
Proof.
  intros vec open labels df n Hn Hc. rewrite column_getcol in Hc.
  assert (K : forall m (df0 : frame F), match getcol m df0 with Ok _ => True | Raise e => e = KeyError end).
  { clear. induction df0 as [|[k x] r IH]; cbn [getcol]; auto. destruct (String.eqb k m); auto. }
  assert (G : getcol n df = Raise KeyError).
  { pose proof (K n df). destruct (getcol n df); congruence. }
  pose proof (K high df) as K1. pose proof (K low df) as K2. pose proof (K close df) as K3.
  pose proof (K volume df) as K4.
  unfold add_all_ta_features, add_volume_ta, seqa, read.
  destruct (getcol high df) eqn:E1; [|subst; reflexivity].
  destruct (getcol low df) eqn:E2; [|subst; reflexivity].
  destruct (getcol close df) eqn:E3; [|subst; reflexivity].
  destruct (getcol volume df) eqn:E4; [|subst; reflexivity].
  exfalso. destruct Hn as [<-|[<-|[<-|[<-|[]]]]]; congruence.
Qed.

(** *** add_all_ta_features *)
Notation ALL vec open := (add_all_ta_features log (labels_of ii rows) open high low close volume fl prefix vec).
Notation PLAN := (all_columns log ii).

Lemma plan_distinct : forall vec, distinct (map fst (selected vec PLAN)) = true.
Proof. intros [|]; vm_compute; reflexivity. Qed.
Lemma plan_count : forall vec, length (selected vec PLAN) = if vec then 68%nat else 86%nat.
Proof. intros [|]; reflexivity. Qed.

Lemma all_extended : forall vec open df df', apart [high; low; close; volume] (added prefix vec PLAN) ->
  holds rows high low close volume df -> ALL vec open df = (df', Ok tt) ->
  extended prefix fl rows (selected vec PLAN) df df'.
Proof.
  intros vec open df df' Ap Hd E. eapply runs_extended; eauto using all_runs, plan_distinct, holds_reads.
Qed.
Lemma all_again : forall vec open df df', apart [high; low; close; volume] (added prefix vec PLAN) ->
  holds rows high low close volume df -> ALL vec open df = (df', Ok tt) ->
  ALL vec open df' = (df', Ok tt).
Proof.
  intros vec open df df' Ap Hd E. eapply runs_again; eauto using all_runs, plan_distinct, holds_reads.
Qed.

Ltac checks :=
  unfold slow, fast; cbn [snd]; unfold failing_check; cbn [first_failure app];
  unfold roll_bad, roll1_bad, span_bad, empty_bad; cbn [first_failure app];
  repeat match goal with
  | |- context [Z.ltb (Z.of_nat ?a) ?b] => destruct (Z.ltb_spec (Z.of_nat a) b); try lia
  | |- context [Z.eqb (Z.of_nat ?a) ?b] => destruct (Z.eqb_spec (Z.of_nat a) b); try lia
  | |- context [Nat.eqb (length ?a) ?b] => destruct (Nat.eqb_spec (length a) b); try lia
  end;
  first [reflexivity | destruct fl; reflexivity | cbn; reflexivity].
Ltac all_checks :=
  repeat apply Forall_cons; try apply Forall_nil; cbn [snd]; checks.

Lemma all_long : forall open df, apart [high; low; close; volume] (added prefix false PLAN) ->
  holds rows high low close volume df -> fisnan (fnan : F) = true -> 28 <= length rows ->
  exists df', ALL false open df = (df', Ok tt).
Proof.
  intros open df Ap Hd Hn Hl. eapply runs_all_ok; eauto using all_runs, holds_reads.
  cbv [selected all_columns volume_columns volatility_columns trend_columns momentum_columns
    others_columns app filter map andb negb fast slow fst snd]. all_checks.
Qed.
Lemma all_vectorized : forall open df, apart [high; low; close; volume] (added prefix true PLAN) ->
  holds rows high low close volume df -> fisnan (fnan : F) = true -> 1 <= length rows ->
  exists df', ALL true open df = (df', Ok tt).
Proof.
  intros open df Ap Hd Hn Hl. eapply runs_all_ok; eauto using all_runs, holds_reads.
  cbv [selected all_columns volume_columns volatility_columns trend_columns momentum_columns
    others_columns app filter map andb negb fast slow fst snd]. all_checks.
Qed.

Lemma pre_empty : length rows = 0 ->
  Forall (fun e => failing_check (snd e) fl rows = None)
         (firstn 9 (selected false PLAN)).
Proof.
  intros.
  cbv [selected all_columns volume_columns volatility_columns trend_columns momentum_columns
    others_columns app filter map andb negb fast slow fst snd firstn]. all_checks.
Qed.
Lemma pre_atr : 1 <= length rows < 10 ->
  Forall (fun e => failing_check (snd e) fl rows = None)
         (firstn 29 (selected false PLAN)).
Proof.
  intros.
  cbv [selected all_columns volume_columns volatility_columns trend_columns momentum_columns
    others_columns app filter map andb negb fast slow fst snd firstn]. all_checks.
Qed.
Lemma pre_adx : 10 <= length rows ->
  Forall (fun e => failing_check (snd e) fl rows = None)
         (firstn 52 (selected false PLAN)).
Proof.
  intros.
  cbv [selected all_columns volume_columns volatility_columns trend_columns momentum_columns
    others_columns app filter map andb negb fast slow fst snd firstn]. all_checks.
Qed.
Lemma pre_cr : length rows = 0 ->
  Forall (fun e => failing_check (snd e) fl rows = None)
         (firstn 67 (selected true PLAN)).
Proof.
  intros.
  cbv [selected all_columns volume_columns volatility_columns trend_columns momentum_columns
    others_columns app filter map andb negb fast slow fst snd firstn]. all_checks.
Qed.

Lemma all_short : forall open df, apart [high; low; close; volume] (added prefix false PLAN) ->
  holds rows high low close volume df -> fisnan (fnan : F) = true -> length rows < 28 ->
  exists df', ALL false open df = (df', Raise (stop_exn (length rows))) /\
    extended prefix fl rows (firstn (stop_at (length rows)) (selected false PLAN)) df df'.
Proof.
  intros open df Ap Hd Hn Hl. unfold stop_at, stop_exn.
  pose proof (fun k n i e => runs_stop _ false PLAN df k n i e
    (all_runs log high low close volume prefix fl ii rows false open)
    (plan_distinct false) Ap (holds_reads _ Hd) Hn) as X.
  destruct (Nat.eqb_spec (length rows) 0) as [E0|E0].
  { rewrite E0. apply (X 9 "volume_nvi"%string Nvi); [now apply pre_empty|reflexivity|checks]. }
  destruct (Nat.ltb_spec (length rows) 10) as [E1|E1].
  { destruct (Nat.leb_spec 10 (length rows)); [lia|]. cbn [andb].
    apply (X 29 "volatility_atr"%string (Atr 10)); [apply pre_atr; lia|reflexivity|checks]. }
  destruct (Nat.leb_spec 10 (length rows)); [|lia]. cbn [andb].
  destruct (Nat.leb_spec (length rows) 12);
  (apply (X 52 "trend_adx"%string (Adx 14)); [now apply pre_adx|reflexivity|checks]).
Qed.

Lemma all_vectorized_empty : forall open df, apart [high; low; close; volume] (added prefix true PLAN) ->
  holds rows high low close volume df -> fisnan (fnan : F) = true -> rows = [] ->
  exists df', ALL true open df = (df', Raise IndexError) /\
    extended prefix fl rows (firstn 67 (selected true PLAN)) df df'.
Proof.
  intros open df Ap Hd Hn Hl. assert (E0 : length rows = 0) by now rewrite Hl.
  eapply (runs_stop _ true PLAN df 67 "others_cr"%string CumReturn IndexError
    (all_runs log high low close volume prefix fl ii rows true open)
    (plan_distinct true) Ap (holds_reads _ Hd) Hn); [now apply pre_cr|reflexivity|checks].
Qed.

(** vectorized=True computes the same values *)
Lemma all_subset : forall open open' df dfv dff,
  apart [high; low; close; volume] (added prefix false PLAN) ->
  holds rows high low close volume df ->
  ALL true open df = (dfv, Ok tt) -> ALL false open' df = (dff, Ok tt) ->
  forall n, In n (added prefix true PLAN) -> column n dfv <> None /\ column n dfv = column n dff.
Proof.
  intros open open' df dfv dff Ap Hd E1 E2 n Hn.
  assert (Sub : forall e, In e (selected true PLAN) -> In e (selected false PLAN)).
  { intros e He. unfold selected in *. apply in_map_iff in He as (x & <- & Hx).
    apply filter_In in Hx as [Hx _].
    apply in_map_iff. exists x. split; [reflexivity|]. apply filter_In. split; [exact Hx|reflexivity]. }
  assert (Ap' : apart [high; low; close; volume] (added prefix true PLAN)).
  { intros m Hm Hi. apply (Ap m Hm). unfold added in *. apply in_map_iff in Hi as (e & <- & He).
    apply in_map_iff. exists e. split; [reflexivity|apply Sub; exact He]. }
  destruct (all_extended _ _ _ _ Ap' Hd E1) as (_ & _ & X1).
  destruct (all_extended _ _ _ _ Ap Hd E2) as (_ & _ & X2).
  unfold added in Hn. apply in_map_iff in Hn as ([m i] & <- & Hi). cbn [fst].
  destruct (X1 m i Hi) as (c1 & C1 & D1). destruct (X2 m i (Sub _ Hi)) as (c2 & C2 & D2).
  rewrite D1, D2. split; congruence.
Qed.
End Wrapped.

Section GroupTheorems.
Context {F : Type} {A : Arith F}.
Variables (log : F -> F) (prefix : string) (fl ii : bool) (rows : list (bar F)).
Variables (high low close volume : string).

Lemma prices_reads : forall df, holds_prices rows high low close df ->
  reads high low close close (map b_high rows) (map b_low rows) (map b_close rows) (map b_close rows) df.
Proof. intros df (a & b & c). repeat split; now apply column_some. Qed.
Lemma prices_apart : forall out, apart [high; low; close] out -> apart [high; low; close; close] out.
Proof. intros out H n Hn. apply H. cbn in *. tauto. Qed.

Lemma volume_extended : forall vec df df',
  apart [high; low; close; volume] (added prefix vec (@volume_columns F)) ->
  holds rows high low close volume df ->
  add_volume_ta high low close volume fl prefix vec df = (df', Ok tt) ->
  extended prefix fl rows (selected vec volume_columns) df df'.
Proof.
  intros vec df df' Ap Hd E.
  eapply runs_extended; [apply volume_runs| |exact Ap|apply holds_reads; exact Hd|exact E].
  destruct vec; vm_compute; reflexivity.
Qed.
Lemma momentum_extended : forall vec df df',
  apart [high; low; close; volume] (added prefix vec momentum_columns) ->
  holds rows high low close volume df ->
  add_momentum_ta high low close volume fl prefix vec df = (df', Ok tt) ->
  extended prefix fl rows (selected vec momentum_columns) df df'.
Proof.
  intros vec df df' Ap Hd E.
  eapply runs_extended; [apply momentum_runs| |exact Ap|apply holds_reads; exact Hd|exact E].
  destruct vec; vm_compute; reflexivity.
Qed.
Lemma volatility_extended : forall vec df df',
  apart [high; low; close] (added prefix vec volatility_columns) ->
  holds_prices rows high low close df ->
  add_volatility_ta high low close fl prefix vec df = (df', Ok tt) ->
  extended prefix fl rows (selected vec volatility_columns) df df'.
Proof.
  intros vec df df' Ap Hd E.
  eapply runs_extended; [apply volatility_runs| |apply prices_apart; exact Ap
    |apply prices_reads; exact Hd|exact E].
  destruct vec; vm_compute; reflexivity.
Qed.
Lemma trend_extended : forall vec df df',
  apart [high; low; close] (added prefix vec (trend_columns ii)) ->
  holds_prices rows high low close df ->
  add_trend_ta (labels_of ii rows) high low close fl prefix vec df = (df', Ok tt) ->
  extended prefix fl rows (selected vec (trend_columns ii)) df df'.
Proof.
  intros vec df df' Ap Hd E.
  eapply runs_extended; [apply trend_runs| |apply prices_apart; exact Ap
    |apply prices_reads; exact Hd|exact E].
  destruct vec; vm_compute; reflexivity.
Qed.
Lemma others_extended : forall df df',
  ~ In close (added prefix false (others_columns log)) ->
  column close df = Some (map b_close rows) ->
  add_others_ta log close fl prefix df = (df', Ok tt) ->
  extended prefix fl rows (selected false (others_columns log)) df df'.
Proof.
  intros df df' Ap Hd E.
  eapply (runs_extended prefix fl rows close close close close);
    [apply (others_runs log close prefix fl rows false)| | | |exact E].
  - vm_compute; reflexivity.
  - intros n Hn. cbn [In] in Hn. intuition (subst; auto).
  - apply column_some in Hd. repeat split; exact Hd.
Qed.
End GroupTheorems.

(** ** dropna *)
Section Dropna.
Context {F : Type} {A : Arith F} {AL : ArithLaws F}.
Variable big : F.

Lemma mask_kept : forall x, if cell_kept big x then mask_cell big x = x /\ fisnan x = false
                            else fisnan (mask_cell big x) = true.
Proof.
  intros x. unfold cell_kept, mask_cell. destruct (fltb x big) eqn:E; cbn [andb].
  - destruct (feqb x (fofZ 0)); cbn [negb]; [apply isnan_nan|]. split; auto.
    destruct (fisnan x) eqn:En; auto. rewrite ltb_nan_l in E by assumption. discriminate.
  - destruct (negb (feqb fnan _)); apply isnan_nan.
Qed.
Lemma cells_kept : forall l,
  forallb (fun x => negb (fisnan x)) (map (mask_cell big) l) = forallb (cell_kept big) l /\
  (forallb (cell_kept big) l = true -> map (mask_cell big) l = l).
Proof.
  induction l as [|x l [IH1 IH2]]; [split; reflexivity|]. cbn [map forallb].
  pose proof (mask_kept x) as M. destruct (cell_kept big x).
  - destruct M as [M1 M2]. rewrite M1, M2, IH1. split; [reflexivity|].
    cbn [andb]. intros E. f_equal. now apply IH2.
  - rewrite M. split; [reflexivity|discriminate].
Qed.
Lemma dropna_filter : forall df, dropna big df = filter (row_kept big) df.
Proof.
  unfold dropna. induction df as [|r df IH]; [reflexivity|]. cbn [map filter].
  destruct r as [lb cs om]. unfold row_complete at 1, row_kept at 1, mask_row at 1 2 3.
  cbn [flabel fcells fother_missing]. destruct (cells_kept cs) as [-> K].
  destruct (forallb (cell_kept big) cs); cbn [andb]; [|exact IH].
  rewrite K by reflexivity. rewrite IH. reflexivity.
Qed.
Lemma dropna_idem : forall df, dropna big (dropna big df) = dropna big df.
Proof.
  intros. rewrite !dropna_filter. induction df as [|r df IH]; [reflexivity|].
  cbn [filter]. destruct (row_kept big r) eqn:E; [|exact IH]. cbn [filter]. now rewrite E, IH.
Qed.
End Dropna.

Lemma plan_size : forall {F} {A : Arith F} (log : F -> F) prefix ii vec,
  List.length (added prefix vec (all_columns log ii)) = (if vec then 68 else 86) /\
  NoDup (added prefix vec (all_columns log ii)).
Proof.
  intros. split; [unfold added; rewrite map_length; apply plan_count|].
  apply added_nodup, plan_distinct.
Qed.

Lemma dropna_infinities : forall lb om, forallb negb om = true ->
  let row x := {| flabel := lb; fcells := [x]; fother_missing := om |} in
  let big := Fin (exp 709) in
  dropna big [row NInf] = [row NInf] /\ dropna big [row PInf] = [] /\
  dropna big [row NaN] = [] /\ dropna big [row (Fin 0)] = [].
Proof.
  intros lb om H row big. rewrite !dropna_filter. unfold row, big. cbn [filter].
  unfold row_kept. cbn [fcells fother_missing forallb cell_kept]. rewrite H.
  unfold cell_kept. cbn. repeat split.
  destruct (Req_EM_T 0 0) as [|C]; [|now contradiction C]. cbn [negb]. now rewrite andb_false_r.
Qed.

Lemma apart_by : forall i o, forallb (fun n => negb (member n o)) i = true -> apart i o.
Proof.
  intros i o H n Hn Hi. rewrite forallb_forall in H. specialize (H n Hn).
  apply member_in in Hi. rewrite Hi in H. discriminate.
Qed.
