(** * NamesFacts: lemmas for C72 *)
From Coq Require Import Ascii String DecimalString DecimalZ Lia.
From Verif Require Import Api Names SpecNames.
Local Open Scope string_scope.

(** dropping the characters of a number *)
Definition numeral (a : ascii) : bool := (nat_of_ascii a =? 45)%nat || ((48 <=? nat_of_ascii a)%nat && (nat_of_ascii a <=? 57)%nat).
Fixpoint words (s : string) : string :=
  match s with EmptyString => "" | String a r => if numeral a then words r else String a (words r) end.
Fixpoint all_numeral (s : string) : bool :=
  match s with EmptyString => true | String a r => numeral a && all_numeral r end.

Lemma words_app : forall a b, words (a ++ b) = words a ++ words b.
Proof. induction a as [|x a IH]; intros; cbn; auto. destruct (numeral x); cbn; now rewrite IH. Qed.
Lemma words_numeral : forall a, all_numeral a = true -> words a = "".
Proof. induction a; cbn; auto. destruct (numeral a); [auto|discriminate]. Qed.
Lemma uint_numeral : forall d, all_numeral (NilEmpty.string_of_uint d) = true.
Proof. induction d; cbn; auto. Qed.
Lemma str_numeral : forall z, all_numeral (str_int z) = true.
Proof.
  intros. unfold str_int, NilZero.string_of_int, NilZero.string_of_uint.
  destruct (Z.to_int z) as [d|d]; destruct d; cbn; auto; apply uint_numeral.
Qed.
Lemma words_str : forall z, words (str_int z) = "".
Proof. intros. apply words_numeral, str_numeral. Qed.

Lemma to_int_pos_nil : forall z, Z.to_int z <> Decimal.Pos Decimal.Nil.
Proof.
  destruct z; cbn; try discriminate. intros E. injection E as E.
  apply (f_equal Pos.of_uint) in E. pose proof (DecimalPos.Unsigned.of_to p) as X. rewrite E in X. discriminate.
Qed.
Lemma to_int_neg_nil : forall z, Z.to_int z <> Decimal.Neg Decimal.Nil.
Proof.
  destruct z; cbn; try discriminate. intros E. injection E as E.
  apply (f_equal Pos.of_uint) in E. pose proof (DecimalPos.Unsigned.of_to p) as X. rewrite E in X. discriminate.
Qed.
Lemma str_int_inj : forall a b, str_int a = str_int b -> a = b.
Proof.
  intros a b E. unfold str_int in E. apply (f_equal NilZero.int_of_string) in E.
  rewrite !NilZero.isi in E by (apply to_int_pos_nil || apply to_int_neg_nil).
  injection E as E. now apply DecimalZ.to_int_inj.
Qed.

Lemma split_at : forall a a' b b', all_numeral a = true -> all_numeral a' = true ->
  a ++ "_" ++ b = a' ++ "_" ++ b' -> a = a' /\ b = b'.
Proof.
  induction a as [|x a IH]; intros [|y a'] b b' N N' E; cbn in *.
  - split; auto. congruence.
  - injection E as E1 E2. subst y. cbn in N'. discriminate.
  - injection E as E1 E2. subst x. cbn in N. discriminate.
  - apply andb_prop in N as [_ N], N' as [_ N']. injection E as -> E. destruct (IH a' b b' N N' E). now subst.
Qed.
Lemma split_pair : forall a a' b b', str_int a ++ "_" ++ str_int b = str_int a' ++ "_" ++ str_int b' -> a = a' /\ b = b'.
Proof.
  intros a a' b b' E. apply split_at in E; auto using str_numeral. destruct E. split; now apply str_int_inj.
Qed.
Lemma app_inj : forall p a b, (p ++ a)%string = p ++ b -> a = b.
Proof. induction p; cbn; intros; auto. injection H. auto. Qed.

(** one of each method, without the borrowed names *)
Definition kinds : list (indicator unit) := (
  [Rsi 0; Tsi 0 0; UltOsc 0 0 0 tt tt tt; Stoch 0 0; StochSignal 0 0; Kama 0 0 0;
   Roc 0; AwesomeOsc 0 0; WilliamsR 0; StochRsi 0 0 0; StochRsiK 0 0 0; StochRsiD 0 0 0;
   Ppo 0 0 0; PpoSignal 0 0 0; PpoHist 0 0 0; Pvo 0 0 0; PvoSignal 0 0 0; PvoHist 0 0 0;
   AroonUp 0; AroonDown 0; AroonInd 0; Macd 0 0 0; MacdSignal 0 0 0; MacdDiff 0 0 0;
   Ema 0; Sma 0; Wma 0; Trix 0; Mass 0 0; IchiConv 0 0 0 true;
   IchiBase 0 0 0 true; IchiA 0 0 0 true; IchiB 0 0 0 true; Kst 0 0 0 0 0 0 0 0 0; KstSig 0 0 0 0 0 0 0 0 0; KstDiff 0 0 0 0 0 0 0 0 0;
   Dpo 0; Cci 0 tt; Adx 0; AdxPos 0; AdxNeg 0; VortexPos 0;
   VortexNeg 0; VortexDiff 0; Psar true tt tt; PsarUp true tt tt; PsarDown true tt tt; PsarUpInd true tt tt;
   PsarDownInd true tt tt; Stc 0 0 0 0 0; Atr 0; BbM 0 tt; BbH 0 tt; BbL 0 tt;
   BbW 0 tt; BbP 0 tt; BbHI 0 tt; BbLI 0 tt; KcH 0 0 true tt; KcL 0 0 true tt;
   KcHI 0 0 true tt; KcLI 0 0 true tt; DcH 0 0; DcL 0 0; DcM 0 0; DcW 0 0;
   DcP 0 0; Ulcer 0; Adi; Obv; Cmf 0; Fi 0;
   Eom 0; SmaEom 0; Vpt None true; Nvi; Mfi 0; Vwap 0;
   DailyReturn; DailyLogReturn (fun x => x); CumReturn])%Z%list.
Definition table : list (string * (string * string)) :=
  map (fun i => (words (series_name i), method i)) kinds.

Lemma table_keys : NoDup (map fst table).
Proof.
  assert (D : forall l : list string, (fix nd l := match l with [] => true | x :: r => negb (existsb (String.eqb x) r) && nd r end)%list l = true -> NoDup l).
  { induction l as [|x l IH]; intros H; constructor; apply andb_prop in H as [H1 H2]; auto.
    intros I. apply negb_true_iff in H1. assert (existsb (String.eqb x) l = true); [|congruence].
    apply existsb_exists. exists x. split; auto. apply String.eqb_refl. }
  apply D. vm_compute. reflexivity.
Qed.
Section Facts.
Context {F : Type}.
Lemma in_table : forall i : indicator F, borrows_name i = false -> In (words (series_name i), method i) table.
Proof.
  intros i B. destruct i; try discriminate B; cbn [series_name method]; rewrite ?words_app, ?words_str;
  unfold table; cbn [map kinds]; repeat first [left; reflexivity | right].
Qed.
Lemma nodup_key : forall {K V} (l : list (K * V)) k v v', NoDup (map fst l) -> In (k, v) l -> In (k, v') l -> v = v'.
Proof.
  induction l as [|[k0 v0] l IH]; cbn; intros k v v' N H H'; [contradiction|]. inversion N; subst.
  destruct H as [E|H], H' as [E'|H'].
  - congruence.
  - injection E as -> ->. destruct H2. now apply (in_map fst) in H'.
  - injection E' as -> ->. destruct H2. now apply (in_map fst) in H.
  - eauto.
Qed.
Lemma name_method : forall i j : indicator F, borrows_name i = false -> borrows_name j = false ->
  series_name i = series_name j -> method i = method j.
Proof.
  intros i j Bi Bj E. apply (nodup_key table (words (series_name i))); [exact table_keys|now apply in_table|].
  rewrite E. now apply in_table.
Qed.
Lemma name_windows : forall i j : indicator F, series_name i = series_name j -> method i = method j ->
  named_windows i = named_windows j.
Proof.
  intros i j E M. destruct i, j; try discriminate M; try reflexivity; cbn [series_name named_windows] in *;
  apply app_inj in E;
  first [apply split_pair in E as [? ?]; subst; reflexivity | apply str_int_inj in E; subst; reflexivity].
Qed.
Lemma name_identifies : forall i j : indicator F, borrows_name i = false -> borrows_name j = false ->
  series_name i = series_name j -> method i = method j /\ named_windows i = named_windows j.
Proof. intros. assert (method i = method j) by now apply name_method. split; auto. now apply name_windows. Qed.
End Facts.
