(** * SpecObjects: what a caller may expect of one indicator object (C101). *)
From Verif Require Import Objects.

Section Spec.
Context {F : Type} {A : Arith F}.
Implicit Types (a b : indicator F).

(** Outputs that are a new series at every call, even with fillna=False.  Every
    other output is a series the object keeps. *)
Definition fresh b : bool :=
  match b with
  | Ema _ | Sma _ | StochSignal _ _ | StochRsiD _ _ _ | AroonInd _
  | IchiA _ _ _ _ | IchiB _ _ _ _ | KstDiff _ _ _ _ _ _ _ _ _
  | Adx _ | AdxPos _ | AdxNeg _ | VortexDiff _ | PsarUpInd _ _ _ | PsarDownInd _ _ _
  | BbW _ _ | BbP _ _ | BbHI _ _ | BbLI _ _
  | KcW _ _ _ _ | KcP _ _ _ _ | KcHI _ _ _ _ | KcLI _ _ _ _
  | DcM _ _ | DcW _ _ | DcP _ _ | SmaEom _ => true
  | DcH _ offset | DcL _ offset => negb (offset =? 0)%Z
  | _ => false
  end.

(** Output [a] is worked out, when it is asked for, from the series that output
    [b] of the same object returns. *)
Definition feeds b a : bool :=
  match b, a with
  | Stoch _ _, StochSignal _ _ => true
  | StochRsiK _ _ _, StochRsiD _ _ _ => true
  | AroonUp _, AroonInd _ | AroonDown _, AroonInd _ => true
  | IchiConv _ _ _ _, IchiA _ _ _ _ | IchiBase _ _ _ _, IchiA _ _ _ _ => true
  | Kst _ _ _ _ _ _ _ _ _, KstDiff _ _ _ _ _ _ _ _ _
  | KstSig _ _ _ _ _ _ _ _ _, KstDiff _ _ _ _ _ _ _ _ _ => true
  | VortexPos _, VortexDiff _ | VortexNeg _, VortexDiff _ => true
  | PsarUp _ _ _, (PsarUpInd _ _ _ | PsarDownInd _ _ _) => true
  | PsarDown _ _ _, PsarDownInd _ _ _ => true
  | BbM _ _, BbW _ _ | KcM _ _ _ _, KcW _ _ _ _ => true
  | BbH _ _, (BbW _ _ | BbP _ _ | BbHI _ _) => true
  | BbL _ _, (BbW _ _ | BbP _ _ | BbLI _ _) => true
  | KcH _ _ _ _, (KcW _ _ _ _ | KcP _ _ _ _ | KcHI _ _ _ _) => true
  | KcL _ _ _ _, (KcW _ _ _ _ | KcP _ _ _ _ | KcLI _ _ _ _) => true
  | (DcH _ _ | DcL _ _), (DcM _ _ | DcW _ _ | DcP _ _) => true
  | Eom _, SmaEom _ => true
  | _, _ => false
  end.

(** Writing into the series [b] returned can show up in output [a]. *)
Definition disturbs (fillna : bool) b a : Prop :=
  fillna = false /\ fresh b = false /\ (b = a \/ feeds b a = true).

(** Outputs that look at the caller's columns again when they are asked for. *)
Definition late (fillna : bool) a : bool :=
  match a with
  | Ema _ | Sma _ | IchiB _ _ _ _ | BbP _ _ | BbHI _ _ | BbLI _ _
  | KcP _ _ _ _ | KcHI _ _ _ _ | KcLI _ _ _ _ | DcW _ _ | DcP _ _ => true
  | Kama _ _ _ => fillna
  | _ => false
  end.
(** ... and at nothing else. *)
Definition only_columns a : bool :=
  match a with Ema _ | Sma _ | IchiB _ _ _ _ => true | _ => false end.

(** The outputs asked for in a history, in order. *)
Fixpoint asks (ops : list (op F)) : list (indicator F) :=
  match ops with
  | [] => []
  | Ask b :: r => b :: asks r
  | _ :: r => asks r
  end.
(** Every call is on the object [obj]. *)
Definition on_object (obj : indicator F) (ops : list (op F)) : Prop :=
  Forall (fun b => object_of b = object_of obj) (asks ops).
(** No write into a returned series can show up in [a]. *)
Definition undisturbed (fillna : bool) (ops : list (op F)) a : Prop :=
  forall k i x b, In (Write k i x) ops -> nth_error (asks ops) k = Some b -> ~ disturbs fillna b a.
(** The caller's columns are left alone. *)
Definition columns_kept (ops : list (op F)) : Prop := forall i r, ~ In (Change i r) ops.
(** The k-th returned series is not written to. *)
Definition not_written (k : nat) (ops : list (op F)) : Prop := forall i x, ~ In (Write k i x) ops.
Definition no_writes (ops : list (op F)) : Prop := forall k, not_written k ops.
End Spec.
