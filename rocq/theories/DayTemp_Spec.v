(** * Specification of the temperatures of a day. *)

From Coq Require Import List ZArith QArith Bool Arith.
From Verif Require Import SpecBase.
Import ListNotations.
Local Open Scope Q_scope.

Definition lit (irr : list Q) (i : nat) : Prop := exists x, at_ irr i x /\ 0 < x.
Definition dark (irr : list Q) (i : nat) : Prop := exists x, at_ irr i x /\ x == 0.

Definition first_light (irr : list Q) (i : nat) : Prop := lit irr i /\ forall j, lit irr j -> (i <= j)%nat.
Definition last_light (irr : list Q) (i : nat) : Prop := lit irr i /\ forall j, lit irr j -> (j <= i)%nat.

(** One for every minute with light. *)
Definition light (x : Q) : Q := if Qlt_le_dec 0 x then 1 else 0.
Definition unlit (x : Q) : Q := if Qlt_le_dec 0 x then 0 else 1.

(** The part of the radiation outside of the atmosphere that was received up to
    minute [i], over the minutes with light. *)
Definition received (solar : Q) (irr : list Q) (i : nat) : Q :=
  total (firstn (S i) irr) / (solar * total (map light (firstn (S i) irr))).

(** The first minute with light when the most was received. *)
Definition peak (solar : Q) (irr : list Q) (p : nat) : Prop :=
  lit irr p /\ (forall i, lit irr i -> received solar irr i <= received solar irr p) /\
  (forall i, lit irr i -> (i < p)%nat -> received solar irr i < received solar irr p).

(** The temperature of minute [i] under the sun, between [low] and [high]. *)
Definition sunny (low high solar : Q) (irr : list Q) (p i : nat) : Q :=
  let part := received solar irr i / received solar irr p in
  if (i <=? p)%nat then low + (high - low) * part else high - (17 # 10) * (high - low) * (1 - part).

(** Number of minutes without light, and the mean clearness over them. *)
Definition dark_minutes (irr : list Q) : Q := total (map unlit irr).
Definition dark_clearness (irr clear : list Q) : Q :=
  total (map (fun xc => unlit (fst xc) * snd xc) (combine irr clear)) / dark_minutes irr.

(** The cooling of a minute of clearness [c]: the evening's excess over the morning,
    shared among the minutes without light, less where the sky is cloudier than on
    average over the night. *)
Definition cooling (low high solar : Q) (irr clear : list Q) (p rise set : nat) (c : Q) : Q :=
  (sunny low high solar irr p set - sunny low high solar irr p rise) / dark_minutes irr - (1 # 40) * (dark_clearness irr clear - c).

(** The minute before, in a day of [n] minutes that repeats. *)
Definition minute_before (n i : nat) : nat := if (i =? 0)%nat then (n - 1)%nat else (i - 1)%nat.
