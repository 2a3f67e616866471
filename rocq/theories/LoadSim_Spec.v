(** * Specification of the load simulator: what each of its simulators receives. *)

From Coq Require Import String List ZArith QArith Bool Arith.
From Verif Require Import Prelude SpecBase Base_Model LoadSim_Model.
Import ListNotations.
Local Open Scope nat_scope.

(** [driven step ins x y]: stepping [x] with the inputs [ins], one after the
    other, succeeds and ends in [y]. *)
Inductive driven {I T : Type} (step : I -> T -> result T) : list I -> T -> T -> Prop :=
| driven_nil : forall x, driven step [] x x
| driven_snoc : forall ins i x y z, driven step ins x y -> step i y = Ok z -> driven step (ins ++ [i]) x z.

(** [after step k x y]: [k] steps without input lead from [x] to [y]. *)
Inductive after {T : Type} (step : T -> result T) : nat -> T -> T -> Prop :=
| after_0 : forall x, after step 0 x x
| after_S : forall k x y z, after step k x y -> step y = Ok z -> after step (S k) x z.

(** [is_sum a b s]: entry by entry, [s] is the sum of [a] and [b]. *)
Definition is_sum3 (a b c s : list Q) : Prop :=
  length a = length s /\ length b = length s /\ length c = length s /\
  forall h x y z, at_ a h x -> at_ b h y -> at_ c h z -> exists v, at_ s h v /\ v == x + y + z.

(** The value used: the external one when given. *)
Definition chosen (ext : option Q) (own : Q -> Prop) (v : Q) : Prop :=
  match ext with Some e => v = e | None => own v end.

Section Load.
  Variables (Cl Ac Ap Li He X : Type) (P : parts Cl Ac Ap Li He X).

  (** Value shown by the climate simulator after [k] steps; there is none without
      climate simulator. *)
  Definition shown_by (get : Cl -> Q) (s0 : load Cl Ac Ap Li He) (k : nat) (v : Q) : Prop :=
    exists c0 ck, climate s0 = Some c0 /\ after (cl_step P) k c0 ck /\ v = get ck.

  (** What the simulators receive in step number [k], called with [a]: appliances
      and lights get the occupancy shown by the activities after [k / 10 + 1]
      activity steps; lights the irradiance; the heating the weather, and the gains
      and hot water of that very step.  [aps], [lis], [hes] list the inputs given so
      far. *)
  Definition received (s0 : load Cl Ac Ap Li He) (aps : list (list Q)) (lis : list (list Q * Q))
      (hes : list (heat_in X)) (k : nat) (a : load_args X) : Prop :=
    exists irr t ac ap li,
      after (ac_step P) (k / 10 + 1) (activity s0) ac /\
      chosen (external_irradiance a) (shown_by (cl_irradiance P) s0 (S k)) irr /\
      chosen (external_temperature a) (shown_by (cl_temperature P) s0 (S k)) t /\
      at_ aps k (ac_occupancy P ac) /\
      at_ lis k (ac_occupancy P ac, irr) /\
      driven (ap_step P) (firstn (S k) aps) (appliances s0) ap /\
      driven (li_step P) (firstn (S k) lis) (light s0) li /\
      at_ hes k (mkHeatIn t irr (ap_dhw P ap) (ac_gains P ac) (li_gains P li) (ap_gains P ap) (external_heat a)).

  Definition both {T} (R : T -> T -> Prop) (x y : option T) : Prop :=
    match x, y with Some a, Some b => R a b | None, None => True | _, _ => False end.

  (** The whole run, from step number zero: the climate advances every step, the
      activities in the first of every ten steps, the others every step with what
      they received. *)
  Definition trajectory (args : list (load_args X)) (s0 s : load Cl Ac Ap Li He) : Prop :=
    exists aps lis hes,
      length aps = length args /\ length lis = length args /\ length hes = length args /\
      n_hh s = n_hh s0 /\
      both (after (cl_step P) (length args)) (climate s0) (climate s) /\
      after (ac_step P) ((length args + 9) / 10) (activity s0) (activity s) /\
      driven (ap_step P) aps (appliances s0) (appliances s) /\
      driven (li_step P) lis (light s0) (light s) /\
      both (driven (he_step P) hes) (heating s0) (heating s) /\
      forall k a, at_ args k a -> received s0 aps lis hes k a.
End Load.

(** The arguments of the steps of a client. *)
Fixpoint step_args {A : Type} (ops : list (op A)) : list A :=
  match ops with
  | [] => []
  | OGet _ _ _ :: t => step_args t
  | OStep a :: t => a :: step_args t
  end.

(** Simulators keep the number of households they are built for: [ap n s] says
    that [s] simulates the appliances of [n] households, and so on. *)
Record sized {Cl Ac Ap Li He X : Type} (P : parts Cl Ac Ap Li He X) (M : makers Cl Ac Ap Li He)
    (ap : nat -> Ap -> Prop) (li : nat -> Li -> Prop) (he : nat -> He -> Prop) : Prop := mkSized {
  sized_ap_make : forall counts occ s, mk_appliances M counts occ = Ok s -> ap (total_nat counts) s;
  sized_ap_step : forall n i s s', ap n s -> ap_step P i s = Ok s' -> ap n s';
  sized_ap_power : forall n s, ap n s -> length (ap_power P s) = n;
  sized_li_make : forall n s, mk_light M n = Ok s -> li n s;
  sized_li_step : forall n i s s', li n s -> li_step P i s = Ok s' -> li n s';
  sized_li_power : forall n s, li n s -> length (li_power P s) = n;
  sized_he_make : forall n t s, mk_heating M n t = Ok s -> he n s;
  sized_he_step : forall n i s s', he n s -> he_step P i s = Ok s' -> he n s';
  sized_he_power : forall n s, he n s -> length (he_power P s) = n
}.
