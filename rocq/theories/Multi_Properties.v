(** * C12-C13: multi-simulators. *)

From Coq Require Import String List ZArith QArith Bool Lia Arith.
From Verif Require Import Prelude SpecBase Multi_Model Multi_Spec Multi_Proofs.
Import ListNotations.

(** ** C12 *)

(** Each sub-simulator receives its own part of the arguments and nothing else. *)
Theorem C12_step_slices : forall S X Y (sub_step : list (list X) -> S -> result S) nhh
  (nhh_step : forall p s s', sub_step p s = Ok s' -> nhh s' = nhh s),
  forall (m m' : multi S Y) args parts, cuts S X nhh (subs m) args parts ->
  multi_step sub_step nhh args m = Ok m' ->
  mctr m' = Datatypes.S (mctr m) /\ length (subs m') = length (subs m) /\
  forall i s p, at_ (subs m) i s -> at_ parts i p -> exists s', at_ (subs m') i s' /\ sub_step p s = Ok s'.
Proof. exact multi_step_spec. Qed.
Print Assumptions C12_step_slices.

Theorem C12_step_succeeds : forall S X Y (sub_step : list (list X) -> S -> result S) nhh
  (nhh_step : forall p s s', sub_step p s = Ok s' -> nhh s' = nhh s),
  forall (m : multi S Y) args parts, cuts S X nhh (subs m) args parts ->
  (forall i s p, at_ (subs m) i s -> at_ parts i p -> exists s', sub_step p s = Ok s') ->
  exists m', multi_step sub_step nhh args m = Ok m'.
Proof. exact multi_step_succeeds. Qed.
Print Assumptions C12_step_succeeds.

(** Over any history, sub-simulator [i] ends where it would end when run alone on
    its own parts. *)
Theorem C12_history : forall S X Y (sub_step : list (list X) -> S -> result S) nhh
  (nhh_step : forall p s s', sub_step p s = Ok s' -> nhh s' = nhh s),
  forall hist parts_hist (m m' : multi S Y),
  Forall2 (fun args parts => cuts S X nhh (subs m) args parts) hist parts_hist ->
  multi_run sub_step nhh hist m = Ok m' ->
  mctr m' = (mctr m + length hist)%nat /\ length (subs m') = length (subs m) /\
  forall i s, at_ (subs m) i s -> exists s', at_ (subs m') i s' /\ nhh s' = nhh s /\
    runs_alone S X sub_step (map (fun parts => nth i parts []) parts_hist) s s'.
Proof. exact multi_run_spec. Qed.
Print Assumptions C12_history.

(** Getters, cached or not: the value for a household is the value its
    sub-simulator gives for it. *)
Theorem C12_household_value : forall S Y nhh (getter : string -> S -> result (list Y)),
  forall (m m' : multi S Y) name v, mcoherent S Y getter m ->
  (forall s x, getter name s = Ok x -> length x = nhh s) ->
  multi_get getter name m = Ok (v, m') ->
  length v = total_nat (map nhh (subs m)) /\
  forall i s k, at_ (subs m) i s -> (k < nhh s)%nat ->
    exists x y, getter name s = Ok x /\ at_ x k y /\ at_ v (first_household S nhh (subs m) i + k) y /\
      multi_get_i getter name (first_household S nhh (subs m) i + k) m = Ok (y, m').
Proof. exact multi_household_value. Qed.
Print Assumptions C12_household_value.

(** A household number outside of the group is refused. *)
Theorem C12_outside : forall S Y nhh (getter : string -> S -> result (list Y)) (m m' : multi S Y) name v i, mcoherent S Y getter m ->
  (forall s x, getter name s = Ok x -> length x = nhh s) -> multi_get getter name m = Ok (v, m') ->
  (total_nat (map nhh (subs m)) <= i)%nat -> multi_get_i getter name i m = Err IndexError.
Proof.
  intros S Y nhh getter m m' name v i C L E G. destruct (C12_household_value S Y nhh getter m m' name v C L E) as [Lv _].
  unfold multi_get_i. rewrite E. cbn [bind fst]. rewrite <- Lv in G. apply nth_error_None in G. rewrite G. reflexivity.
Qed.
Print Assumptions C12_outside.

(** The cache hypothesis holds after every step and is kept by getter calls. *)
Theorem C12_cache_coherent : forall S X Y (sub_step : list (list X) -> S -> result S) nhh getter,
  (forall (m m' : multi S Y) args, multi_step sub_step nhh args m = Ok m' -> mcoherent S Y getter m') /\
  (forall (m m' : multi S Y) name v, mcoherent S Y getter m -> multi_get getter name m = Ok (v, m') ->
     mcoherent S Y getter m' /\ subs m' = subs m).
Proof.
  intros. split.
  - intros m m' args. apply multi_step_coherent.
  - intros m m' name v Hc H. apply multi_get_spec in H; tauto.
Qed.
Print Assumptions C12_cache_coherent.

Theorem C12_number_of_households : forall S Y nhh (l : list S) (m : multi S Y),
  @multi_init S Y nhh l = Ok m -> subs m = l /\ multi_n nhh l = total_nat (map nhh l) /\ (0 < total_nat (map nhh l))%nat.
Proof.
  intros S Y nhh l m H. unfold multi_init in H. destruct (Nat.eqb_spec (multi_n nhh l) 0) as [E|E]; [discriminate|].
  injection H as <-. rewrite <- multi_n_total. repeat split; auto. lia.
Qed.
Print Assumptions C12_number_of_households.

(** Two sub-simulators with one and two households, stepping by adding. *)
Definition ex_step (p : list (list Z)) (s : list Z) : result (list Z) :=
  match p with
  | [x] => if Nat.eqb (length x) (length s) then Ok (map2 Z.add s x) else Err ValueError
  | _ => Err TypeError
  end.
Definition ex_get (_ : string) (s : list Z) : result (list Z) := Ok s.
Definition ex_multi : multi (list Z) Z := mkMulti [[1]; [2; 3]]%Z 0 [].

Example C12_example : exists m',
  cuts (list Z) Z (@length Z) (subs ex_multi) [[10; 20; 30]]%Z [[[10]]; [[20; 30]]]%Z /\
  multi_step ex_step (@length Z) [[10; 20; 30]]%Z ex_multi = Ok m' /\ subs m' = [[11]; [22; 33]]%Z /\
  (exists m'', multi_get ex_get "get_x" m' = Ok ([11; 22; 33]%Z, m'')).
Proof.
  eexists. split.
  - split; [reflexivity|]. split.
    + intros [|[|i]] s p Hs Hp; unfold at_ in *; simpl in *; try (destruct i; discriminate);
      injection Hs as <-; injection Hp as <-; (split; [reflexivity|]);
      intros [|a] x Hx; simpl in Hx; try (destruct a; discriminate); injection Hx as <-; reflexivity.
    + intros [|a] arg Ha; unfold at_ in Ha; simpl in Ha; [injection Ha as <-; reflexivity|destruct a; discriminate].
  - split; [vm_compute; reflexivity|]. split; [reflexivity|]. eexists; vm_compute; reflexivity.
Qed.

(** ** C13 *)

Theorem C13_mask : forall S Y V nhh (subgroup : S -> list (string * V)) veqb
  (veqb_eq : forall a b, veqb a b = true <-> a = b),
  forall req (m : multi S Y),
  length (get_mask_subgroup nhh subgroup veqb req m) = total_nat (map nhh (subs m)) /\
  forall i s k, at_ (subs m) i s -> (k < nhh s)%nat ->
    exists b, at_ (get_mask_subgroup nhh subgroup veqb req m) (first_household S nhh (subs m) i + k) b /\
      (b = true <-> forall key v, In (key, v) req -> dget String.eqb (subgroup s) key = Some v).
Proof. exact mask_spec. Qed.
Print Assumptions C13_mask.

Example C13_example :
  get_mask_subgroup (fun s : nat * list (string * nat) => fst s) snd Nat.eqb [("n_residents", 2%nat)]%string
    (mkMulti [(2%nat, [("n_residents", 2%nat); ("weekday", 1%nat)]); (1%nat, [("n_residents", 3%nat)]); (1%nat, [])]%string 0
       (@nil (string * list nat)))
  = [true; true; false; false].
Proof. vm_compute; reflexivity. Qed.
