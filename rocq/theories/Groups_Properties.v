(** * Properties C188-C189: simulators of subgroups. *)

From Coq Require Import String List ZArith Bool Lia Arith.
From Verif Require Import Prelude PreludeFacts SpecBase SpecBaseFacts Multi_Model Groups_Model Groups_Spec Groups_Proofs.
Import ListNotations.
Local Open Scope Z_scope.

(** ** C188: households of a simulator of subgroups *)

(** Each subgroup with households has its simulator, after those of the subgroups
    before it, and there are no other simulators. *)
Theorem C188_simulators : forall S G Y (nhh : S -> nat) (create : Z -> G -> result S) groups numbers m,
  groups_init Y nhh (SparseClass create) groups numbers = Ok m ->
  (forall i g n, at_ groups i g -> at_ numbers i n -> 0 < n -> exists s, create n g = Ok s /\ at_ (subs m) (rank numbers i) s) /\
  length (subs m) = rank numbers (Nat.min (length groups) (length numbers)).
Proof.
  intros S G Y nhh create groups numbers m H. destruct (init_ok _ _ _ _ _ _ _ _ H) as (E & _). split.
  - intros; eapply made_at; eauto.
  - eapply made_length; eauto.
Qed.
Print Assumptions C188_simulators.

(** The total number of households, when simulators have the number asked of them. *)
Theorem C188_total : forall S G Y (nhh : S -> nat) (create : Z -> G -> result S) groups numbers m,
  (forall n g s, create n g = Ok s -> nhh s = Z.to_nat n) -> length groups = length numbers ->
  groups_init Y nhh (SparseClass create) groups numbers = Ok m -> multi_n nhh (subs m) = before numbers (length numbers).
Proof.
  intros S G Y nhh create groups numbers m Hs Hl H. destruct (init_ok _ _ _ _ _ _ _ _ H) as (E & _). rewrite (made_total _ _ _ _ Hs _ _ _ E). f_equal. lia.
Qed.
Print Assumptions C188_total.

(** Household [h] of subgroup [i] comes after the households of the subgroups before. *)
Theorem C188_positions : forall S G Y (nhh : S -> nat) (create : Z -> G -> result S) (doing : string + Z -> S -> result (list Y)) groups numbers m st a,
  (forall n g s, create n g = Ok s -> nhh s = Z.to_nat n) -> (forall s l, doing st s = Ok l -> length l = nhh s) ->
  groups_init Y nhh (SparseClass create) groups numbers = Ok m -> n_doing doing (subs m) (One st) = Ok a ->
  exists all, a = Numbers all /\ length all = multi_n nhh (subs m) /\
    forall i g n, at_ groups i g -> at_ numbers i n -> 0 < n ->
      exists s l, create n g = Ok s /\ doing st s = Ok l /\ length l = Z.to_nat n /\
        forall h y, (h < Z.to_nat n)%nat -> (at_ all (before numbers i + h) y <-> at_ l h y).
Proof.
  intros S G Y nhh create doing groups numbers m st a Hs Hd H Ha. destruct (init_ok _ _ _ _ _ _ _ _ H) as (E & _). cbn [n_doing] in Ha. unfold one_doing in Ha.
  destruct (mapM (doing st) (subs m)) as [ls|] eqn:El; [|discriminate]. cbn in Ha. injection Ha as <-. exists (List.concat ls). split; auto. split.
  - clear - Hd El. revert ls El. induction (subs m) as [|s t IH]; intros ls El; [injection El as <-; reflexivity|]. cbn [mapM] in El.
    destruct (doing st s) as [y|] eqn:Ey; [|discriminate]. cbn [bind] in El. destruct (mapM _ t) as [ys|]; [|discriminate]. injection El as <-.
    cbn. rewrite app_length, (Hd _ _ Ey), (IH _ eq_refl). reflexivity.
  - intros i g n Hg Hn Hp. eapply made_slice; eauto.
Qed.
Print Assumptions C188_positions.

(** A list of states is answered by the list of the answers; the first error is raised. *)
Theorem C188_lists : forall S Y (doing : string + Z -> S -> result (list Y)) sims ws,
  n_doing doing sims (Many ws) = bind (mapM (n_doing doing sims) ws) (fun l => Ok (Answers l)).
Proof.
  intros S Y doing sims ws. cbn [n_doing]. f_equal. induction ws as [|w ws IH]; auto. cbn [mapM]. rewrite <- IH. reflexivity.
Qed.
Print Assumptions C188_lists.

Theorem C188_errors : forall S G Y (nhh : S -> nat) (doing : string + Z -> S -> result (list Y)) groups numbers (sims : list S),
  n_doing doing sims (Neither) = Err TypeError /\
  groups_init Y nhh (@OtherClass S G) groups numbers = Err TypeError /\
  groups_init Y nhh (@NoClass S G) groups numbers = Err TypeError /\
  (forall create : Z -> G -> result S, (forall n, In n numbers -> n <= 0) -> groups_init Y nhh (SparseClass create) groups numbers = Err ValueError).
Proof.
  intros S G Y nhh doing groups numbers sims. repeat split. intros create H. unfold groups_init. rewrite filter_none; [reflexivity|].
  intros [g n] Hin. apply (H n). eapply in_combine_r; eauto.
Qed.
Print Assumptions C188_errors.

(** The households of the subgroups after the end of a shorter list are forgotten, and
    the objects that the check on the type allows are refused afterwards. *)
Theorem C188_all_subgroups_refuted :
  (exists (create : Z -> nat -> result nat) groups numbers m,
     (forall n g s, create n g = Ok s -> s = Z.to_nat n) /\ (length groups < length numbers)%nat /\
     groups_init nat (fun s => s) (SparseClass create) groups numbers = Ok m /\
     (multi_n (fun s => s) (subs m) < before numbers (length numbers))%nat) /\
  (forall S G Y (nhh : S -> nat) groups numbers, (exists i g n, at_ groups i g /\ at_ numbers i n /\ 0 < n) ->
     groups_init Y nhh (@SparseObject S G) groups numbers = Err TypeError).
Proof.
  split.
  - exists (fun n _ => Ok (Z.to_nat n)), [0%nat], [2; 3]. eexists. split; [|split; [|split; [reflexivity|]]].
    + intros n g s H. injection H as <-. auto.
    + simpl; lia.
    + vm_compute. lia.
  - intros S G Y nhh groups numbers (i & g & n & Hg & Hn & Hp). unfold groups_init.
    assert (N : filter (fun gn : G * Z => 0 <? snd gn) (combine groups numbers) <> []).
    { revert i numbers Hg Hn. induction groups as [|g0 groups IH]; intros i numbers Hg Hn; [destruct i; discriminate|].
      destruct numbers as [|n0 numbers]; [destruct i; discriminate|]. cbn [combine filter snd]. destruct (Z.ltb_spec 0 n0); [discriminate|].
      destruct i as [|i]; [injection Hn as ->; lia|]. apply (IH i); auto. }
    destruct (filter _ _); [congruence|reflexivity].
Qed.
Print Assumptions C188_all_subgroups_refuted.

(** Subgroups 7, 8 and 9 with 2, 0 and 3 households; the number of a household is the
    subgroup and its position. *)
Definition mk (n : Z) (g : nat) : result (nat * nat) := Ok (g, Z.to_nat n).
Definition tell (st : string + Z) (s : nat * nat) : result (list (nat * nat)) :=
  match st with inl _ => Ok (map (fun h => (fst s, h)) (seq 0 (snd s))) | inr _ => Err IndexError end.

Example C188_example :
  exists m, groups_init (nat * nat) snd (SparseClass mk) [7; 8; 9]%nat [2; 0; 3] = Ok m /\
    n_doing tell (subs m) (One (inl "cooking"%string)) = Ok (Numbers [(7, 0); (7, 1); (9, 0); (9, 1); (9, 2)]%nat) /\
    n_doing tell (subs m) (Many [One (inl "cooking"%string); One (inr 3)]) = Err IndexError /\
    rank [2; 0; 3] 2 = 1%nat /\ before [2; 0; 3] 2 = 2%nat.
Proof. eexists. split; [reflexivity|]. repeat split. Qed.

(** ** C189: SparseActivitySimulator *)

(** No argument gives a simulator, whatever the files of the dataset are. *)
Theorem C189_created_refuted : forall D (files : string -> result D) path kwargs data d, sparse_activity_init files path kwargs data <> Ok d.
Proof.
  intros D files path kwargs data d. unfold sparse_activity_init. destruct (String.eqb data "Germany"); [|discriminate].
  destruct kwargs; [|discriminate]. destruct (files _); discriminate.
Qed.
Print Assumptions C189_created_refuted.

(** The errors: a dictionary is not accepted, though it is what is documented; the name
    of existing files is refused after loading them. *)
Theorem C189_errors : forall D (files : string -> result D) path kwargs data,
  (data <> "Germany"%string -> sparse_activity_init files path kwargs data = Err ValueError) /\
  sparse_activity_init files path KwOther "Germany" = Err TypeError /\
  (forall s d, files (path ++ s)%string = Ok d -> sparse_activity_init files path (KwStr s) "Germany" = Err AttributeError) /\
  (forall s e, files (path ++ s)%string = Err e -> sparse_activity_init files path (KwStr s) "Germany" = Err e).
Proof.
  intros D files path kwargs data. repeat split.
  - intro H. unfold sparse_activity_init. destruct (String.eqb_spec data "Germany"); [contradiction|reflexivity].
  - intros s d H. unfold sparse_activity_init. simpl. rewrite H. reflexivity.
  - intros s e H. unfold sparse_activity_init. simpl. rewrite H. reflexivity.
Qed.
Print Assumptions C189_errors.

Example C189_example : sparse_activity_init (fun p => if String.eqb p "data/one" then Ok 5 else Err FileNotFoundError) "data/" (KwStr "one") "Germany" = Err AttributeError.
Proof. reflexivity. Qed.
