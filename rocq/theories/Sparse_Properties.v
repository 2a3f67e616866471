(** * C20-C24: sparse transition matrices. *)

From Coq Require Import List ZArith QArith Bool Lia Sorted.
From Verif Require Import Prelude SpecBase Sampling_Spec Sparse_Model Sparse_Spec Sparse_Proofs.
Import ListNotations.

(** ** C20 *)

Theorem C20_read_back : forall p p' t m, sp_set p (KInt t) m = Ok p' ->
  forall k, (k mod n_times p = t mod n_times p)%Z ->
  exists m', sp_get p' (KInt k) = Ok m' /\ same_matrix m' m.
Proof. exact set_get. Qed.
Print Assumptions C20_read_back.

Theorem C20_other_times_unchanged : forall p p' t m, sp_set p (KInt t) m = Ok p' ->
  n_states p' = n_states p /\ n_times p' = n_times p /\ dead_state p' = dead_state p /\
  forall k, (k mod n_times p <> t mod n_times p)%Z -> sp_get p' (KInt k) = sp_get p (KInt k).
Proof. exact set_get_other. Qed.
Print Assumptions C20_other_times_unchanged.

Theorem C20_wrong_shape_rejected : forall p t m, n_times p <> 0%Z -> ~ square (Z.to_nat (n_states p)) m ->
  sp_set p (KInt t) m = Err ValueError.
Proof. exact set_rejects. Qed.
Print Assumptions C20_wrong_shape_rejected.

Theorem C20_right_shape_accepted : forall p t m, n_times p <> 0%Z -> parallel p -> square (Z.to_nat (n_states p)) m ->
  exists p', sp_set p (KInt t) m = Ok p'.
Proof. exact set_succeeds. Qed.
Print Assumptions C20_right_shape_accepted.

(** Reading is periodic in the time, negative times included. *)
Theorem C20_modulo : forall p k k', (k mod n_times p = k' mod n_times p)%Z -> sp_get p (KInt k) = sp_get p (KInt k').
Proof. intros p k k' H. unfold sp_get, check_time. rewrite H. reflexivity. Qed.
Print Assumptions C20_modulo.

(** Iterating gives the matrices of the times in order. *)
Theorem C20_iteration : forall p ms, sp_iter p = Ok ms ->
  length ms = Z.to_nat (n_times p) /\ forall i m, at_ ms i m -> sp_get p (KInt (Z.of_nat i)) = Ok m.
Proof. exact iter_spec. Qed.
Print Assumptions C20_iteration.

(** Only integers are times. *)
Theorem C20_other_key : forall p m, sp_get p KOther = Err TypeError /\ sp_set p KOther m = Err TypeError.
Proof. intros p m. split; reflexivity. Qed.
Print Assumptions C20_other_key.

(** Reading a time with a transition from or to a state that is too large fails. *)
Theorem C20_outside : forall p k i t f u v, n_times p <> 0%Z -> parallel p ->
  (forall j x, at_ (t_from p) j x \/ at_ (t_to p) j x -> 0 <= x)%Z ->
  at_ (t_times p) i t -> at_ (t_from p) i f -> at_ (t_to p) i u -> at_ (t_values p) i v ->
  (t = k mod n_times p)%Z -> (n_states p <= f \/ n_states p <= u)%Z -> sp_get p (KInt k) = Err IndexError.
Proof. exact get_outside. Qed.
Print Assumptions C20_outside.

Example C20_outside_example : sp_get (mkTpm [0; 1]%Z [3; 0]%Z [0; 1]%Z [1; 1] 2 2 None) (KInt 6) = Err IndexError /\
  sp_get (mkTpm [0; 1]%Z [3; 0]%Z [0; 1]%Z [1; 1] 2 2 None) (KInt 7) = Ok [[0; 1]; [0; 0]].
Proof. conj_vm. Qed.

(** Two times, two states. *)
Definition ex_tpm : tpm := mkTpm [0; 0; 0; 1; 1]%Z [0; 0; 1; 0; 1]%Z [0; 1; 0; 1; 1]%Z [1 # 4; 3 # 4; 1; 1; 1] 2 2 None.

Example C20_example : exists p',
  sp_init [0; 0; 0; 1; 1]%Z [0; 0; 1; 0; 1]%Z [0; 1; 0; 1; 1]%Z [1 # 4; 3 # 4; 1; 1; 1] None None None = Ok ex_tpm /\
  sp_get ex_tpm (KInt 0) = Ok [[1 # 4; 3 # 4]; [1; 0]] /\
  sp_set ex_tpm (KInt (-1)) [[1 # 3; 2 # 3]; [0; 1]] = Ok p' /\
  sp_get p' (KInt 1) = Ok [[1 # 3; 2 # 3]; [0; 1]] /\
  sp_get p' (KInt 0) = Ok [[1 # 4; 3 # 4]; [1; 0]] /\
  sp_set ex_tpm (KInt 0) [[1; 0]] = Err ValueError.
Proof. eexists. conj_vm. Qed.

(** ** C21 *)

(** Each household samples its own row, in the order in which it is stored. *)
Theorem C21_own_row : forall fuel p time states draws,
  n_times p <> 0%Z -> parallel p -> ordered_by_origin p (time mod n_times p) ->
  (forall s, In s states -> stochastic_row p (time mod n_times p) s) ->
  length draws = length states -> (forall i r, at_ draws i r -> 0 < r /\ r <= 1) ->
  exists out, sparse_mc (S fuel) p time states draws = Ok out /\ length out = length states /\
    forall i s r, at_ states i s -> at_ draws i r ->
      exists k j, at_ out i j /\ at_ (map fst (row_of p (time mod n_times p) s)) k j /\
        covers (map snd (row_of p (time mod n_times p) s)) r k.
Proof. exact sparse_mc_live. Qed.
Print Assumptions C21_own_row.

(** When targets are stored in increasing order, this is inverse-CDF sampling of the
    dense row that reading the matrix gives. *)
Theorem C21_dense : forall fuel p time states draws m out,
  n_times p <> 0%Z -> parallel p -> ordered_by_origin p (time mod n_times p) ->
  (forall s, In s states -> stochastic_row p (time mod n_times p) s /\ Sorted Z.lt (map fst (row_of p (time mod n_times p) s))) ->
  (forall e, In e (zip4 (t_times p) (t_from p) (t_to p) (t_values p)) -> e_time e = (time mod n_times p)%Z ->
     (0 <= e_from e < Z.of_nat (Z.to_nat (n_states p)))%Z /\ (0 <= e_to e < Z.of_nat (Z.to_nat (n_states p)))%Z) ->
  length draws = length states -> (forall i r, at_ draws i r -> 0 < r /\ r <= 1) ->
  sp_get p (KInt time) = Ok m -> sparse_mc (S fuel) p time states draws = Ok out ->
  forall i s r, at_ states i s -> at_ draws i r ->
    exists row j, at_ m (Z.to_nat s) row /\ at_ out i j /\ covers row r (Z.to_nat j).
Proof. exact sparse_mc_dense. Qed.
Print Assumptions C21_dense.

(** In particular after assigning a stochastic matrix, whatever was stored before. *)
Theorem C21_assigned_matrix : forall fuel p p' t m states draws, sp_set p (KInt t) m = Ok p' ->
  (forall i row, at_ m i row -> is_pdf row) ->
  (forall s, In s states -> (0 <= s < Z.of_nat (length m))%Z) ->
  length draws = length states -> (forall i r, at_ draws i r -> 0 < r /\ r <= 1) ->
  exists out, sparse_mc (S fuel) p' t states draws = Ok out /\ length out = length states /\
    forall i s r, at_ states i s -> at_ draws i r ->
      exists row j, at_ m (Z.to_nat s) row /\ at_ out i j /\ covers row r (Z.to_nat j) /\ (Z.to_nat j < length row)%nat.
Proof. exact sample_assigned. Qed.
Print Assumptions C21_assigned_matrix.

(** A draw is covered by at most one entry, so the outcome is determined by the
    household's own state and draw. *)
Theorem C21_outcome_unique : forall row r k k', nonneg row -> covers row r k -> covers row r k' -> k = k'.
Proof. exact covers_unique. Qed.
Print Assumptions C21_outcome_unique.

(** The draw 0 (which np.random.uniform can return) breaks it: a household gets the
    outcome of another household's row. *)
Theorem C21_zero_draw_refuted : exists p time states out,
  parallel p /\ ordered_by_origin p time /\ (forall s, In s states -> stochastic_row p time s) /\
  sparse_mc 1 p time states [1 # 2; 0] = Ok out /\
  at_ states 1 1%Z /\ map fst (row_of p time 1) = [1%Z] /\ at_ out 1 0%Z.
Proof.
  exists (mkTpm [0; 0]%Z [0; 1]%Z [0; 1]%Z [1; 1] 2 1 None), 0%Z, [0; 1]%Z, [0; 0]%Z.
  split; [repeat split|]. split; [vm_compute; repeat constructor; discriminate|].
  split; [|conj_vm].
  intros s [<-|[<-|[]]]; (split; [intros [|i] x Hx; unfold at_ in Hx; simpl in Hx; [injection Hx as <-; discriminate|destruct i; discriminate]|reflexivity]).
Qed.
Print Assumptions C21_zero_draw_refuted.

Example C21_example :
  sparse_mc 1 ex_tpm 2 [1; 0; 0]%Z [1 # 2; 1 # 5; 1 # 2] = Ok [0; 0; 1]%Z /\
  map fst (row_of ex_tpm 0 0) = [0; 1]%Z /\ map snd (row_of ex_tpm 0 0) = [1 # 4; 3 # 4].
Proof. conj_vm. Qed.

Example C21_example_hypotheses : n_times ex_tpm <> 0%Z /\ parallel ex_tpm /\ ordered_by_origin ex_tpm 0 /\
  forall s, In s [1; 0; 0]%Z -> stochastic_row ex_tpm 0 s.
Proof.
  split; [discriminate|]. split; [repeat split|]. split; [vm_compute; repeat constructor; discriminate|].
  intros s [<-|[<-|[<-|[]]]]; (split; [|vm_compute; reflexivity]);
  intros [|[|i]] x Hx; unfold at_ in Hx; simpl in Hx; try (injection Hx as <-; discriminate); try discriminate; destruct i; discriminate.
Qed.

(** ** C22 *)

Theorem C22_dead_states_resolved : forall fuel p time states draws d,
  n_times p <> 0%Z -> parallel p -> ordered_by_origin p (time mod n_times p) ->
  dead_state p = Some d -> stochastic_row p (time mod n_times p) d ->
  (forall s, In s states -> stochastic_row p (time mod n_times p) s \/ row_of p (time mod n_times p) s = []) ->
  length draws = length states -> (forall i r, at_ draws i r -> 0 < r /\ r <= 1) ->
  exists out, sparse_mc (S (S fuel)) p time states draws = Ok out /\ length out = length states /\
    forall i s r s', at_ states i s -> at_ draws i r ->
      (row_of p (time mod n_times p) s = [] -> s' = d) -> (row_of p (time mod n_times p) s <> [] -> s' = s) ->
      exists k j, at_ out i j /\ at_ (map fst (row_of p (time mod n_times p) s')) k j /\
        covers (map snd (row_of p (time mod n_times p) s')) r k.
Proof. exact sparse_mc_dead. Qed.
Print Assumptions C22_dead_states_resolved.

(** A dead replacement: however deep the recursion may go, no result. *)
Theorem C22_dead_replacement_never_returns : forall fuel p time states draws d,
  n_times p <> 0%Z -> parallel p -> dead_state p = Some d -> row_of p (time mod n_times p) d = [] ->
  (exists s, In s states /\ row_of p (time mod n_times p) s = []) ->
  sparse_mc fuel p time states draws = Err RecursionError.
Proof. exact sparse_mc_dead_dead. Qed.
Print Assumptions C22_dead_replacement_never_returns.

(** Without a replacement, one dead household makes the sampling of the others
    fail or go wrong: here household 0 is dead and household 1 gets an IndexError. *)
Theorem C22_no_replacement_refuted : exists p time states draws,
  parallel p /\ dead_state p = None /\ stochastic_row p time 1 /\ row_of p time 0 = [] /\
  states = [0; 1]%Z /\ sparse_mc 5 p time states draws = Err IndexError.
Proof.
  exists (mkTpm [0]%Z [1]%Z [1]%Z [1] 2 1 None), 0%Z, [0; 1]%Z, [1 # 2; 1 # 2].
  split; [repeat split|]. split; [reflexivity|]. split; [|conj_vm].
  split; [intros [|i] x Hx; unfold at_ in Hx; simpl in Hx; [injection Hx as <-; discriminate|destruct i; discriminate]|reflexivity].
Qed.
Print Assumptions C22_no_replacement_refuted.

Example C22_example :
  sparse_mc 2 (mkTpm [0; 0]%Z [1; 1]%Z [1; 2]%Z [1 # 2; 1 # 2] 3 1 (Some 1%Z)) 7 [0; 1; 2]%Z [1 # 4; 3 # 4; 1] = Ok [1; 2; 2]%Z /\
  sparse_mc 50 (mkTpm [0; 0]%Z [1; 1]%Z [1; 2]%Z [1 # 2; 1 # 2] 3 1 (Some 0%Z)) 7 [0; 1; 2]%Z [1 # 4; 3 # 4; 1] = Err RecursionError.
Proof. conj_vm. Qed.

(** ** C23 *)

(** The property fails: one time, three origins are accepted; reading then fails. *)
Theorem C23_lengths_refuted : exists p,
  sp_init [0]%Z [0; 0; 0]%Z [0]%Z [1] None None None = Ok p /\ ~ parallel p /\ sp_get p (KInt 0) = Err IndexError.
Proof. eexists. split; [vm_compute; reflexivity|]. split; [intros [H _]; discriminate|reflexivity]. Qed.
Print Assumptions C23_lengths_refuted.

(** Exactly which lengths are accepted: the length of [times] must equal that of
    [values] and be bitwise contained in the two others. *)
Theorem C23_accepted_exactly : forall times from to values ns nt dead,
  (exists p, sp_init times from to values ns nt dead = Ok p) <->
  length values = length times /\
  Z.land (Z.of_nat (length from)) (Z.of_nat (length times)) = Z.of_nat (length times) /\
  Z.land (Z.of_nat (length to)) (Z.of_nat (length times)) = Z.of_nat (length times).
Proof. exact init_accepts. Qed.
Print Assumptions C23_accepted_exactly.

(** The part of the claim that holds. *)
Theorem C23_rejected_partial : forall times from to values ns nt dead,
  (length values <> length times \/ (length from < length times)%nat \/ (length to < length times)%nat) ->
  sp_init times from to values ns nt dead = Err ValueError.
Proof. exact init_rejects_partial. Qed.
Print Assumptions C23_rejected_partial.

Theorem C23_equal_lengths_accepted : forall times from to values ns nt dead,
  length from = length times -> length to = length times -> length values = length times ->
  exists p, sp_init times from to values ns nt dead = Ok p /\ parallel p.
Proof. exact init_accepts_equal. Qed.
Print Assumptions C23_equal_lengths_accepted.

(** Without numbers given, there are as many states and times as the largest ones
    ask for; an empty list of times has neither. *)
Theorem C23_sizes : forall times from to values ns nt dead p, length from = length times -> length to = length times ->
  sp_init times from to values ns nt dead = Ok p ->
  (times = [] -> n_states p = 0%Z /\ n_times p = 0%Z) /\
  (times <> [] -> (forall n, ns = Some n -> n_states p = n) /\ (forall n, nt = Some n -> n_times p = n) /\
     (ns = None -> (forall x, In x from \/ In x to -> x < n_states p)%Z /\ (In (n_states p - 1) from \/ In (n_states p - 1) to)%Z) /\
     (nt = None -> (forall x, In x times -> x < n_times p)%Z /\ In (n_times p - 1)%Z times)).
Proof. exact init_sizes. Qed.
Print Assumptions C23_sizes.

Example C23_example : sp_init [0; 1]%Z [0]%Z [0; 1]%Z [1; 1] None None None = Err ValueError.
Proof. reflexivity. Qed.

(** ** C24 *)

Theorem C24_save_load : forall times from to values dead p,
  (forall x, In x times \/ In x from \/ In x to -> (0 <= x < 65536)%Z) ->
  sp_init times from to values None None dead = Ok p ->
  exists p', sp_load (sp_save p) = Ok p' /\
    t_times p' = t_times p /\ t_from p' = t_from p /\ t_to p' = t_to p /\ t_values p' = t_values p /\
    n_states p' = n_states p /\ n_times p' = n_times p /\ dead_state p' = None /\
    (forall k, sp_get p' k = sp_get p k).
Proof. exact load_save. Qed.
Print Assumptions C24_save_load.

(** Explicit sizes and the replacement of dead states do not survive. *)
Theorem C24_sizes_refuted : exists p p',
  sp_init [0]%Z [0]%Z [0]%Z [1] (Some 2%Z) (Some 3%Z) (Some 0%Z) = Ok p /\ sp_load (sp_save p) = Ok p' /\
  n_states p' <> n_states p /\ n_times p' <> n_times p /\ dead_state p' <> dead_state p /\
  sp_get p (KInt 1) <> sp_get p' (KInt 1).
Proof.
  do 2 eexists. split; [vm_compute; reflexivity|]. split; [vm_compute; reflexivity|].
  repeat split; vm_compute; discriminate.
Qed.
Print Assumptions C24_sizes_refuted.

Example C24_example : exists p', sp_load (sp_save ex_tpm) = Ok p' /\ p' = ex_tpm.
Proof. eexists. conj_vm. Qed.
