(** * C31-C36, C63-C65: activity and occupancy simulators. *)

From Coq Require Import String List ZArith QArith Bool Lia Arith.
From Verif Require Import Prelude SpecBase Sampling_Spec Parse_Spec Sparse_Model Activity_Model Activity_Spec
  Activity_Proofs Activity_SemiProofs Activity_LabelProofs Activity_HouseProofs.
Import ListNotations.

(** ** C31 *)

Theorem C31_execution : forall L n_hh n_st tpms (labels : list L) c0 pdf check u0 hist,
  tpms <> [] -> (forall t m, at_ tpms t m -> stochastic n_st m) -> length pdf = n_st -> is_pdf pdf -> unit_draws u0 ->
  (forall k u, at_ hist k u -> unit_draws u) ->
  chain_init n_hh n_st tpms labels = Ok c0 ->
  exists c, chain_start c0 pdf 0 check u0 = Ok c /\
    (forall i s, at_ (c_states c) i s -> selects pdf (u0 i) s) /\
    (forall k, (k <= length hist)%nat -> exists ck, chain_run (firstn k hist) c = Ok ck /\
       length (c_states ck) = n_hh /\ c_ticks ck = Z.of_nat k) /\
    (forall k u ck ck1, at_ hist k u -> chain_run (firstn k hist) c = Ok ck -> chain_run (firstn (S k) hist) c = Ok ck1 ->
       forall i s, at_ (c_states ck) i s -> exists row s',
         row_at tpms (S k mod length tpms) s row /\ at_ (c_states ck1) i s' /\ selects row (u i) s' /\ possible row s').
Proof. exact chain_execution. Qed.
Print Assumptions C31_execution.

(** The arguments the constructor accepts. *)
Theorem C31_constructor : forall L n_hh n_st tpms (labels : list L),
  ((0 < n_hh)%nat /\ (forall t m, at_ tpms t m -> length m = n_st /\ forall s row, at_ m s row -> length row = n_st) /\
   length labels = n_st <-> exists c0, chain_init n_hh n_st tpms labels = Ok c0) /\
  (forall e, chain_init n_hh n_st tpms labels = Err e -> e = ValueError).
Proof.
  intros L n_hh n_st tpms labels. unfold chain_init.
  assert (Hsq : forallb (square n_st) tpms = true <->
    forall t m, at_ tpms t m -> length m = n_st /\ forall s row, at_ m s row -> length row = n_st).
  { rewrite forallb_forall. unfold square. split.
    - intros H t m Ht. apply nth_error_In in Ht. specialize (H m Ht). apply andb_prop in H as [H1 H2].
      apply Nat.eqb_eq in H1. split; [exact H1|]. intros s row Hr. apply nth_error_In in Hr. rewrite forallb_forall in H2.
      apply Nat.eqb_eq. auto.
    - intros H m Hm. apply In_nth_error in Hm as [t Ht]. destruct (H t m Ht) as [H1 H2]. apply andb_true_intro. split.
      + apply Nat.eqb_eq. exact H1.
      + apply forallb_forall. intros row Hr. apply In_nth_error in Hr as [s Hs]. apply Nat.eqb_eq. eapply H2; eauto. }
  rewrite <- Hsq. clear Hsq. split.
  - split.
    + intros (H1 & H2 & H3). destruct (Nat.eqb_spec n_hh 0); [lia|]. rewrite H2. cbn [negb].
      rewrite H3, Nat.eqb_refl. cbn [negb]. eexists; reflexivity.
    + intros [c0 E]. destruct (Nat.eqb_spec n_hh 0); [discriminate|]. destruct (forallb (square n_st) tpms); [|discriminate].
      cbn [negb] in E. destruct (Nat.eqb_spec (length labels) n_st); [|discriminate]. split; [lia|]. split; [reflexivity|assumption].
  - intros e E. destruct (Nat.eqb_spec n_hh 0); [injection E; auto|].
    destruct (forallb (square n_st) tpms); cbn [negb] in E; [|injection E; auto].
    destruct (Nat.eqb_spec (length labels) n_st); cbn [negb] in E; [discriminate|injection E; auto].
Qed.
Print Assumptions C31_constructor.

(** A positive start_time_step is an AttributeError: the object steps before its
    iterator exists. *)
Theorem C31_start_step : forall L (c0 : chain0 L) pdf k check u, (0 < k)%nat -> chain_start c0 pdf k check u = Err AttributeError.
Proof. intros L c0 pdf [|k] check u H; [lia|reflexivity]. Qed.
Print Assumptions C31_start_step.

Definition ex_tpms : list (list (list Q)) :=
  [ [[1; 0]; [1 # 2; 1 # 2]]; [[0; 1]; [1 # 4; 3 # 4]]; [[1 # 2; 1 # 2]; [0; 1]] ].
Definition ex_u (a b : Q) (k : nat) : Q := match k with O => a | _ => b end.

Example C31_example :
  match chain_init 2 2 ex_tpms [10; 20]%nat with
  | Ok c0 =>
      match chain_start c0 [1 # 3; 2 # 3] 0 true (ex_u (1 # 4) (1 # 2)) with
      | Ok c => c_states c = [0; 1]%nat /\
          bind (chain_run [ex_u (1 # 5) (1 # 5)] c) (fun c => Ok (c_states c)) = Ok [1; 0]%nat /\
          bind (chain_run [ex_u (1 # 5) (1 # 5); ex_u 0 (1 # 2); ex_u (3 # 4) (3 # 4)] c) (fun c => Ok (c_states c, c_ticks c)) =
            Ok ([1; 1]%nat, 3%Z)
      | Err _ => False
      end
  | Err _ => False
  end.
Proof. vm_compute. repeat split. Qed.

(** ** C32 *)

Theorem C32_episodes : forall L n_hh n_st tpms (labels : list L) c0 d pdf sdurs check u v hist,
  tpms <> [] -> (forall t m, at_ tpms t m -> stochastic n_st m) -> length pdf = n_st -> is_pdf pdf ->
  dur_valid n_st (tables_of d) -> length sdurs = n_st -> (forall x row, at_ sdurs x row -> is_pdf row) ->
  unit_draws u -> unit_draws v -> (forall j uv, at_ hist j uv -> unit_draws (fst uv) /\ unit_draws (snd uv)) ->
  chain_init n_hh n_st tpms labels = Ok c0 ->
  exists s, semi_start c0 d pdf sdurs 0 check u v = Ok s /\
    (forall k, (k <= length hist)%nat -> exists sk, semi_run (firstn k hist) s = Ok sk /\
       length (s_left sk) = n_hh /\ length (c_states (s_chain sk)) = n_hh) /\
    (* the first episode *)
    (forall i x, at_ (c_states (s_chain s)) i x -> selects pdf (u i) x /\
      exists row e, at_ sdurs x row /\ selects row (v i) e /\
      forall j, (j < Nat.max 1 e)%nat -> (j <= length hist)%nat ->
        exists sj l', semi_run (firstn j hist) s = Ok sj /\ at_ (c_states (s_chain sj)) i x /\
          at_ (s_left sj) i l' /\ (over l' = true <-> S j = Nat.max 1 e)) /\
    (* every later episode *)
    (forall k uv sk i x l, at_ hist k uv -> semi_run (firstn k hist) s = Ok sk ->
      at_ (c_states (s_chain sk)) i x -> at_ (s_left sk) i l -> over l = true ->
      exists row x' drow e,
        row_at tpms (S k mod length tpms) x row /\ selects row (fst uv (rank over (s_left sk) i)) x' /\
        dur_row (tables_of d) (S k mod dur_length (tables_of d)) x x' drow /\
        selects drow (snd uv (rank over (s_left sk) i)) e /\
        forall j, (1 <= j <= Nat.max 1 e)%nat -> (k + j <= length hist)%nat ->
          exists sj l', semi_run (firstn (k + j) hist) s = Ok sj /\ at_ (c_states (s_chain sj)) i x' /\
            at_ (s_left sj) i l' /\ (over l' = true <-> j = Nat.max 1 e)).
Proof. exact semi_execution. Qed.
Print Assumptions C32_episodes.

(** Two households, durations of 2 or 3 steps: the second one keeps its own timer. *)
Definition ex_durs : dur_pdfs := Pdf3 [ [[0; 0; 1 # 2; 1 # 2]; [0; 0; 1 # 2; 1 # 2]] ].
Definition ex_swap : list (list (list Q)) := [ [[0; 1]; [1; 0]] ].
Definition ex_hist : list ((nat -> Q) * (nat -> Q)) :=
  repeat (ex_u (1 # 2) (1 # 2), ex_u (1 # 4) (3 # 4)) 5.

Example C32_example :
  match chain_init 2 2 ex_swap [10; 20]%nat with
  | Ok c0 =>
      match semi_start c0 ex_durs [1 # 2; 1 # 2] [[0; 0; 1 # 2; 1 # 2]; [0; 1; 0; 0]] 0 true
              (ex_u (1 # 4) (3 # 4)) (ex_u (1 # 4) (1 # 4)) with
      | Ok s =>
          map (fun k => bind (semi_run (firstn k ex_hist) s) (fun s => Ok (c_states (s_chain s)))) (seq 0 6) =
            [Ok [0; 1]; Ok [0; 0]; Ok [1; 0]; Ok [1; 1]; Ok [0; 1]; Ok [0; 0]]%nat
      | Err _ => False
      end
  | Err _ => False
  end.
Proof. vm_compute. reflexivity. Qed.

(** ** C33 *)

(** The current label of household [i] is the sum of the base-7 codes of its members,
    at most six, each described by the list of their activities. *)
Theorem C33_counts : forall s hs a,
  length hs = length (sp_states s) ->
  (forall i x ms, at_ (sp_states s) i x -> at_ hs i ms ->
    at_ (sp_labels s) (Z.to_nat x) (coded 7 ms) /\ (length ms <= 6)%nat /\ Forall (fun acts => NoDup acts) ms) ->
  exists out, sp_doing s (ByIndex a) = Ok out /\ length out = length (sp_states s) /\
    forall i ms, at_ hs i ms -> at_ out i (members (fun acts => existsb (Nat.eqb a) acts) ms).
Proof. intros s hs a Hl Hd. apply doing_index. split; assumption. Qed.
Print Assumptions C33_counts.

(** By name: the same as the index of the name; an unknown name is a ValueError. *)
Theorem C33_names : forall s hs,
  length hs = length (sp_states s) ->
  (forall i x ms, at_ (sp_states s) i x -> at_ hs i ms ->
    at_ (sp_labels s) (Z.to_nat x) (coded 7 ms) /\ (length ms <= 6)%nat /\ Forall (fun acts => NoDup acts) ms) ->
  (forall a name, sole_position (sp_activities s) name a ->
    exists out, sp_doing s (ByName name) = Ok out /\ length out = length (sp_states s) /\
    forall i ms, at_ hs i ms -> at_ out i (members (fun acts => existsb (Nat.eqb a) acts) ms)) /\
  (forall name, ~ In name (sp_activities s) -> sp_doing s (ByName name) = Err ValueError) /\
  sp_doing s ByOther = Err TypeError.
Proof.
  intros s hs Hl Hd. split; [|split; [|reflexivity]].
  - intros a name [H1 H2]. rewrite (@doing_name s hs a name); auto; [|split; assumption]. apply doing_index. split; assumption.
  - apply doing_unknown.
Qed.
Print Assumptions C33_names.

(** With seven members the count of an activity overflows. *)
Theorem C33_seven_members_refuted : exists s ms, length ms = 7%nat /\ Forall (fun acts => NoDup acts) ms /\
  sp_states s = [0%Z] /\ sp_labels s = [coded 7 ms] /\
  members (fun acts => existsb (Nat.eqb 0) acts) ms = 7%Z /\ members (fun acts => existsb (Nat.eqb 1) acts) ms = 0%Z /\
  sp_doing s (ByIndex 0) = Ok [0%Z] /\ sp_doing s (ByIndex 1) = Ok [1%Z].
Proof.
  exists (mkSp (mkTpm [] [] [] [] 1 1 None) [7%Z] [0%Z] ["a"; "b"]%string 0 0), (repeat [0%nat] 7).
  split; [reflexivity|]. split.
  { apply Forall_forall. intros x H. apply repeat_spec in H. subst x. repeat constructor. intros []. }
  repeat split.
Qed.
Print Assumptions C33_seven_members_refuted.

(** Two households: five members of which three cook, and one member doing two
    things. *)
Definition ex_members : list (list (list nat)) :=
  [ [[0]; [0]; [0; 2]; []; [1]]; [[1; 2]] ]%nat.
Definition ex_sp : spsim :=
  mkSp (mkTpm [] [] [] [] 3 144 None) (0%Z :: map (coded 7) ex_members) [1; 2]%Z ["cook"; "tv"; "eat"]%string 0 0.

Example C33_example :
  sp_labels ex_sp = [0; 59; 56]%Z /\
  sp_doing ex_sp (ByName "cook") = Ok [3; 0]%Z /\ sp_doing ex_sp (ByIndex 1) = Ok [1; 1]%Z /\ sp_doing ex_sp (ByName "eat") = Ok [1; 1]%Z /\
  sp_doing ex_sp (ByName "read") = Err ValueError.
Proof. vm_compute. repeat split. Qed.

(** ** C34 *)

(** Households given as lists of persons (active, where): where is 0 in the house, 1
    for HWH and 2 for HOH. *)
Theorem C34_occupancy : forall s hs n,
  sp_activities s = transit_names -> length hs = length (sp_states s) ->
  (forall i x ps, at_ (sp_states s) i x -> at_ hs i ps -> at_ (sp_labels s) (Z.to_nat x) (household_code ps)) ->
  (forall i ps p, at_ hs i ps -> In p ps -> snd p = 0 \/ snd p = 1 \/ snd p = 2)%Z ->
  (forall i ps, at_ hs i ps -> (length ps <= 6)%nat) ->
  (forall i ps, at_ hs i ps -> (Z.of_nat (length ps) <= n)%Z) ->
  exists occ act th, transit_occupancy n s = Ok occ /\ transit_active n s = Ok act /\ transit_thermal n s = Ok th /\
    length occ = length hs /\ length act = length hs /\ length th = length hs /\
    forall i ps, at_ hs i ps -> exists o a t, at_ occ i o /\ at_ act i a /\ at_ th i t /\
      (o = n - members (fun p => negb (snd p =? 0)) ps /\ a = members (fun p => (snd p =? 0) && fst p) ps /\
       0 <= a <= o /\ o <= n /\ t = 147 * a + 84 * (o - a))%Z.
Proof. exact transit_all. Qed.
Print Assumptions C34_occupancy.

(** n_residents counts the members who are not in the code as present: with the
    default of seven, a household of two persons who left still has five at home. *)
Theorem C34_default_residents_refuted : exists s ps, length ps = 2%nat /\ sp_states s = [0%Z] /\
  sp_labels s = [household_code ps] /\ (forall p, In p ps -> snd p <> 0%Z) /\ transit_occupancy 7 s = Ok [5%Z].
Proof.
  exists (mkSp (mkTpm [] [] [] [] 1 1 None) [56%Z] [0%Z] transit_names 0 0), [(false, 1%Z); (true, 2%Z)].
  split; [reflexivity|]. split; [reflexivity|]. split; [reflexivity|]. split; [|reflexivity].
  intros p [<-|[<-|[]]]; discriminate.
Qed.
Print Assumptions C34_default_residents_refuted.

Definition ex_persons : list (list (bool * Z)) :=
  [ [(true, 0); (false, 0); (true, 1); (false, 2)]; [(true, 0); (true, 0); (true, 0); (true, 2)] ]%Z.
Definition ex_transit : spsim :=
  mkSp (mkTpm [] [] [] [] 2 144 None) (map household_code ex_persons) [0; 1]%Z transit_names 0 0.

Example C34_example :
  transit_occupancy 4 ex_transit = Ok [2; 3]%Z /\ transit_active 4 ex_transit = Ok [1; 3]%Z /\
  transit_thermal 4 ex_transit = Ok [231; 441]%Z /\
  (forall i ps p, at_ ex_persons i ps -> In p ps -> snd p = 0 \/ snd p = 1 \/ snd p = 2)%Z.
Proof.
  repeat split. intros [|[|i]] ps p H Hp; try (destruct i; discriminate); injection H as <-;
    repeat (destruct Hp as [<-|Hp]; [cbn [snd]; auto|]); destruct Hp.
Qed.

(** ** C35 *)

Theorem C35_occupancy : forall (c : chain Z) ha n, (n <= 9)%Z ->
  length ha = length (c_states c) ->
  (forall i x h a, at_ (c_states c) i x -> at_ ha i (h, a) -> at_ (c_labels c) x (10 * h + a)%Z) ->
  (forall i h a, at_ ha i (h, a) -> 0 <= h <= n /\ 0 <= a <= n)%Z ->
  exists occ act th, crest_get crest_occupancy c = Ok occ /\ crest_get crest_active c = Ok act /\ crest_get crest_thermal c = Ok th /\
    length occ = length ha /\ length act = length ha /\ length th = length ha /\
    forall i h a, at_ ha i (h, a) -> exists ac t, at_ occ i h /\ at_ act i ac /\ at_ th i t /\
      (ac = Z.min h a /\ 0 <= ac <= h /\ h <= n /\ ac <= a /\ t = 147 * ac + 84 * (h - ac) /\ 0 <= t)%Z.
Proof.
  intros c ha n Hn Hl H Hb.
  assert (V : (forall i h a, at_ ha i (h, a) -> crest_occupancy (10 * h + a) = h /\ crest_active (10 * h + a) = Z.min h a /\
     crest_thermal (10 * h + a) = 147 * Z.min h a + 84 * (h - Z.min h a))%Z).
  { intros i h a Hi. specialize (Hb i h a Hi). apply crest_values; lia. }
  destruct (@crest_get_ok c ha Hl H crest_occupancy (fun h a => h)) as (occ & H1 & L1 & K1). { intros. eapply V; eauto. }
  destruct (@crest_get_ok c ha Hl H crest_active (fun h a => Z.min h a)) as (act & H2 & L2 & K2). { intros. eapply V; eauto. }
  destruct (@crest_get_ok c ha Hl H crest_thermal (fun h a => 147 * Z.min h a + 84 * (h - Z.min h a))%Z) as (th & H3 & L3 & K3).
  { intros. eapply V; eauto. }
  exists occ, act, th. repeat (split; [congruence|]). intros i h a Hi. do 2 eexists.
  split; [apply (K1 i h a Hi)|]. split; [apply (K2 i h a Hi)|]. split; [apply (K3 i h a Hi)|].
  specialize (Hb i h a Hi). lia.
Qed.
Print Assumptions C35_occupancy.

Example C35_example :
  let c := mkChain 3 3 [23; 30; 41]%Z [0; 1; 2]%nat (cyc_new []) 0 in
  crest_get crest_occupancy c = Ok [2; 3; 4]%Z /\ crest_get crest_active c = Ok [2; 0; 1]%Z /\
  crest_get crest_thermal c = Ok [294; 252; 399]%Z.
Proof. vm_compute. repeat split. Qed.

(** ** C36 *)

Theorem C36_slots : forall tod, (0 <= tod < 24 * 3600 * 1000000)%Z ->
  let k := start_step_of (hour_of tod) (minute_of tod) in slots_since_4am tod k /\ (0 <= k < 144)%Z.
Proof. exact start_step_slots. Qed.
Print Assumptions C36_slots.

Theorem C36_advance : forall tod, (0 <= tod < 24 * 3600 * 1000000)%Z ->
  let next := ((tod + 600 * 1000000) mod (24 * 3600 * 1000000))%Z in
  start_step_of (hour_of next) (minute_of next) = ((start_step_of (hour_of tod) (minute_of tod) + 1) mod 144)%Z.
Proof. exact slots_advance. Qed.
Print Assumptions C36_advance.

(** 3:59:59, 4:00 and 23:55. *)
Example C36_example :
  start_step_of (hour_of 14399000000) (minute_of 14399000000) = 143%Z /\
  start_step_of (hour_of 14400000000) (minute_of 14400000000) = 0%Z /\
  start_step_of (hour_of 86100000000) (minute_of 86100000000) = 119%Z.
Proof. vm_compute. repeat split. Qed.

(** ** C63 *)

(** New labels for a Markov chain: every subject keeps its label when the new labels
    hold it exactly once, and is put in state 0 otherwise; nothing else changes. *)
Theorem C63_chain : forall L cmp, total_order cmp -> forall (c : chain L) new,
  (forall i s, at_ (c_states c) i s -> (s < length (c_labels c))%nat) ->
  exists c', assign_new_labels cmp c new = Ok c' /\ c_labels c' = new /\ length (c_states c') = length (c_states c) /\
    c_iter c' = c_iter c /\ c_ticks c' = c_ticks c /\ c_n c' = c_n c /\
    forall i s lab, at_ (c_states c) i s -> at_ (c_labels c) s lab ->
      (forall p, sole_position new lab p -> at_ (c_states c') i p) /\
      ((forall p, ~ sole_position new lab p) -> at_ (c_states c') i 0%nat).
Proof. exact assign_new_labels_ok. Qed.
Print Assumptions C63_chain.

(** The same through _set_tpm; the next step uses the second of the new tables. *)
Theorem C63_set_tpm : forall L cmp, total_order cmp -> forall (c : chain L) tpms check new n u,
  (forall i s, at_ (c_states c) i s -> (s < length (c_labels c))%nat) ->
  tpms <> [] -> (forall t m, at_ tpms t m -> stochastic n m) -> length new = n -> (0 < n)%nat -> unit_draws u ->
  exists c', set_tpm cmp c tpms check (Some new) = Ok c' /\ c_labels c' = new /\
    length (c_states c') = length (c_states c) /\ c_ticks c' = c_ticks c /\
    (forall i s lab, at_ (c_states c) i s -> at_ (c_labels c) s lab ->
      (forall p, sole_position new lab p -> at_ (c_states c') i p) /\
      ((forall p, ~ sole_position new lab p) -> at_ (c_states c') i 0%nat)) /\
    exists c'', chain_step c' u = Ok c'' /\ length (c_states c'') = length (c_states c) /\
      forall i s, at_ (c_states c') i s -> exists row s',
        row_at tpms (1 mod length tpms) s row /\ at_ (c_states c'') i s' /\ selects row (u i) s'.
Proof. exact set_tpm_ok. Qed.
Print Assumptions C63_set_tpm.

Theorem C63_set_tpm_same_labels : forall L cmp (c : chain L) tpms check n,
  tpms <> [] -> (forall t m, at_ tpms t m -> stochastic n m) ->
  exists c', set_tpm cmp c tpms check None = Ok c' /\ c_labels c' = c_labels c /\ c_states c' = c_states c /\
    c_ticks c' = c_ticks c.
Proof. exact set_tpm_same. Qed.
Print Assumptions C63_set_tpm_same_labels.

(** The sparse simulator: a lost label gets the value of the first label as its state
    index. *)
Theorem C63_sparse_partial : forall p new s first rest, new = first :: rest -> Z.of_nat (length new) = n_states p ->
  (forall i x, at_ (sp_states s) i x -> (Z.to_nat x < length (sp_labels s))%nat) ->
  exists s', sp_new_day p new s = Ok s' /\ sp_labels s' = new /\ length (sp_states s') = length (sp_states s) /\
    sp_time s' = sp_time s /\ sp_ticks s' = sp_ticks s /\ sp_activities s' = sp_activities s /\
    forall i x lab, at_ (sp_states s) i x -> at_ (sp_labels s) (Z.to_nat x) lab ->
      (forall q, sole_position new lab q -> at_ (sp_states s') i (Z.of_nat q)) /\
      ((forall q, ~ sole_position new lab q) -> at_ (sp_states s') i first).
Proof. exact sp_new_day_ok. Qed.
Print Assumptions C63_sparse_partial.

(** Hence a household can be left outside of the states: its label can no longer be
    read. *)
Theorem C63_sparse_refuted : exists p new s s', sp_new_day p new s = Ok s' /\
  (forall i x, at_ (sp_states s) i x -> (Z.to_nat x < length (sp_labels s))%nat) /\
  (exists ls, sp_doing s (ByIndex 0) = Ok ls) /\ sp_doing s' (ByIndex 0) = Err IndexError.
Proof.
  exists (mkTpm [] [] [] [] 2 144 None), [7; 8]%Z,
    (mkSp (mkTpm [] [] [] [] 2 144 None) [7; 14]%Z [1%Z] transit_names 0 0). eexists.
  split; [reflexivity|]. split; [|split; [eexists; reflexivity|reflexivity]].
  intros [|i] x H; [injection H as <-; simpl; lia|destruct i; discriminate].
Qed.
Print Assumptions C63_sparse_refuted.

Example C63_example :
  let c := mkChain 4 3 [10; 20; 30]%nat [0; 1; 2; 1]%nat (cyc_new []) 5 in
  bind (assign_new_labels Nat.compare c [30; 40; 10]%nat) (fun c => Ok (c_labels c, c_states c, c_ticks c)) =
    Ok ([30; 40; 10], [2; 0; 0; 0], 5%Z)%nat /\
  bind (assign_new_labels Nat.compare c [20; 20; 30; 10]%nat) (fun c => Ok (c_states c)) = Ok [3; 0; 2; 0]%nat.
Proof. vm_compute. repeat split. Qed.

(** ** C64 *)

(** Each kind of person is simulated once per household whose description holds them:
    household [h] of group [g] appears in the list of kind [k] as many times as [k]
    occurs in the description of the group. *)
Theorem C64_persons : forall K (keqb : K -> K -> bool), (forall a b, keqb a b = true <-> a = b) ->
  forall uniques, NoDup uniques -> forall persons sizes, length persons = length sizes ->
  (forall g ps p, at_ persons g ps -> In p ps -> In p uniques) ->
  exists hh cnt, parse_subgroups keqb uniques persons sizes = Ok (hh, cnt) /\
    length hh = length uniques /\ length cnt = length uniques /\
    forall i k, at_ uniques i k -> exists l, at_ hh i l /\ at_ cnt i (length l) /\
      (forall g ps h, at_ persons g ps -> in_group sizes g h -> persons_of h l = occurrences keqb k ps) /\
      (forall h, In h l -> (h < total_nat sizes)%nat).
Proof. exact parse_subgroups_ok. Qed.
Print Assumptions C64_persons.

(** Counting per household. *)
Theorem C64_counts : forall n hh mask, length mask = length hh -> (forall h, In h hh -> (h < n)%nat) ->
  exists out, count_in_hh n hh mask = Ok out /\ length out = n /\ forall h, (h < n)%nat -> at_ out h (marked_of h hh mask).
Proof. exact count_in_hh_ok. Qed.
Print Assumptions C64_counts.

Theorem C64_counts_mismatch : forall n hh mask, length mask <> length hh -> count_in_hh n hh mask = Err IndexError.
Proof. exact count_in_hh_err. Qed.
Print Assumptions C64_counts_mismatch.

(** get_n_doing_activity over the simulators of the persons: persons whose current
    label is the activity, in their household.  [current c] lists the labels of the
    persons of a simulator. *)
Theorem C64_doing : forall L cmp, total_order cmp -> forall n hh (subs : list (chain L)) a,
  let current (c : chain L) := map (nth_error (c_labels c)) (c_states c) in
  (forall c, In c subs -> exists p, sole_position (c_labels c) a p) ->
  length (concat (map current subs)) = length hh -> (forall h, In h hh -> (h < n)%nat) ->
  exists out, individuals_doing cmp n hh subs a = Ok out /\ length out = n /\
    forall h, (h < n)%nat -> at_ out h (length (filter
      (fun p => match fst p with Some lab => match cmp a lab with Eq => Nat.eqb h (snd p) | _ => false end | None => false end)
      (combine (concat (map current subs)) hh))).
Proof.
  intros L cmp ord n hh subs a current Ha Hl Hh. destruct (@individuals_ok L cmp ord n hh subs a Ha Hl Hh) as (out & H1 & H2 & H3).
  exists out. split; [exact H1|]. split; [exact H2|]. intros h Hlt. specialize (H3 h Hlt).
  erewrite filter_ext; [exact H3|]. intros [[x|] y]; cbn [fst snd does]; unfold Parse_Model.is_eq; [|reflexivity]. destruct (cmp a x); reflexivity.
Qed.
Print Assumptions C64_doing.

Theorem C64_unknown_activity : forall L cmp, total_order cmp -> forall (c : chain L) a, ~ In a (c_labels c) ->
  chain_doing_activity cmp c a = Err ValueError.
Proof. exact chain_doing_err. Qed.
Print Assumptions C64_unknown_activity.

(** The residents of a household are those of its subgroup. *)
Theorem C64_residents : forall residents sizes, length residents = length sizes ->
  length (expand_residents residents sizes) = total_nat sizes /\
  forall g r h, at_ residents g r -> in_group sizes g h -> at_ (expand_residents residents sizes) h r.
Proof. exact expand_residents_ok. Qed.
Print Assumptions C64_residents.

(** Occupancy bounds when nobody is both away and asleep. *)
Theorem C64_occupancy : forall residents hh m_away m_sleep away sleeping,
  length m_away = length hh -> length m_sleep = length hh -> (forall h, In h hh -> (h < length residents)%nat) ->
  (forall h r, at_ residents h r -> r = Z.of_nat (persons_of h hh)) ->
  (forall i, at_ m_away i true -> at_ m_sleep i true -> False) ->
  count_in_hh (length residents) hh m_away = Ok away -> count_in_hh (length residents) hh m_sleep = Ok sleeping ->
  length (ind_occupancy residents away) = length residents /\ length (ind_active residents away sleeping) = length residents /\
  forall h r, at_ residents h r -> exists o a, at_ (ind_occupancy residents away) h o /\ at_ (ind_active residents away sleeping) h a /\
    (0 <= a <= o /\ o <= r /\
     o = r - Z.of_nat (marked_of h hh m_away) /\ a = o - Z.of_nat (marked_of h hh m_sleep))%Z.
Proof. exact ind_active_ok. Qed.
Print Assumptions C64_occupancy.

(** Three households: two with a worker and a child, one with two workers. *)
Example C64_example :
  parse_subgroups Nat.eqb [1; 5]%nat [[5; 1]; [5; 5]]%nat [2; 1]%nat = Ok ([[0; 1]; [0; 1; 2; 2]], [2; 4])%nat /\
  count_in_hh 3 [0; 1; 0; 1; 2; 2]%nat [true; false; true; false; true; true] = Ok [2; 0; 2]%nat /\
  ind_active [2; 2; 2]%Z [1; 0; 2]%nat [1; 1; 0]%nat = [0; 1; 0]%Z /\
  expand_residents [2; 3]%Z [2; 1]%nat = [2; 2; 3]%Z /\
  individuals_doing Nat.compare 3 [0; 1; 2; 0; 1; 2]%nat
    [mkChain 2 2 [7; 8]%nat [1; 0]%nat (cyc_new []) 0; mkChain 4 2 [8; 9]%nat [0; 0; 1; 0]%nat (cyc_new []) 0] 8%nat = Ok [2; 0; 2]%nat /\
  persons_of 2 [0; 1; 2; 2]%nat = occurrences Nat.eqb 5%nat [5; 5]%nat.
Proof. vm_compute. repeat split. Qed.

(** ** C65 *)

(** After construction a time-aware sparse simulator is not at its start time but [k]
    ten-minute steps later, [k] being the slot of the start time. *)
Theorem C65_time_partial : forall new_day,
  (forall s s', new_day s = Ok s' -> sp_time s' = sp_time s /\ sp_ticks s' = sp_ticks s) ->
  forall start fuel hist s s', sp_start start new_day fuel hist s = Ok s' ->
  exists k, slots_since_4am (start mod (24 * 3600 * 1000000)) k /\ sp_ticks s' = k /\
    sp_time s' = (start + k * 600000000)%Z.
Proof. exact sp_start_time. Qed.
Print Assumptions C65_time_partial.

(** Started at 4:10, the clock is at 4:20. *)
Definition ex_stay : tpm := mkTpm [0; 1]%Z [0; 0]%Z [0; 0]%Z [1; 1] 1 144 (Some 0%Z).
Theorem C65_time_refuted : exists start new_day fuel hist s s',
  (forall s, new_day s = sp_new_day ex_stay [0%Z] s) /\
  sp_start start new_day fuel hist s = Ok s' /\ sp_time s' <> start.
Proof.
  exists 15000000000%Z, (sp_new_day ex_stay [0%Z]), 5%nat, [fun _ => 1 # 2],
    (mkSp ex_stay [0%Z] [0%Z] transit_names 0 0). eexists.
  split; [reflexivity|]. split; [vm_compute; reflexivity|]. discriminate.
Qed.
Print Assumptions C65_time_refuted.

Example C65_example :
  bind (sp_start 15000000000 (sp_new_day ex_stay [0%Z]) 5 [fun _ => 1 # 2] (mkSp ex_stay [0%Z] [0%Z] transit_names 0 0))
    (fun s => Ok (sp_time s, sp_ticks s)) = Ok (15600000000, 1)%Z.
Proof. vm_compute. reflexivity. Qed.
