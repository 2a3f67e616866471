(** * Properties of the state metrics (C51, C85, C86, C87, C88). *)

From Coq Require Import List ZArith QArith Qabs Qfield Bool Arith Lia Lqa Permutation.
From Verif Require Import Prelude PreludeFacts SpecBase SpecBaseFacts Parse_Model Parse_DurProofs Appliance_Model LoadMetric_Model LoadMetric_Proofs
  StateMetric_Model StateMetric_Spec StateMetric_DurProofs StateMetric_Proofs.
Import ListNotations.

Open Scope nat_scope.

Definition day_a := mkTable 6 [[1; 1; 2; 2; 2; 1]; [3; 3; 3; 3; 3; 3]; [1; 2; 1; 2; 3; 3]].

(** ** C51: durations *)

(** The result lists the cyclic runs of all patterns. *)
Theorem C51_runs : forall w rs, 0 < w -> boxed w rs -> (exists r, In r rs /\ varies r) -> exists rss ds ls,
  get_states_durations (mkTable w rs) = Ok (map Z.of_nat ds, ls) /\ Forall2 runs_of rs rss /\ length ls = length ds /\ Permutation (combine ls ds) (concat rss).
Proof. exact durations_main. Qed.

(** Every cell of the table is counted exactly once, in its state. *)
Theorem C51_time : forall w rs ds ls, 0 < w -> boxed w rs -> (exists r, In r rs /\ varies r) -> get_states_durations (mkTable w rs) = Ok (map Z.of_nat ds, ls) ->
  (forall s, time_in s (combine ls ds) = cells_in s (concat rs)) /\ (forall d, In d ds -> 0 < d <= w) /\ (forall s, In s ls <-> In s (concat rs)).
Proof.
  intros w rs ds ls Hw H V E. destruct (durations_main w rs Hw H V) as (rss & ds' & ls' & E' & F & L & P). rewrite E in E'. injection E' as Ed <-.
  assert (ds = ds') as <-. { clear - Ed. revert ds' Ed. induction ds as [|d ds IH]; intros [|d' ds'] Ed; try discriminate; [reflexivity|]. cbn [map] in Ed. injection Ed as E1 E2. f_equal; [lia|apply IH, E2]. }
  split; [intro s; rewrite (time_perm s _ _ P); apply all_runs_time, F|]. split; [|intro s; apply (label_iff w rs rss ls ds s H F L P)].
  intros d Hd. apply in_at in Hd. destruct Hd as (i & Hi). destruct (lt_at _ ls i) as (l & Hl); [rewrite L; apply (at_lt _ _ _ _ Hi)|].
  assert (I : In (l, d) (combine ls ds)). { clear - Hi Hl. revert ls ds Hi Hl. induction i as [|i IH]; intros [|x ls] [|y ds] Hi Hl; try discriminate.
    - injection Hi as ->. injection Hl as ->. now left. - right. apply IH; assumption. }
  apply (Permutation_in _ P) in I. apply (all_runs_pos w rs rss (l, d) H F I).
Qed.

(** The dictionary by states. *)
Theorem C51_by_states : forall w rs, 0 < w -> boxed w rs -> (exists r, In r rs /\ varies r) -> exists rss dict,
  get_durations_by_states (mkTable w rs) = Ok dict /\ Forall2 runs_of rs rss /\
  (forall s, ~ In s (concat rs) -> dget Nat.eqb dict s = None) /\
  forall s, In s (concat rs) -> exists ds, dget Nat.eqb dict s = Some (map Z.of_nat ds) /\ Permutation ds (durations_of s (concat rss)) /\ list_sum ds = cells_in s (concat rs).
Proof.
  intros w rs Hw H V. destruct (dict_main w rs Hw H V) as (rss & dict & E & F & _ & _ & N & D). exists rss, dict. split; [exact E|]. split; [exact F|]. split; [exact N|].
  intros s Hs. destruct (D s Hs) as (ds & Eq & P). exists ds. split; [exact Eq|]. split; [exact P|]. rewrite <- (all_runs_time s rs rss F), time_list_sum.
  clear - P. induction P; unfold list_sum in *; cbn [fold_right]; lia.
Qed.

(** When no pattern ever changes, there is an error instead of one duration for
    each pattern. *)
Theorem C51_all_constant_refuted : (forall w rs, (forall r x y, In r rs -> In x r -> In y r -> x = y) -> get_states_durations (mkTable w rs) = Err IndexError) /\
  exists rs runs, boxed 3 rs /\ Forall2 runs_of rs runs /\ runs <> [].
Proof.
  split.
  - intros w rs H. apply no_transition_err. intros r Hr. destruct r as [|x0 r0] eqn:E; [reflexivity|]. rewrite <- E in *. destruct (row_spec r) as [(A & _)|(_ & _ & (a & b & Ia & Ib & N) & _)]; [rewrite E; discriminate|exact A|].
    exfalso. apply N. eapply H; eassumption.
  - exists [[1; 1; 1]], [[(1, 3)]]. split; [intros r [<-|[]]; reflexivity|]. split; [|discriminate]. constructor; [|constructor]. left. exists 1. split; [discriminate|].
    split; [intros y [<-|[<-|[<-|[]]]]; reflexivity|reflexivity].
Qed.

Example C51_example : get_states_durations day_a = Ok ([3; 3; 1; 1; 1; 1; 2; 6]%Z, [2; 1; 1; 2; 1; 2; 3; 3]) /\
  get_durations_by_states day_a = Ok [(1, [3; 1; 1]%Z); (2, [3; 1; 1]%Z); (3, [2; 6]%Z)].
Proof. conj_vm. Qed.

(** ** C85: distribution of the durations *)
Theorem C85_errors : forall w rs rs', varying w rs -> varying w rs' -> (forall s, In s (concat rs) <-> In s (concat rs')) ->
  exists rss rss' out, duration_distribution_errors (mkTable w rs) (mkTable w rs') = Ok out /\ Forall2 runs_of rs rss /\ Forall2 runs_of rs' rss' /\
    enumerates (map fst out) (fun s => In s (concat rs)) /\
    forall s e, In (s, e) out -> length e = w + 1 /\
      forall t x, at_ e t x -> (x == Qabs (share t (durations_of s (concat rss)) - share t (durations_of s (concat rss'))))%Q.
Proof. exact distribution_main. Qed.

Lemma abs_share : forall t a b, a <> [] -> b <> [] -> (0 <= Qabs (share t a - share t b) <= 1)%Q.
Proof.
  intros t a b Na Nb. pose proof (share_bounds t a Na). pose proof (share_bounds t b Nb). split; [apply Qabs_nonneg|]. apply Qabs_case; intro; lra.
Qed.

(** Bounds, and zero at duration 0 and at the full day. *)
Theorem C85_bounds : forall w rs rs' out, varying w rs -> varying w rs' -> (forall s, In s (concat rs) <-> In s (concat rs')) ->
  duration_distribution_errors (mkTable w rs) (mkTable w rs') = Ok out -> forall s e t x, In (s, e) out -> at_ e t x ->
  (0 <= x <= 1)%Q /\ (t = 0 \/ t = w -> (x == 0)%Q).
Proof.
  intros w rs rs' out V V' S E s e t x I A. destruct (distribution_main w rs rs' V V' S) as (rss & rss' & out' & E' & F & F' & (_ & K) & D). rewrite E in E'. injection E' as <-.
  destruct (D s e I) as (_ & X). specialize (X t x A). assert (Hs : In s (concat rs)) by (apply K, in_map_iff; exists (s, e); auto). pose proof (proj1 (S s) Hs) as Hs'.
  pose proof (durations_of_ne s rs rss F Hs) as Na. pose proof (durations_of_ne s rs' rss' F' Hs') as Nb.
  assert (Full : forall rs rss t, boxed w rs -> Forall2 runs_of rs rss -> durations_of s (concat rss) <> [] -> t = 0 \/ t = w -> (share t (durations_of s (concat rss)) == if t =? 0 then 0 else 1)%Q).
  { clear - V. intros rs0 rss0 t B F N T. pose proof (proj1 V) as Hw. assert (Bd : forall d, In d (durations_of s (concat rss0)) -> 0 < d <= w).
    { intros d Hd. apply durations_of_in in Hd. apply (all_runs_pos w rs0 rss0 _ B F) in Hd. exact Hd. }
    unfold share. assert (P : (0 < inject_Z (Z.of_nat (length (durations_of s (concat rss0)))))%Q). { change 0%Q with (inject_Z 0). rewrite <- Zlt_Qlt. destruct (durations_of s (concat rss0)); [congruence|cbn [length]; lia]. }
    assert (L : length (filter (fun d => d <=? t) (durations_of s (concat rss0))) = if t =? 0 then 0 else length (durations_of s (concat rss0))).
    { clear P N. induction (durations_of s (concat rss0)) as [|d l IH]; [destruct (t =? 0); reflexivity|]. cbn [filter]. specialize (IH ltac:(intros; apply Bd; now right)).
      specialize (Bd d (or_introl eq_refl)). destruct T as [->| ->].
      - replace (d <=? 0) with false by (symmetry; apply Nat.leb_gt; lia). exact IH.
      - replace (d <=? w) with true by (symmetry; apply Nat.leb_le; lia). destruct (Nat.eqb_spec w 0); [lia|]. cbn [length]. rewrite IH. reflexivity. }
    rewrite L. destruct (t =? 0); [change (inject_Z (Z.of_nat 0)) with 0%Q|]; field; lra. }
  split.
  - pose proof (abs_share t _ _ Na Nb). rewrite X. exact H.
  - intro T. rewrite X. rewrite (Full rs rss t) by (auto; apply V). rewrite (Full rs' rss' t) by (auto; apply V'). destruct (t =? 0); reflexivity.
Qed.

(** A table has no distance from itself. *)
Theorem C85_self : forall w rs out, varying w rs -> duration_distribution_errors (mkTable w rs) (mkTable w rs) = Ok out ->
  forall s e t x, In (s, e) out -> at_ e t x -> (x == 0)%Q.
Proof.
  intros w rs out V E s e t x I A. unfold duration_distribution_errors in E. destruct (get_durations_by_states (mkTable w rs)) as [d|]; cbn [bind] in E; [|discriminate].
  apply mapM_ok in E. destruct E as (L & P). apply in_at in I. destruct I as (i & Hi). destruct (lt_at _ (uniq Nat.compare (map fst d ++ map fst d)) i) as (k & Hk); [rewrite <- L; apply (at_lt _ _ _ _ Hi)|].
  destruct (P i k Hk) as (q & Hq & Eq). assert (q = (s, e)) by (unfold at_ in *; congruence). subst q. unfold distribution_error in Eq.
  destruct (dict_get d k) as [a|]; cbn [bind] in Eq; [|discriminate]. rewrite Nat.eqb_refl in Eq. cbn [bind] in Eq.
  assert (Ee : e = map2 (fun x y => Qabs (x - y)) (duration_cdf a (width (mkTable w rs) + 1)) (duration_cdf a (width (mkTable w rs) + 1))) by congruence. rewrite Ee in A.
  unfold at_ in A. rewrite map2_nth in A. destruct (nth_error (duration_cdf a (width (mkTable w rs) + 1)) t) as [c|]; [|discriminate].
  assert (X : x = Qabs (c - c)) by congruence. rewrite X. setoid_replace (c - c)%Q with 0%Q by ring. reflexivity.
Qed.

(** A state that only occurs in one of the tables is an error. *)
Theorem C85_missing_state_refuted : (forall w rs rs' s, varying w rs -> varying w rs' -> (In s (concat rs) /\ ~ In s (concat rs') \/ ~ In s (concat rs) /\ In s (concat rs')) ->
  duration_distribution_errors (mkTable w rs) (mkTable w rs') = Err KeyError) /\
  exists rs rs', varying 2 rs /\ varying 2 rs' /\ In 2 (concat rs') /\ ~ In 2 (concat rs).
Proof.
  split; [exact distribution_key_error|]. exists [[0; 1]], [[0; 2]].
  split; [split; [lia|split; [intros r [<-|[]]; reflexivity|]]; exists [0; 1]; split; [now left|]; exists 0, 1; cbn; auto|].
  split; [split; [lia|split; [intros r [<-|[]]; reflexivity|]]; exists [0; 2]; split; [now left|]; exists 0, 2; cbn; auto|].
  split; [cbn; auto|]. cbn. intros [?|[?|[]]]; discriminate.
Qed.

(** The average: the documented sum over the durations 1 to T is divided by T + 1
    instead of T. *)
Theorem C85_average_partial : forall w rs rs' out avg, varying w rs -> varying w rs' -> (forall s, In s (concat rs) <-> In s (concat rs')) ->
  duration_distribution_errors (mkTable w rs) (mkTable w rs') = Ok out -> duration_distribution (mkTable w rs) (mkTable w rs') = Ok avg ->
  map fst avg = map fst out /\ forall s e m, In (s, e) out -> In (s, m) avg -> exists x, m = Some x /\ (x == total (tl e) / inject_Z (Z.of_nat (w + 1)))%Q /\ (0 <= x <= 1)%Q.
Proof.
  intros w rs rs' out avg V V' S E A. unfold duration_distribution in A. rewrite E in A. cbn [bind] in A. injection A as <-. split; [rewrite map_map; reflexivity|].
  intros s e m Ie Im. apply in_map_iff in Im. destruct Im as ([s' e'] & Q & I'). cbn [fst snd] in Q. injection Q as -> <-.
  destruct (distribution_main w rs rs' V V' S) as (rss & rss' & out' & E' & _ & _ & (ND & _) & D). rewrite E in E'. injection E' as <-.
  assert (e' = e) as ->. { clear - ND Ie I'. induction out as [|[k v] out IH]; [destruct Ie|]. cbn [map] in ND. inversion ND as [|? ? N1 N2]; subst. destruct Ie as [E1|Ie], I' as [E2|I'].
    - congruence. - injection E1 as -> ->. exfalso. apply N1. apply in_map_iff. exists (s, e'). auto. - injection E2 as -> ->. exfalso. apply N1. apply in_map_iff. exists (s, e). auto. - apply IH; assumption. }
  destruct (D s e Ie) as (L & _). assert (N : e <> []) by (intro Z; rewrite Z in L; cbn in L; lia). rewrite mean_some by exact N. eexists. split; [reflexivity|]. rewrite L.
  assert (B : forall t x, at_ e t x -> (0 <= x <= 1)%Q /\ (t = 0 \/ t = w -> (x == 0)%Q)) by (intros; eapply (C85_bounds w rs rs' out); eassumption).
  assert (P : (0 < inject_Z (Z.of_nat (w + 1)))%Q) by (change 0%Q with (inject_Z 0); rewrite <- Zlt_Qlt; lia).
  split.
  - unfold q_nat. destruct e as [|x e]; [congruence|]. cbn [tl qsum]. rewrite (total_qsum e). destruct (B 0 x eq_refl) as (_ & Z). rewrite Z by now left. field. lra.
  - unfold q_nat. split.
    + apply Qle_shift_div_l; [exact P|]. rewrite Qmult_0_l. apply qsum_nonneg, Forall_forall. intros x Hx. apply in_at in Hx. destruct Hx as (t & Ht). apply (B t x Ht).
    + apply Qle_shift_div_r; [exact P|]. rewrite Qmult_1_l, <- L. clear - B. assert (B' : forall x, In x e -> (x <= 1)%Q) by (intros x Hx; apply in_at in Hx; destruct Hx as (t & Ht); apply (B t x Ht)).
      clear B. induction e as [|x e IH]; [cbn; discriminate|]. cbn [qsum length]. rewrite Nat2Z.inj_succ. unfold Z.succ. rewrite inject_Z_plus.
      specialize (IH ltac:(intros; apply B'; now right)). specialize (B' x (or_introl eq_refl)). change (inject_Z 1) with 1%Q. lra.
Qed.

Theorem C85_average_refuted : exists sim mes e x, duration_distribution_errors sim mes = Ok [(0, e); (1, e)] /\ duration_distribution sim mes = Ok [(0, Some x); (1, Some x)] /\
  (total (tl e) / inject_Z (Z.of_nat (width mes)) == 1 # 4)%Q /\ (x == 1 # 5)%Q.
Proof.
  exists (mkTable 4 [[0; 1; 0; 1]]), (mkTable 4 [[0; 0; 1; 1]]). eexists. eexists. split; [vm_compute; reflexivity|]. split; [vm_compute; reflexivity|]. split; vm_compute; reflexivity.
Qed.

Example C85_example : exists e1 e2 e3, duration_distribution_errors day_a (mkTable 6 [[1; 1; 1; 2; 2; 3]]) = Ok [(1, e1); (2, e2); (3, e3)] /\
  map Qred e1 = [0; 2 # 3; 2 # 3; 0; 0; 0; 0]%Q /\ map Qred e2 = [0; 2 # 3; 1 # 3; 0; 0; 0; 0]%Q /\ map Qred e3 = [0; 1; 1 # 2; 1 # 2; 1 # 2; 1 # 2; 0]%Q.
Proof. eexists. eexists. eexists. split; [vm_compute; reflexivity|]. repeat split; vm_compute; reflexivity. Qed.

(** ** C86: average state *)
Theorem C86_value : forall w rs rs', 0 < w -> boxed w rs -> boxed w rs' -> rs <> [] -> rs' <> [] -> exists es m,
  average_errors (mkTable w rs) (mkTable w rs') = Ok (map Some es) /\ length es = w /\
  (forall j, j < w -> exists e, at_ es j e /\ (e == Qabs (col_mean rs j - col_mean rs' j))%Q) /\
  average_state_metric (mkTable w rs) (mkTable w rs') = Ok (Some m) /\ (m == mean_gap w rs rs')%Q.
Proof. exact average_main. Qed.

(** It is a pseudo-metric on the tables. *)
Theorem C86_metric : forall w rs rs' rs'' m n k, 0 < w -> boxed w rs -> boxed w rs' -> boxed w rs'' -> rs <> [] -> rs' <> [] -> rs'' <> [] ->
  average_state_metric (mkTable w rs) (mkTable w rs') = Ok (Some m) -> average_state_metric (mkTable w rs') (mkTable w rs'') = Ok (Some n) ->
  average_state_metric (mkTable w rs) (mkTable w rs'') = Ok (Some k) ->
  (0 <= m)%Q /\ (k <= m + n)%Q /\ (exists m', average_state_metric (mkTable w rs') (mkTable w rs) = Ok (Some m') /\ (m' == m)%Q) /\
  (exists z, average_state_metric (mkTable w rs) (mkTable w rs) = Ok (Some z) /\ (z == 0)%Q).
Proof.
  intros w a b c m n k Hw Ha Hb Hc Na Nb Nc E1 E2 E3.
  destruct (average_main w a b Hw Ha Hb Na Nb) as (_ & m1 & _ & _ & _ & F1 & Q1). destruct (average_main w b c Hw Hb Hc Nb Nc) as (_ & m2 & _ & _ & _ & F2 & Q2).
  destruct (average_main w a c Hw Ha Hc Na Nc) as (_ & m3 & _ & _ & _ & F3 & Q3). destruct (average_main w b a Hw Hb Ha Nb Na) as (_ & m4 & _ & _ & _ & F4 & Q4).
  destruct (average_main w a a Hw Ha Ha Na Na) as (_ & m5 & _ & _ & _ & F5 & Q5). destruct (gap_metric w a b c Hw) as (G1 & G2 & G3 & G4).
  rewrite F1 in E1. rewrite F2 in E2. rewrite F3 in E3. injection E1 as <-. injection E2 as <-. injection E3 as <-. rewrite Q1, Q2, Q3.
  split; [exact G1|]. split; [exact G4|]. split; [exists m4; split; [exact F4|]; rewrite Q4, Q1; symmetry; exact G3|]. exists m5. split; [exact F5|]. rewrite Q5. exact G2.
Qed.

Theorem C86_shape : forall w w' rs rs', 1 < w -> 1 < w' -> w <> w' -> average_state_metric (mkTable w rs) (mkTable w' rs') = Err ValueError.
Proof.
  intros w w' rs rs' H H' N. unfold average_state_metric, average_errors, broadcast, column_means, columns. cbn [width]. rewrite !map_length, !seq_length.
  destruct (Nat.eqb_spec w w'); [congruence|]. destruct w as [|[|w]]; [lia|lia|]. destruct w' as [|[|w']]; [lia|lia|]. reflexivity.
Qed.

Example C86_example : exists m, average_state_metric (mkTable 2 [[1; 0]; [0; 0]]%Q) (mkTable 2 [[1; 1]]%Q) = Ok (Some m) /\ (m == 3 # 4)%Q.
Proof. eexists. split; [vm_compute; reflexivity|]. vm_compute. reflexivity. Qed.

(** ** C87: graph metrics *)
Theorem C87_values : forall w rs, boxed w rs -> rs <> [] -> 2 <= w -> exists es ks nodes g, graph_metrics (mkTable w rs) = Ok g /\
  enumerates es (fun e => moves w rs (fst (fst e)) (snd (fst e)) (snd e)) /\ enumerates ks (fun s => In s (concat rs)) /\
  enumerates nodes (fun p => fst p < w /\ (visits rs (fst p) (snd p) \/ visits rs (before w (fst p)) (snd p))) /\
  network_size g = length nodes /\ network_density g = (q_nat (length es) / q_nat ((w - 1) * length ks ^ 2))%Q /\
  centrality g = (q_nat (length rs * w) / q_nat (length es))%Q /\ homophily g = (q_nat (list_sum (map (stays w) rs)) / q_nat (length rs * w))%Q.
Proof. intros w rs H N H2. apply graph_main; auto. lia. Qed.

(** The homophily is a share. *)
Theorem C87_homophily : forall w rs g, boxed w rs -> rs <> [] -> 2 <= w -> graph_metrics (mkTable w rs) = Ok g ->
  (0 <= homophily g <= 1)%Q /\ (1 <= centrality g)%Q /\ ((homophily g == 1)%Q <-> forall r x y, In r rs -> In x r -> In y r -> x = y).
Proof.
  intros w rs g H N H2 E. destruct (graph_main w rs H ltac:(lia) N H2) as (es & ks & nodes & g' & E' & EN & _ & _ & _ & _ & C & Ho). rewrite E in E'. injection E' as <-. rewrite C, Ho.
  assert (Sl : forall r, stays w r <= w). { intro r. unfold stays. transitivity (length (seq 0 w)); [|rewrite seq_length; lia]. generalize (seq 0 w). intro l. induction l as [|t l IH]; cbn [filter length]; [lia|].
    match goal with |- context [if ?b then _ else _] => destruct b end; cbn [length]; lia. }
  assert (Sum : list_sum (map (stays w) rs) <= length rs * w /\ (list_sum (map (stays w) rs) = length rs * w <-> forall r, In r rs -> stays w r = w)).
  { clear - Sl. induction rs as [|r rs [IH1 IH2]]; [cbn; split; [lia|split; [intros _ r []|reflexivity]]|]. unfold list_sum in *. cbn [map fold_right length]. pose proof (Sl r). split; [lia|]. split.
    - intros Eq q [<-|Hq]; [lia|]. apply IH2; [lia|exact Hq].
    - intro A. rewrite (A r) by now left. rewrite (proj2 IH2) by (intros; apply A; now right). lia. }
  assert (Pn : 0 < length rs * w) by (destruct rs; [congruence|cbn [length]; nia]).
  assert (P : (0 < q_nat (length rs * w))%Q) by (unfold q_nat; change 0%Q with (inject_Z 0); rewrite <- Zlt_Qlt; lia).
  assert (St : forall r, length r = w -> (stays w r = w <-> forall x y, In x r -> In y r -> x = y)).
  { intros r L. unfold stays. set (f := fun t => match nth_error r t, nth_error r (before w t) with Some a, Some b => a =? b | _, _ => false end).
    assert (A : length (filter f (seq 0 w)) = w <-> forall t, t < w -> f t = true).
    { rewrite <- (seq_length w 0) at 2. split.
      - intros Eq t Ht. assert (Hs : In t (seq 0 w)) by (apply in_seq; lia). revert Eq Hs. generalize (seq 0 w). clear. induction l as [|u l IH]; intros Eq Hs; [destruct Hs|]. cbn [filter length] in Eq.
        assert (length (filter f l) <= length l) by (clear; induction l as [|u l IH]; cbn [filter length]; [lia|destruct (f u); cbn [length]; lia]).
        destruct (f u) eqn:Fu; cbn [length] in Eq; [|lia]. destruct Hs as [<-|Hs]; [exact Fu|]. apply IH; [lia|exact Hs].
      - intro A. assert (B : forall t, In t (seq 0 w) -> f t = true) by (intros t Ht; apply in_seq in Ht; apply A; lia). revert B. generalize (seq 0 w). clear. induction l as [|u l IH]; intro B; [reflexivity|].
        cbn [filter]. rewrite (B u) by now left. cbn [length]. f_equal. apply IH. intros; apply B; now right. }
    rewrite A. unfold f. split.
    - intros Q. assert (Z : forall t x0 x, at_ r 0 x0 -> at_ r t x -> x = x0).
      { induction t as [|t IH]; intros x0 x H0 Hx; [unfold at_ in *; congruence|]. pose proof (at_lt _ _ _ _ Hx) as Lt. destruct (lt_at _ r t ltac:(lia)) as (y & Hy).
        specialize (Q (S t) ltac:(lia)). cbn [before] in Q. unfold at_ in *. rewrite Hx, Hy in Q. apply Nat.eqb_eq in Q. rewrite Q. apply IH; assumption. }
      intros x y Hx Hy. apply in_at in Hx, Hy. destruct Hx as (i & Hi), Hy as (j & Hj). destruct (lt_at _ r 0) as (x0 & H0); [pose proof (at_lt _ _ _ _ Hi); lia|].
      rewrite (Z i x0 x H0 Hi), (Z j x0 y H0 Hj). reflexivity.
    - intros Q t Ht. destruct (lt_at _ r t ltac:(lia)) as (x & Hx). destruct (lt_at _ r (before w t)) as (y & Hy); [destruct t; cbn; lia|]. pose proof (Q x y (at_in _ _ _ _ Hx) (at_in _ _ _ _ Hy)) as E2.
      unfold at_ in *. rewrite Hx, Hy, E2. apply Nat.eqb_refl. }
  split; [|split].
  - split; [apply Qle_shift_div_l|apply Qle_shift_div_r]; try exact P.
    + rewrite Qmult_0_l. unfold q_nat. change 0%Q with (inject_Z 0). rewrite <- Zle_Qle. lia.
    + rewrite Qmult_1_l. unfold q_nat. rewrite <- Zle_Qle. lia.
  - assert (Le : length es <= length rs * w).
    { destruct EN as (ND & EI). assert (X : incl es (map (fun p => (snd p, nth (before w (snd p)) (fst p) 0, nth (snd p) (fst p) 0)) (list_prod rs (seq 0 w)))).
      { intros [[t a] b] Hi. apply EI in Hi. cbn [fst snd] in Hi. destruct Hi as (Ht & r & Hr & Ha & Hb). apply in_map_iff. exists (r, t). split.
        - unfold at_ in *. cbn [fst snd]. rewrite (nth_error_nth _ _ 0 Ha), (nth_error_nth _ _ 0 Hb). reflexivity.
        - apply in_prod; [exact Hr|apply in_seq; lia]. }
      apply NoDup_incl_length in X; [|exact ND]. rewrite map_length, prod_length, seq_length in X. exact X. }
    assert (Pe : 0 < length es).
    { destruct EN as (_ & EI). destruct rs as [|r rs0]; [congruence|]. pose proof (H r (or_introl eq_refl)) as L. destruct (lt_at _ r 0 ltac:(lia)) as (b & Hb). destruct (lt_at _ r (w - 1) ltac:(lia)) as (a & Ha).
      assert (I : In (0, a, b) es) by (apply EI; cbn [fst snd]; split; [lia|]; exists r; cbn [before]; split; [now left|auto]). destruct es; [destruct I|cbn; lia]. }
    apply Qle_shift_div_l; [unfold q_nat; change 0%Q with (inject_Z 0); rewrite <- Zlt_Qlt; lia|]. rewrite Qmult_1_l. unfold q_nat. rewrite <- Zle_Qle. lia.
  - assert (Q : (q_nat (list_sum (map (stays w) rs)) / q_nat (length rs * w) == 1)%Q <-> list_sum (map (stays w) rs) = length rs * w).
    { split; intro Eq.
      - assert (Q : (q_nat (list_sum (map (stays w) rs)) == q_nat (length rs * w))%Q). { setoid_replace (q_nat (list_sum (map (stays w) rs))) with (q_nat (list_sum (map (stays w) rs)) / q_nat (length rs * w) * q_nat (length rs * w))%Q by (field; lra). rewrite Eq. ring. }
        unfold q_nat, Qeq in Q. cbn in Q. lia.
      - rewrite Eq. field. lra. }
    rewrite Q, (proj2 Sum). split; intros A r; [intros x y Hr|intro Hr]; [apply (St r (H r Hr)); apply A, Hr|apply (St r (H r Hr)); intros x y; apply A, Hr].
Qed.

(** The network size is not the number of observed pairs of time and state: the
    source nodes get the time of the end nodes. *)
Theorem C87_size_refuted : exists w rs g nodes, graph_metrics (mkTable w rs) = Ok g /\ enumerates nodes (fun p => visits rs (fst p) (snd p)) /\ length nodes = 2 /\ network_size g = 4.
Proof.
  exists 2, [[0; 1]]. eexists. exists [(0, 0); (1, 1)]. split; [vm_compute; reflexivity|]. split; [|split; reflexivity]. split; [repeat constructor; cbn; intuition discriminate|].
  intros [t a]. cbn [fst snd]. split.
  - intros [E|[E|[]]]; injection E as <- <-; exists [0; 1]; (split; [now left|reflexivity]).
  - intros (r & [<-|[]] & Ha). destruct t as [|[|t]]; unfold at_ in Ha; cbn in Ha; [injection Ha as <-; now left|injection Ha as <-; right; now left|destruct t; discriminate].
Qed.

(** The density is not a fraction of the possible connections: it can exceed one. *)
Theorem C87_density_refuted : exists t g, graph_metrics t = Ok g /\ (network_density g == 2)%Q.
Proof. exists (mkTable 2 [[0; 0]]). eexists. split; [vm_compute; reflexivity|]. vm_compute. reflexivity. Qed.

(** A single time step is an error. *)
Theorem C87_one_step_refuted : exists t, graph_metrics t = Err ZeroDivisionError.
Proof. exists (mkTable 1 [[0]; [1]]). vm_compute. reflexivity. Qed.

Example C87_example : match graph_metrics (mkTable 3 [[0; 0; 1]; [0; 1; 1]]) with Ok g => (network_size g, Qred (network_density g), Qred (centrality g), Qred (homophily g)) | Err _ => (0, 0%Q, 0%Q, 0%Q) end =
  (6, (5 # 8)%Q, (6 # 5)%Q, (1 # 3)%Q).
Proof. vm_compute. reflexivity. Qed.

(** ** C88: sparsity *)
Theorem C88_sparsity : forall l, l <> [] -> exists s, sparsity l = Some s /\ (s == q_nat (length (filter (fun x => Qle_bool x 0) l)) / q_nat (length l))%Q /\ (0 <= s <= 1)%Q /\
  ((s == 0)%Q <-> forall x, In x l -> (0 < x)%Q) /\ ((s == 1)%Q <-> forall x, In x l -> (x <= 0)%Q).
Proof. exact sparsity_spec. Qed.

Example C88_example : exists s, sparsity [0; 1 # 2; 1 # 2; 0; 0; 1]%Q = Some s /\ (s == 1 # 2)%Q.
Proof. eexists. split; [vm_compute; reflexivity|]. vm_compute. reflexivity. Qed.

Print Assumptions C51_runs.
Print Assumptions C51_time.
Print Assumptions C51_by_states.
Print Assumptions C51_all_constant_refuted.
Print Assumptions C85_errors.
Print Assumptions C85_bounds.
Print Assumptions C85_self.
Print Assumptions C85_missing_state_refuted.
Print Assumptions C85_average_partial.
Print Assumptions C85_average_refuted.
Print Assumptions C86_value.
Print Assumptions C86_metric.
Print Assumptions C86_shape.
Print Assumptions C87_values.
Print Assumptions C87_homophily.
Print Assumptions C87_size_refuted.
Print Assumptions C87_density_refuted.
Print Assumptions C87_one_step_refuted.
Print Assumptions C88_sparsity.
