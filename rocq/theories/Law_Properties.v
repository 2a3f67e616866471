(** * Properties of the probabilities of whole runs (C164 to C170).

    The uniform numbers read by a run are the coordinates of a point of the unit cube;
    [has_probability] is the volume of an event in it ([Law_Spec]). *)

From Coq Require Import String List ZArith QArith Bool Arith Lia Lqa.
From Verif Require Import Prelude PreludeFacts SpecBase SpecBaseFacts Sampling_Spec Sampling_Model Sampling_Proofs Parse_Model Sparse_Model Sparse_Spec
  Appliance_Model Activity_Model Activity_Spec Activity_SemiProofs Time_Model Sky_Model
  Law_Spec Law_Base Law_ChainProofs Law_SparseProofs Law_CountProofs Law_SemiProofs Law_SkyProofs.
Import ListNotations.

(** ** C164 *)

Theorem C164_probability_unique : forall d P p q, has_probability d P p -> has_probability d P q -> p == q.
Proof. exact prob_unique. Qed.
Print Assumptions C164_probability_unique.

Theorem C164_bounds : forall d P p, has_probability d P p -> 0 <= p /\ p <= 1.
Proof. exact prob_bounds. Qed.
Print Assumptions C164_bounds.

(** The state of household [i] after [n] steps; [us] are the draws that it reads,
    one at the start and one in each step. *)
Theorem C164_law : forall L n_hh n_st tpms (labels : list L) c0 pdf check i n j,
  tpms <> [] -> (forall t m, at_ tpms t m -> stochastic n_st m) -> length pdf = n_st -> is_pdf pdf ->
  chain_init n_hh n_st tpms labels = Ok c0 -> (i < n_hh)%nat ->
  has_probability (S n) (fun us => forall u0 hist, unit_draws u0 -> (forall k u, at_ hist k u -> unit_draws u) ->
      map (fun u => u i) (u0 :: hist) = us ->
      exists c cn, chain_start c0 pdf 0 check u0 = Ok c /\ chain_run hist c = Ok cn /\ at_ (c_states cn) i j)
    (entry (distribution tpms pdf n) j).
Proof.
  intros L n_hh n_st tpms labels c0 pdf check i n j Hne Hst Hl Hpdf Hc Hi.
  eapply prob_ext; [exact (law_one L n_hh n_st tpms labels c0 pdf check Hne Hst Hl Hpdf Hc i n j Hi)| |reflexivity].
  intros us _. cbv beta. split.
  - intros H u0 hist H1 H2 E. apply H; [split; assumption|exact E].
  - intros H u0 hist [H1 H2] E. apply H; assumption.
Qed.
Print Assumptions C164_law.

Theorem C164_distribution : forall n_st tpms pdf n, tpms <> [] -> (forall t m, at_ tpms t m -> stochastic n_st m) -> length pdf = n_st -> is_pdf pdf ->
  length (distribution tpms pdf n) = n_st /\ is_pdf (distribution tpms pdf n).
Proof.
  intros n_st tpms pdf n Hne Hst Hl Hpdf. split; [exact (distribution_length tpms pdf n_st Hl n)|exact (distribution_pdf tpms pdf n_st Hne Hst Hl Hpdf n)].
Qed.
Print Assumptions C164_distribution.

(** The states [s0 :: path] that household [i] goes through. *)
Theorem C164_path : forall L n_hh n_st tpms (labels : list L) c0 pdf check i s0 path,
  tpms <> [] -> (forall t m, at_ tpms t m -> stochastic n_st m) -> length pdf = n_st -> is_pdf pdf ->
  chain_init n_hh n_st tpms labels = Ok c0 -> (i < n_hh)%nat ->
  has_probability (S (length path)) (fun us => forall u0 hist, unit_draws u0 -> (forall k u, at_ hist k u -> unit_draws u) ->
      map (fun u => u i) (u0 :: hist) = us ->
      exists c, chain_start c0 pdf 0 check u0 = Ok c /\
        forall k s, at_ (s0 :: path) k s -> exists ck, chain_run (firstn k hist) c = Ok ck /\ at_ (c_states ck) i s)
    (entry pdf s0 * path_probability tpms 1 s0 path).
Proof.
  intros L n_hh n_st tpms labels c0 pdf check i s0 path Hne Hst Hl Hpdf Hc Hi.
  eapply prob_ext; [exact (law_path L n_hh n_st tpms labels c0 pdf check Hne Hst Hl Hpdf Hc i s0 path Hi)| |reflexivity].
  intros us _. cbv beta. split.
  - intros H u0 hist H1 H2 E. apply H; [split; assumption|exact E].
  - intros H u0 hist [H1 H2] E. apply H; assumption.
Qed.
Print Assumptions C164_path.

Definition law_tpms : list (list (list Q)) := [ [[1 # 2; 1 # 2]; [1 # 4; 3 # 4]]; [[0; 1]; [1 # 3; 2 # 3]] ].

Example C164_example :
  map Qred (distribution law_tpms [1 # 2; 1 # 2] 1) = [1 # 6; 5 # 6] /\
  map Qred (distribution law_tpms [1 # 2; 1 # 2] 2) = [7 # 24; 17 # 24] /\
  Qred (entry [1 # 2; 1 # 2] 1 * path_probability law_tpms 1 1 [0; 1; 1]%nat) = 1 # 18 /\
  (forall t m, at_ law_tpms t m -> stochastic 2 m) /\
  exists c0, chain_init 3 2 law_tpms ["a"; "b"]%string = Ok c0.
Proof.
  split; [vm_compute; reflexivity|]. split; [vm_compute; reflexivity|]. split; [vm_compute; reflexivity|]. split.
  - intros [|[|t]] m H; try (destruct t; discriminate); injection H as <-; (split; [reflexivity|]);
      intros [|[|s]] row Hr; try (destruct s; discriminate); injection Hr as <-; (split; [reflexivity|]);
      (split; [intros [|[|k]] x Hx; try (destruct k; discriminate); injection Hx as <-; vm_compute; discriminate|reflexivity]).
  - eexists. vm_compute. reflexivity.
Qed.

(** ** C165 *)

(** The draws of household [i] are the [i]-th piece of [us]. *)
Theorem C165_states : forall L n_hh n_st tpms (labels : list L) c0 pdf check n js,
  tpms <> [] -> (forall t m, at_ tpms t m -> stochastic n_st m) -> length pdf = n_st -> is_pdf pdf ->
  chain_init n_hh n_st tpms labels = Ok c0 -> length js = n_hh ->
  has_probability (n_hh * S n) (fun us => forall u0 hist, unit_draws u0 -> (forall k u, at_ hist k u -> unit_draws u) ->
      (forall i, (i < n_hh)%nat -> map (fun u => u i) (u0 :: hist) = piece (S n) i us) ->
      exists c cn, chain_start c0 pdf 0 check u0 = Ok c /\ chain_run hist c = Ok cn /\ c_states cn = js)
    (product (map (entry (distribution tpms pdf n)) js)).
Proof.
  intros L n_hh n_st tpms labels c0 pdf check n js Hne Hst Hl Hpdf Hc Hj.
  eapply prob_ext; [exact (law_joint L n_hh n_st tpms labels c0 pdf check Hne Hst Hl Hpdf Hc n js Hj)| |reflexivity].
  intros us _. cbv beta. split.
  - intros H u0 hist H1 H2 E. apply H; [split; assumption|exact E].
  - intros H u0 hist [H1 H2] E. apply H; assumption.
Qed.
Print Assumptions C165_states.

Theorem C165_paths : forall L n_hh n_st tpms (labels : list L) c0 pdf check n paths,
  tpms <> [] -> (forall t m, at_ tpms t m -> stochastic n_st m) -> length pdf = n_st -> is_pdf pdf ->
  chain_init n_hh n_st tpms labels = Ok c0 -> length paths = n_hh -> (forall i path, at_ paths i path -> length path = S n) ->
  has_probability (n_hh * S n) (fun us => forall u0 hist, unit_draws u0 -> (forall k u, at_ hist k u -> unit_draws u) ->
      (forall i, (i < n_hh)%nat -> map (fun u => u i) (u0 :: hist) = piece (S n) i us) ->
      forall i path, at_ paths i path ->
      exists c, chain_start c0 pdf 0 check u0 = Ok c /\
        forall k s, at_ path k s -> exists ck, chain_run (firstn k hist) c = Ok ck /\ at_ (c_states ck) i s)
    (product (map (fun path => match path with [] => 1 | s0 :: rest => entry pdf s0 * path_probability tpms 1 s0 rest end) paths)).
Proof.
  intros L n_hh n_st tpms labels c0 pdf check n paths Hne Hst Hl Hpdf Hc Hj Hp.
  eapply prob_ext; [exact (law_paths_joint L n_hh n_st tpms labels c0 pdf check Hne Hst Hl Hpdf Hc n paths Hj Hp)| |reflexivity].
  intros us _. cbv beta. split.
  - intros H u0 hist H1 H2 E. apply H; [split; assumption|exact E].
  - intros H u0 hist [H1 H2] E. apply H; assumption.
Qed.
Print Assumptions C165_paths.

Example C165_example :
  Qred (product (map (entry (distribution law_tpms [1 # 2; 1 # 2] 1)) [0; 1; 1]%nat)) = 25 # 216 /\
  map (fun u => bind (chain_init 2 2 law_tpms ["a"; "b"]%string) (fun c0 => bind (chain_start c0 [1 # 2; 1 # 2] 0 true (fun i => nth i (firstn 2 u) 0))
    (fun c => bind (chain_run [fun i => nth i (skipn 2 u) 0] c) (fun c => Ok (c_states c))))) [[0; 1 # 2; 0; 0]; [3 # 4; 0; 1 # 2; 1 # 3]]
    = [Ok [1; 0]; Ok [1; 1]]%nat.
Proof. split; vm_compute; reflexivity. Qed.

(** ** C166 *)

(** Household [i] is in state [x]; the simulator's draws are 1 minus a uniform number
    of [0,1). *)
Theorem C166_law : forall p states inc nd fuel s i x n y,
  n_times p <> 0%Z -> parallel p -> (forall t, ordered_by_origin p t) -> NoDup states ->
  (forall t z, In z states -> stochastic_row p (t mod n_times p) z) ->
  (forall t z y, In z states -> In y (map fst (row_of p (t mod n_times p) z)) -> In y states) ->
  sp_tpm s = p -> (forall z, In z (sp_states s) -> In z states) -> at_ (sp_states s) i x ->
  has_probability n (fun us => forall hist, (forall k u j, at_ hist k u -> 0 < u j /\ u j <= 1) ->
      eqQ_list (map (fun u => 1 - u i) hist) us ->
      exists s', sp_run false inc nd (S fuel) hist s = Ok s' /\ at_ (sp_states s') i y)
    (sparse_law (fun t z => row_of p (t mod n_times p) z) states n (sp_ticks s) x y).
Proof. intros p states inc nd fuel s i x n y H1 H2 H3 H4 H5 H6. exact (sparse_law_one p states H1 H2 H3 H4 H5 H6 inc nd fuel s i x n y). Qed.
Print Assumptions C166_law.

(** All households together: the [i]-th piece of [us] holds the draws of household
    [i]. *)
Theorem C166_joint : forall p states inc nd fuel s n ys,
  n_times p <> 0%Z -> parallel p -> (forall t, ordered_by_origin p t) -> NoDup states ->
  (forall t z, In z states -> stochastic_row p (t mod n_times p) z) ->
  (forall t z y, In z states -> In y (map fst (row_of p (t mod n_times p) z)) -> In y states) ->
  sp_tpm s = p -> (forall z, In z (sp_states s) -> In z states) -> List.length ys = List.length (sp_states s) ->
  has_probability (List.length ys * n) (fun us => forall hist, (forall k u j, at_ hist k u -> 0 < u j /\ u j <= 1) -> List.length hist = n ->
      (forall i, (i < List.length ys)%nat -> eqQ_list (map (fun u => 1 - u i) hist) (piece n i us)) ->
      exists s', sp_run false inc nd (S fuel) hist s = Ok s' /\ sp_states s' = ys)
    (product (map (fun xy => sparse_law (fun t z => row_of p (t mod n_times p) z) states n (sp_ticks s) (fst xy) (snd xy)) (combine (sp_states s) ys))).
Proof. intros p states inc nd fuel s n ys H1 H2 H3 H4 H5 H6. exact (sparse_law_joint p states H1 H2 H3 H4 H5 H6 inc nd fuel s n ys). Qed.
Print Assumptions C166_joint.

Example C166_example :
  let rows (t x : Z) := if (t mod 2 =? 0)%Z then [(5%Z, 1 # 4); (9%Z, 3 # 4)] else [((14 - x)%Z, 1)] in
  map (fun y => Qred (sparse_law rows [5; 9]%Z 3 0 5 y)) [5; 9; 7]%Z = [1 # 4; 3 # 4; 0] /\
  map (fun y => Qred (sparse_law rows [5; 9]%Z 2 0 5 y)) [5; 9]%Z = [3 # 4; 1 # 4].
Proof. split; vm_compute; reflexivity. Qed.

(** ** C167 *)

Theorem C167_binomial : forall n pdf g p k, pdf <> [] -> is_pdf pdf -> at_ pdf g p ->
  has_probability n (fun us => exists counts, sample_population n pdf MonteCarlo us = Ok counts /\ at_ counts g k) (binomial n k p).
Proof. exact population_binomial. Qed.
Print Assumptions C167_binomial.

(** The subgroups drawn one after the other. *)
Theorem C167_assignment : forall pdf gs, pdf <> [] -> is_pdf pdf ->
  has_probability (length gs) (fun us => mc_from_1d_pdf pdf us = Ok gs) (product (map (entry pdf) gs)).
Proof. exact assignment_law. Qed.
Print Assumptions C167_assignment.

Example C167_example :
  map (fun k => Qred (binomial 3 k (1 # 4))) [0; 1; 2; 3; 4]%nat = [27 # 64; 27 # 64; 9 # 64; 1 # 64; 0] /\
  sample_population 3 [1 # 4; 3 # 4] MonteCarlo [1 # 8; 1 # 2; 0] = Ok [2; 1]%nat /\
  Qred (product (map (entry [1 # 4; 3 # 4]) [0; 1; 0]%nat)) = 3 # 64.
Proof. repeat split; vm_compute; reflexivity. Qed.

(** ** C168 *)

(** The number of households with appliance [a]; [us] is the column of draws of the
    appliance. *)
Theorem C168_ownership : forall n eqd a p k, at_ eqd a p -> 0 <= p -> p <= 1 ->
  has_probability n (fun us => forall u, (forall h j, 0 <= u h j /\ u h j < 1) -> map (fun h => u h a) (seq 0 n) = us ->
      exists own, sample_available_appliances Basic u n eqd = Ok own /\ length (filter (fun row => nth a row false) own) = k)
    (binomial n k p).
Proof. exact ownership_binomial. Qed.
Print Assumptions C168_ownership.

(** Who owns which appliance: independent for households and appliances. *)
Theorem C168_owners : forall n eqd m, List.length m = n -> (forall j p, at_ eqd j p -> 0 <= p /\ p <= 1) ->
  (forall h bs, at_ m h bs -> List.length bs = List.length eqd) ->
  has_probability (n * List.length eqd) (fun us => forall u, (forall h j, 0 <= u h j /\ u h j < 1) ->
      (forall h, (h < n)%nat -> map (u h) (seq 0 (List.length eqd)) = piece (List.length eqd) h us) -> sample_available_appliances Basic u n eqd = Ok m)
    (product (map (fun bs => pattern bs eqd) m)).
Proof. exact ownership_matrix. Qed.
Print Assumptions C168_owners.

(** Which appliances a step draws to switch on: [probs] holds the probabilities of all
    households and appliances, [m] the outcome. *)
Theorem C168_switch_on : forall d probs m, length m = length probs ->
  (forall h row, at_ probs h row -> length row = d /\ forall j p, at_ row j p -> 0 <= p /\ p <= 1) ->
  (forall h bs, at_ m h bs -> length bs = d) ->
  has_probability (length probs * d) (fun us => forall u, (forall h j, 0 <= u h j /\ u h j < 1) ->
      (forall h, (h < length probs)%nat -> map (u h) (seq 0 d) = piece d h us) -> draw_below u probs = m)
    (product (map (fun br => pattern (fst br) (snd br)) (combine m probs))).
Proof. exact trials_matrix. Qed.
Print Assumptions C168_switch_on.

Example C168_example :
  sample_available_appliances Basic (fun h a => nth (2 * h + a) [1 # 8; 1 # 2; 1 # 3; 9 # 10] 0) 2 [1 # 4; 3 # 4] = Ok [[true; true]; [false; false]] /\
  draw_below (fun h j => nth (2 * h + j) [1 # 8; 1 # 2; 1 # 3; 9 # 10] 0) [[1 # 4; 1 # 5]; [1 # 2; 1]] = [[true; false]; [true; true]] /\
  Qred (product (map (fun br => pattern (fst br) (snd br)) (combine [[true; false]; [true; true]] [[1 # 4; 1 # 5]; [1 # 2; 1]]))) = 1 # 10.
Proof. repeat split; vm_compute; reflexivity. Qed.

(** ** C169 *)

(** [c] and [rest] give, at the start and after each step, the pairs (state, steps
    left) of all households.  A step reads the draws of the states of all households and
    then those of their durations. *)
Theorem C169_law : forall L n_hh n_st tpms (labels : list L) c0 d pdf sdurs check c rest,
  tpms <> [] -> (forall t m, at_ tpms t m -> stochastic n_st m) -> dur_valid n_st (tables_of d) ->
  length pdf = n_st -> is_pdf pdf -> length sdurs = n_st -> (forall x row, at_ sdurs x row -> is_pdf row) ->
  chain_init n_hh n_st tpms labels = Ok c0 ->
  length c = n_hh -> (forall k c', at_ rest k c' -> length c' = n_hh) ->
  (forall x l, In (x, l) c -> (x < n_st)%nat) -> (forall k c' x l, at_ rest k c' -> In (x, l) c' -> (x < n_st)%nat) ->
  has_probability (S (length rest) * (n_hh + n_hh)) (fun us => forall u v hist,
      unit_draws u -> unit_draws v -> (forall k uv, at_ hist k uv -> unit_draws (fst uv) /\ unit_draws (snd uv)) -> length hist = length rest ->
      map u (seq 0 n_hh) ++ map v (seq 0 n_hh) = piece (n_hh + n_hh) 0 us ->
      (forall k uv, at_ hist k uv -> map (fst uv) (seq 0 n_hh) ++ map (snd uv) (seq 0 n_hh) = piece (n_hh + n_hh) (S k) us) ->
      exists s, semi_start c0 d pdf sdurs 0 check u v = Ok s /\ combine (c_states (s_chain s)) (s_left s) = c /\
        forall k c', at_ rest k c' -> exists sk, semi_run (firstn (S k) hist) s = Ok sk /\ combine (c_states (s_chain sk)) (s_left sk) = c')
    (product (map (semi_begin pdf sdurs) c) * semi_path tpms (tables_of d) 1 c rest).
Proof.
  intros L n_hh n_st tpms labels c0 d pdf sdurs check c rest H1 H2 H3 H4 H5 H6 H7 H8 H9 H10 H11 H12.
  exact (semi_joint d H1 H2 H3 labels check H4 H5 H6 H7 H8 c H9 H10 H11 H12).
Qed.
Print Assumptions C169_law.

(** One household whose episodes, after the first in state [x] of duration [e], are
    [eps]: an episode of duration [e] lasts [max 1 e] steps. *)
Theorem C169_episodes : forall tpms d pdf sdurs x e eps,
  product (map (semi_begin pdf sdurs) [(x, (Z.of_nat e - 1)%Z)]) *
    semi_path tpms d 1 [(x, (Z.of_nat e - 1)%Z)]
      (map (fun p => [p]) (episode_tail x e ++ concat (map (fun xe => episode_pairs (fst xe) (snd xe)) eps))) ==
  entry pdf x * entry (nth x sdurs []) e * episodes_probability tpms d (Nat.max 1 e) x eps.
Proof. exact episodes_whole. Qed.
Print Assumptions C169_episodes.

Example C169_example :
  let durs := ByNew [ [[0; 1 # 3; 2 # 3]; [0; 0; 0; 1]] ] in
  Qred (product (map (semi_begin [1 # 4; 3 # 4] [[0; 0; 1]; [0; 1]]) [(0%nat, 1%Z); (1%nat, 0%Z)]) *
    semi_path law_tpms durs 1 [(0%nat, 1%Z); (1%nat, 0%Z)] [[(0%nat, 0%Z); (0%nat, 1%Z)]; [(1%nat, 2%Z); (0%nat, 0%Z)]]) = 1 # 48 /\
  episode_pairs 1 3 = [(1%nat, 2%Z); (1%nat, 1%Z); (1%nat, 0%Z)] /\ episode_pairs 1 0 = [(1%nat, (-1)%Z)] /\
  Qred (episodes_probability law_tpms durs 1 1 [(0, 2); (1, 3); (0, 1)]%nat) = 1 # 54 /\
  bind (chain_init 2 2 law_tpms [10; 20]%nat) (fun c0 =>
    bind (semi_start c0 (Pdf3 [ [[0; 1 # 3; 2 # 3]; [0; 0; 0; 1]] ]) [1 # 4; 3 # 4] [[0; 0; 1]; [0; 1]] 0 true
      (fun i => nth i [1 # 8; 1 # 2] 0) (fun _ => 1 # 2))
    (fun s => bind (semi_run [(fun _ => 1 # 4, fun _ => 1 # 2)] s) (fun s => Ok (combine (c_states (s_chain s)) (s_left s))))) =
    Ok [(0%nat, 0%Z); (0%nat, 1%Z)].
Proof. repeat split; vm_compute; reflexivity. Qed.

(** ** C170 *)

(** After [n] steps of a simulator that started at [start]; since midnight it has made
    the steps of the part of the day before [start] too. *)
Theorem C170_law : forall m n_st values initial start step n k y,
  stochastic n_st m -> clearness_index values initial = Ok k -> (k < n_st)%nat -> (0 < step)%Z ->
  let d := (Z.to_nat (start mod us_per_day / step) + n)%nat in
  has_probability d (fun us => forall u, (forall t, 0 <= u t /\ u t < 1) ->
      map (fun i => u (start - start mod us_per_day + start mod us_per_day mod step + Z.of_nat i * step)%Z) (seq 0 d) = us ->
      exists s, bind (make_sky m values initial start step u) (iterate n (sky_step (map cumsum m) u)) = Ok s /\
        now s = (start + Z.of_nat n * step)%Z /\ user s = y)
    (power_entry m d k y).
Proof. intros m n_st values initial start step n k y H1 H2 H3 H4. exact (sky_law m n_st H1 values initial start step n k y H2 H3 H4). Qed.
Print Assumptions C170_law.

(** The initial clearness is the first of the equal values. *)
Theorem C170_index : forall values initial,
  match clearness_index values initial with
  | Ok k => exists v, at_ values k v /\ v == initial /\ forall j w, (j < k)%nat -> at_ values j w -> ~ w == initial
  | Err e => e = IndexError /\ forall j w, at_ values j w -> ~ w == initial
  end.
Proof.
  intros values initial. unfold clearness_index, where_true.
  assert (G : forall a, match where_from a (map (fun v => Qeq_bool v initial) values) with
    | k :: _ => (a <= k)%nat /\ exists v, at_ values (k - a) v /\ v == initial /\ forall j w, (j < k - a)%nat -> at_ values j w -> ~ w == initial
    | [] => forall j w, at_ values j w -> ~ w == initial
    end).
  { induction values as [|v values IH]; intros a; cbn [map where_from]; [intros j w H; destruct j; discriminate|].
    destruct (Qeq_bool v initial) eqn:E.
    - apply Qeq_bool_iff in E. split; [lia|]. rewrite Nat.sub_diag. exists v. split; [reflexivity|]. split; [exact E|]. intros j w Hj. lia.
    - assert (N : ~ v == initial) by (intros H; apply Qeq_bool_iff in H; congruence). specialize (IH (S a)).
      destruct (where_from (S a) (map (fun v => Qeq_bool v initial) values)) as [|k l].
      + intros [|j] w H; [injection H as <-; exact N|exact (IH j w H)].
      + destruct IH as (Hk & x & H1 & H2 & H3). split; [lia|]. exists x.
        replace (k - a)%nat with (S (k - S a)) by lia. split; [exact H1|]. split; [exact H2|].
        intros [|j] w Hj H; [injection H as <-; exact N|apply (H3 j w); [lia|exact H]]. }
  specialize (G O). destruct (where_from 0 (map (fun v => Qeq_bool v initial) values)) as [|k l].
  - split; [reflexivity|exact G].
  - destruct G as (_ & v & G). rewrite Nat.sub_0_r in G. exists v. exact G.
Qed.
Print Assumptions C170_index.

(** The simulator starts with the given clearness when it starts within one step of
    midnight. *)
Theorem C170_start_partial : forall m n_st values initial start step u k,
  stochastic n_st m -> clearness_index values initial = Ok k -> (start mod us_per_day < step)%Z ->
  exists s v, make_sky m values initial start step u = Ok s /\ now s = start /\ get_current_clearness values s = Ok v /\ v == initial.
Proof.
  intros m n_st values initial start step u k Hst Hk Hs. assert (B := Z.mod_pos_bound start us_per_day eq_refl).
  assert (I := C170_index values initial). rewrite Hk in I. destruct I as (v & Hv & E & _).
  assert (M := make_sky_eq m n_st Hst values initial start step u k Hk ltac:(lia)).
  rewrite Z.div_small in M by lia. cbn [Z.to_nat iterate] in M. eexists. exists v. split; [exact M|].
  split; [cbn [now]; rewrite (Z.mod_small (start mod us_per_day) step) by lia; lia|].
  split; [|exact E]. unfold get_current_clearness, get_at. cbn [user]. unfold at_ in Hv. rewrite Hv. reflexivity.
Qed.
Print Assumptions C170_start_partial.

(** Otherwise not: here the clearness changes for certain in each step and the start
    is one step after midnight. *)
Theorem C170_start_refuted : exists m values initial start step u s v,
  stochastic 2 m /\ (forall t, 0 <= u t /\ u t < 1) /\ make_sky m values initial start step u = Ok s /\ now s = start /\
  get_current_clearness values s = Ok v /\ ~ v == initial.
Proof.
  exists [[0; 1]; [1; 0]], [1 # 5; 1], 1, 60000000%Z, 60000000%Z, (fun _ => 0).
  eexists. exists (1 # 5). split.
  { split; [reflexivity|]. intros [|[|s]] row Hr; try (destruct s; discriminate); injection Hr as <-; (split; [reflexivity|]);
      (split; [intros [|[|k]] x Hx; try (destruct k; discriminate); injection Hx as <-; vm_compute; discriminate|reflexivity]). }
  split; [intros _; lra|]. split; [vm_compute; reflexivity|]. split; [reflexivity|]. split; [reflexivity|]. intros H. vm_compute in H. discriminate.
Qed.
Print Assumptions C170_start_refuted.

Example C170_example :
  map (fun y => Qred (power_entry [[1 # 2; 1 # 2]; [1 # 4; 3 # 4]] 2 0 y)) [0; 1; 2]%nat = [3 # 8; 5 # 8; 0] /\
  bind (make_sky [[1 # 2; 1 # 2]; [1 # 4; 3 # 4]] [1 # 5; 1] (1 # 5) 120000000 60000000 (fun t => if (t =? 0)%Z then 2 # 3 else 1 # 8))
    (fun s => Ok (now s, user s)) = Ok (120000000%Z, 0%nat) /\
  clearness_index [1 # 5; 1] (1 # 3) = Err IndexError.
Proof. repeat split; vm_compute; reflexivity. Qed.
