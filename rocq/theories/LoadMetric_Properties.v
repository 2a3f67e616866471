(** * Properties of the load metrics (C52, C53, C83, C84). *)

From Coq Require Import List ZArith QArith Qabs Qfield Bool Lia Lqa Permutation.
From Verif Require Import Prelude PreludeFacts SpecBase SpecBaseFacts Parse_Model LoadMetric_Model LoadMetric_Spec LoadMetric_Proofs.
Import ListNotations.

Open Scope Q_scope.

Definition three := mkTable 3 [[1; 3; 2]; [4; 0; 1]; [2; 2; 2]].

(** ** C52: diversity and coincidence *)

(** What is computed. *)
Theorem C52_value : forall w rs, box w rs -> (0 < w)%nat -> exists ms a, Forall2 peak rs ms /\ peak_together w rs a /\
  (0 < a -> diversity_factor (mkTable w rs) = Ok (Some (qsum ms / a))) /\ (a == 0 -> diversity_factor (mkTable w rs) = Ok None).
Proof.
  intros w rs H Hw. destruct (diversity_val w rs H Hw) as (ms & a & F & P & E). exists ms, a. split; [exact F|]. split; [exact P|]. rewrite E. split.
  - intro L. rewrite q_div_pos by exact L. reflexivity.
  - intro Z. unfold q_div. apply Qeq_bool_iff in Z. rewrite Z. reflexivity.
Qed.

(** Bounds, inverse, and when they are one. *)
Theorem C52_bounds : forall w rs r x, box w rs -> (forall q y, In q rs -> In y q -> 0 <= y) -> In r rs -> In x r -> 0 < x ->
  exists d c, diversity_factor (mkTable w rs) = Ok (Some d) /\ coincidence_factor (mkTable w rs) = Ok (Some c) /\ simultaneity_factor (mkTable w rs) = Ok (Some c) /\
    1 <= d /\ d <= count_of (length rs) /\ c == 1 / d /\ 0 < c /\ c <= 1 /\ (d == 1 <-> coincide w rs) /\ (c == 1 <-> coincide w rs).
Proof.
  intros w rs r x H Pos Hr Hx Px.
  assert (Hw : (0 < w)%nat) by (rewrite <- (H r Hr); destruct r; [destruct Hx|simpl; lia]).
  destruct (diversity_val w rs H Hw) as (ms & a & F & ((j & Hj & Ej) & Pa) & E).
  destruct (together_pos w rs r x H Pos Hr Hx Px) as (k & Hk & Lk). pose proof (Pa k Hk) as La. assert (A0 : 0 < a) by lra.
  rewrite (q_div_pos _ _ A0) in E. set (d := qsum ms / a) in *.
  assert (D1 : 1 <= d). { unfold d. apply Qle_shift_div_l; [exact A0|]. pose proof (sum_peaks_ge w j rs ms H Hj F). lra. }
  assert (D2 : d <= count_of (length rs)). { unfold d. apply Qle_shift_div_r; [exact A0|]. apply (sum_peaks_le w); auto. lra. }
  assert (Dd : d == 1 <-> coincide w rs).
  { assert (X : d == 1 <-> qsum ms == a). { unfold d. split; intro Hq; [|rewrite Hq; field; lra]. setoid_replace (qsum ms) with (qsum ms / a * a) by (field; lra). rewrite Hq. ring. }
    rewrite X. split; intro Hq.
    - exists j. split; [exact Hj|]. apply (sum_peaks_eq w j rs ms H Hj F). lra.
    - destruct Hq as (i & Hi & Q). pose proof (sum_peaks_conv w i rs ms H Hi F Q). pose proof (Pa i Hi). pose proof (sum_peaks_ge w j rs ms H Hj F). lra. }
  exists d, (1 / d). assert (C : coincidence_factor (mkTable w rs) = Ok (Some (1 / d))) by (unfold coincidence_factor; rewrite E; cbn [bind]; rewrite q_div_pos by lra; reflexivity).
  split; [exact E|]. split; [exact C|]. split; [exact C|]. split; [exact D1|]. split; [exact D2|]. split; [reflexivity|].
  split; [apply Qlt_shift_div_l; lra|]. split; [apply Qle_shift_div_r; lra|]. split; [exact Dd|]. rewrite <- Dd. split; intro Hq.
  - setoid_replace d with (/ (1 / d)) by (field; lra). rewrite Hq. reflexivity.
  - rewrite Hq. reflexivity.
Qed.

(** Without time steps there is no maximum. *)
Theorem C52_empty : forall rs, box 0 rs -> diversity_factor (mkTable 0 rs) = Err ValueError.
Proof.
  intros rs H. unfold diversity_factor. cbn [rows]. destruct rs as [|r rs]; [reflexivity|]. specialize (H r (or_introl eq_refl)).
  destruct r; [reflexivity|discriminate].
Qed.

Example C52_example : box 3 (rows three) /\ diversity_factor three = Ok (Some ((3 + (4 + (2 + 0))) / 7)) /\ coincide 3 [[1; 3]; [0; 2]] /\
  diversity_factor (mkTable 2 [[1; 3]; [0; 2]]) = Ok (Some ((3 + (2 + 0)) / 5)).
Proof.
  split; [intros r [<-|[<-|[<-|[]]]]; reflexivity|]. split; [vm_compute; reflexivity|]. split; [|vm_compute; reflexivity].
  exists 1%nat. split; [lia|]. intros r x [<-|[<-|[]]] [<-|[<-|[]]]; vm_compute; discriminate.
Qed.

(** ** C53: load duration *)
Theorem C53_counts : forall w rs loads, exists ls ds, load_duration (TwoD (mkTable w rs)) loads = Ok (ls, ds) /\
  length ds = length rs /\ sorted_up ls /\ (forall l, loads = Some l -> Permutation ls l) /\
  (loads = None -> strictly_up ls /\ (forall x, In x ls -> In x (concat rs)) /\ (forall x, In x (concat rs) -> exists y, In y ls /\ y == x)) /\
  forall k r d, at_ rs k r -> at_ ds k d -> length d = length ls /\
    forall i x, at_ ls i x -> exists n, at_ d i n /\ how_many (fun y => x <= y) r n.
Proof.
  intros w rs loads. unfold load_duration. cbn [rows]. eexists. eexists. split; [reflexivity|]. split; [apply map_length|].
  split; [destruct loads; apply up_sorted, np_sort_up|]. split; [intros l ->; apply np_sort_perm|]. split.
  - intros ->. destruct (np_unique_spec (concat rs)) as (A & B & C). rewrite (sort_sup _ A). split; [apply sup_strict, A|]. auto.
  - intros k r d Hr Hd. unfold at_ in Hd. rewrite nth_error_map in Hd. unfold at_ in Hr. rewrite Hr in Hd. injection Hd as <-. split; [apply map_length|].
    intros i x Hx. eexists. split; [unfold at_; rewrite nth_error_map; unfold at_ in Hx; rewrite Hx; reflexivity|]. apply count_how_many. intros y _. apply Qleb_le.
Qed.

(** Durations never increase with the load, and the smallest load of the
    profiles is exceeded all the time. *)
Theorem C53_curve : forall w rs loads ls ds k r d, load_duration (TwoD (mkTable w rs)) loads = Ok (ls, ds) -> at_ rs k r -> at_ ds k d ->
  (forall i n m, at_ d i n -> at_ d (S i) m -> (m <= n)%nat) /\
  (forall i x n, at_ ls i x -> at_ d i n -> (forall y, In y r -> x <= y) -> n = length r) /\
  (loads = None -> forall n, at_ d 0 n -> n = length r).
Proof.
  intros w rs loads ls ds k r d H Hr Hd. destruct (C53_counts w rs loads) as (ls' & ds' & E & _ & S & _ & N & C). rewrite H in E. injection E as <- <-.
  destruct (C k r d Hr Hd) as (L & K). clear C.
  assert (A : forall i n, at_ d i n -> exists x, at_ ls i x /\ how_many (fun y => x <= y) r n).
  { intros i n Hn. assert (Hi : (i < length ls)%nat) by (rewrite <- L; apply (at_lt _ _ _ _ Hn)). apply lt_at in Hi. destruct Hi as [x Hx].
    destruct (K i x Hx) as (m & Hm & Q). exists x. split; [exact Hx|]. assert (m = n) as <- by (unfold at_ in *; congruence). exact Q. }
  assert (B : forall i x n, at_ ls i x -> at_ d i n -> (forall y, In y r -> x <= y) -> n = length r).
  { intros i x n Hx Hn Hy. destruct (K i x Hx) as (m & Hm & Q). assert (m = n) as <- by (unfold at_ in *; congruence).
    apply (how_many_unique _ _ _ _ Q). apply how_many_all. exact Hy. }
  split; [|split; [exact B|]].
  - intros i n m Hn Hm. destruct (A _ _ Hn) as (x & Hx & Qx). destruct (A _ _ Hm) as (y & Hy & Qy). specialize (S i x y Hx Hy).
    refine (how_many_mono _ _ _ _ _ _ Qy Qx). intros z _ Hz. cbn beta in *. lra.
  - intros -> n Hn. destruct (N eq_refl) as (N1 & N2 & N3). destruct (A _ _ Hn) as (x & Hx & _). apply (B 0%nat x n Hx Hn). intros y Hy.
    destruct (N3 y) as (z & Hz & Ez). { apply in_concat. exists r. split; [eapply at_in; exact Hr|exact Hy]. }
    apply in_at in Hz. destruct Hz as [j Hj]. rewrite <- Ez. clear - S Hx Hj. revert z Hj. induction j as [|j IH]; intros z Hj.
    + unfold at_ in *. assert (x = z) by congruence. subst. lra.
    + destruct (lt_at _ ls j) as [u Hu]; [pose proof (at_lt _ _ _ _ Hj); lia|]. specialize (IH u Hu). specialize (S j u z Hu Hj). lra.
Qed.

(** One dimensional profiles are announced but fail. *)
Theorem C53_one_profile_refuted : exists l loads, load_duration (OneD l) loads = Err IndexError /\
  exists r, load_duration (TwoD (mkTable (length l) [l])) loads = Ok r.
Proof. exists [1; 2], None. split; [reflexivity|]. eexists. reflexivity. Qed.

Example C53_example : load_duration (TwoD three) None = Ok ([0; 1; 2; 3; 4], [[3; 3; 2; 1; 0]; [3; 2; 1; 1; 1]; [3; 3; 3; 0; 0]]%nat) /\
  load_duration (TwoD three) (Some [3; 1]) = Ok ([1; 3], [[3; 1]; [2; 1]; [3; 0]]%nat).
Proof. conj_vm. Qed.

(** ** C83: energy, units and coincident demand *)
Theorem C83_energy : forall w rs s, length (total_energy_consumed (mkTable w rs) s) = length rs /\
  (forall k r e, at_ rs k r -> at_ (total_energy_consumed (mkTable w rs) s) k e -> e == total r * s) /\
  (box w rs -> total (total_energy_consumed (mkTable w rs) s) == total (map (together rs) (seq 0 w)) * s).
Proof.
  intros w rs s. unfold total_energy_consumed. cbn [rows]. split; [apply map_length|]. split.
  - intros k r e Hr He. unfold at_ in *. rewrite nth_error_map, Hr in He. injection He as <-. rewrite (total_qsum r). reflexivity.
  - intro H. rewrite (total_qsum (map (fun r => qsum r * s) rs)), (total_qsum (map (together rs) (seq 0 w))).
    rewrite <- (map_map qsum (fun x => x * s)), qsum_map_scale. apply Qmult_comp; [|reflexivity].
    rewrite (qsum_ext _ (together rs) (fun j => qsum (map (fun r => nth j r 0) rs))) by (intros; apply together_qsum).
    induction rs as [|r rs IH]; cbn [map qsum].
    + symmetry. apply qsum_zero, Forall_forall. intros x Hx. apply in_map_iff in Hx. destruct Hx as (j & <- & _). reflexivity.
    + rewrite (qsum_map_add _ (fun j => nth j r 0) (fun j => qsum (map (fun q => nth j q 0) rs))). rewrite IH by (intros q Hq; apply H; now right).
      apply Qplus_comp; [|reflexivity]. specialize (H r (or_introl eq_refl)). subst w. clear.
      assert (E : map (fun j => nth j r 0) (seq 0 (length r)) = r); [|rewrite E; reflexivity].
      induction r as [|x r IH]; [reflexivity|]. cbn [length seq map nth]. f_equal. rewrite <- seq_shift, map_map. exact IH.
Qed.

Theorem C83_units : forall x, joules_to_kwh (kwh_to_joules x) == x /\ kwh_to_joules (joules_to_kwh x) == x /\ joules_to_kwh 3600000 == 1.
Proof. intro x. unfold joules_to_kwh, kwh_to_joules. split; [field|]. split; [field|reflexivity]. Qed.

(** The coincident demand is the peak of all profiles together per profile; it
    times the diversity factor is the mean peak. *)
Theorem C83_coincident : forall w rs, box w rs -> (0 < w)%nat -> rs <> [] -> exists m a, time_coincident_demand (mkTable w rs) = Ok (Some m) /\
  peak_together w rs a /\ m == a / count_of (length rs) /\
  forall d, diversity_factor (mkTable w rs) = Ok (Some d) -> exists ms, Forall2 peak rs ms /\ m * d == total ms / count_of (length rs).
Proof.
  intros w rs H Hw Hne. assert (N : 0 < count_of (length rs)). { unfold count_of. change 0 with (inject_Z 0). rewrite <- Zlt_Qlt. destruct rs; [congruence|simpl; lia]. }
  destruct (agg_peak w rs H Hw) as (a & Ea & P). unfold time_coincident_demand. cbn [rows]. destruct rs as [|r0 rs0] eqn:Er; [congruence|]. rewrite <- Er in *. clear Hne.
  set (n := inject_Z (Z.of_nat (length rs))). change (count_of (length rs)) with n in *.
  destruct (np_max_spec (map (fun c => qsum c / n) (columns (mkTable w rs)))) as (m & Em & (x & Hx & Ex) & M).
  { unfold columns. cbn [width]. destruct w; [lia|discriminate]. }
  rewrite Em. cbn [bind]. exists m, a. split; [reflexivity|]. split; [exact P|].
  assert (Mm : m == a / n).
  { assert (Pa : peak (aggregated (mkTable w rs)) a).
    { destruct (np_max_spec (aggregated (mkTable w rs))) as (a' & Ea' & Pa'); [unfold aggregated, columns; cbn [width]; destruct w; [lia|discriminate]|]. rewrite Ea in Ea'. injection Ea' as <-. exact Pa'. }
    unfold aggregated in Pa. destruct Pa as ((y & Hy & Ey) & Pa). apply in_map_iff in Hx, Hy. destruct Hx as (c & Ec & Hc). destruct Hy as (c' & Ec' & Hc').
    assert (L1 : x <= a / n). { rewrite <- Ec. apply Qle_shift_div_l; [exact N|]. setoid_replace (qsum c / n * n) with (qsum c) by (field; lra). apply Pa. apply in_map. exact Hc. }
    assert (L2 : a / n <= m). { rewrite <- Ey, <- Ec'. apply M. apply in_map_iff. exists c'. auto. }
    lra. }
  split; [exact Mm|]. intros d Hd. destruct (diversity_val w rs H Hw) as (ms & a' & F & P' & E). exists ms. split; [exact F|]. rewrite E in Hd. injection Hd as Hd.
  assert (a == a'). { destruct P as ((j & Hj & Ej) & Pj), P' as ((k & Hk & Ek) & Pk). specialize (Pj k Hk). specialize (Pk j Hj). lra. }
  unfold q_div in Hd. destruct (Qeq_bool a' 0) eqn:Z; [discriminate|]. injection Hd as <-. apply Qeq_bool_neq in Z.
  rewrite Mm, (total_qsum ms), H0. field. split; [lra|exact Z].
Qed.

Example C83_example : total_energy_consumed three 60 = [(1 + (3 + (2 + 0))) * 60; (4 + (0 + (1 + 0))) * 60; (2 + (2 + (2 + 0))) * 60] /\
  (exists m, time_coincident_demand three = Ok (Some m) /\ m == 7 / 3).
Proof. split; [vm_compute; reflexivity|]. eexists. split; [vm_compute; reflexivity|]. vm_compute. reflexivity. Qed.

(** ** C84: distribution of the changes in demand *)

(** Without normalisation and with computed edges: the share of the changes
    below each edge, reaching one. *)
Theorem C84_distribution_partial : forall w rs bins, (0 < bins)%nat -> all_steps rs <> [] ->
  exists cdf edges, cumulative_changes (mkTable w rs) bins false None = Ok (map Some cdf, edges) /\
    length cdf = bins /\ length edges = S bins /\ strictly_up edges /\
    (forall i c e, at_ cdf i c -> at_ edges (S i) e -> exists n,
       how_many (fun v => if (S i =? bins)%nat then v <= e else v < e) (all_steps rs) n /\ c == count_of n / count_of (length (all_steps rs))) /\
    (forall v a b, In v (all_steps rs) -> at_ edges 0 a -> at_ edges bins b -> a <= v <= b) /\
    (forall c, at_ cdf (bins - 1) c -> c == 1).
Proof.
  intros w rs bins Hb Hne. unfold cumulative_changes. rewrite changes_steps. destruct (np_max_spec _ Hne) as (mx & -> & (x & Hx & Ex) & M). cbn [bind andb].
  destruct (Nat.eqb_spec bins 0); [lia|].
  destruct (histogram_cdf (all_steps rs) bins mx Hb Hne) as (cdf & edges & E & C & L1 & L2 & S & V & R).
  { pose proof (all_steps_nonneg rs x Hx). lra. } { intros v Hv. split; [eapply all_steps_nonneg; exact Hv|apply M, Hv]. }
  destruct (histogram (all_steps rs) bins mx) as [h e] eqn:Eh. cbn [fst] in *. injection E as ->. exists cdf, edges. rewrite C.
  split; [reflexivity|]. split; [exact L1|]. split; [exact L2|]. split; [exact S|]. split; [exact V|]. split; [exact R|].
  intros c Hc. destruct (lt_at _ edges bins) as [b Hbb]; [lia|]. destruct (lt_at _ edges 0%nat) as [a Ha]; [lia|].
  destruct (V (bins - 1)%nat c b) as (n' & Hn & Ec); [exact Hc|replace (Datatypes.S (bins - 1)) with bins by lia; exact Hbb|].
  replace (Datatypes.S (bins - 1)) with bins in Hn by lia. rewrite Nat.eqb_refl in Hn.
  assert (n' = length (all_steps rs)) as ->. { apply (how_many_unique _ _ _ _ Hn). apply how_many_all. intros v Hv. apply (R v a b Hv Ha Hbb). }
  rewrite Ec. assert (0 < count_of (length (all_steps rs))); [|field; lra]. unfold count_of. change 0 with (inject_Z 0). rewrite <- Zlt_Qlt. destruct (all_steps rs); [congruence|simpl; lia].
Qed.

(** Normalised changes are put into the bins of the changes in watts: of the
    changes 5 and 10, half of them is at most 5, but everything is reported in
    the first bin. *)
Theorem C84_normalize_refuted : exists t cdf edges, cumulative_changes t 2 true None = Ok (map Some cdf, edges) /\
  all_steps (rows t) = [5; 10] /\ map Qred edges = [0; 5; 10] /\ Forall2 Qeq cdf [1; 1] /\
  (exists cdf' edges', cumulative_changes t 2 false None = Ok (map Some cdf', edges') /\ Forall2 Qeq cdf' [0; 1]).
Proof.
  exists (mkTable 3 [[0; 5; 15]]), [2 # 2; 4 # 4], [0 # 2; 10 # 2; 20 # 2]. split; [vm_compute; reflexivity|]. split; [vm_compute; reflexivity|]. split; [vm_compute; reflexivity|].
  split; [repeat constructor|]. exists [0 # 2; 4 # 4], [0 # 2; 10 # 2; 20 # 2]. split; [vm_compute; reflexivity|]. repeat constructor.
Qed.

(** With changes below one watt the largest ones are dropped. *)
Theorem C84_normalize_drops_refuted : exists t, map Qred (all_steps (rows t)) = [1 # 2; 1 # 4] /\ fst (histogram [1; 1 # 2] 2 (1 # 2)) = [0; 1]%nat /\
  exists edges c d, cumulative_changes t 2 true None = Ok ([Some c; Some d], edges) /\ c == 0 /\ d == 1.
Proof.
  exists (mkTable 3 [[0; 1 # 2; 1 # 4]]). split; [vm_compute; reflexivity|]. split; [vm_compute; reflexivity|].
  eexists. eexists. eexists. split; [vm_compute; reflexivity|]. split; vm_compute; reflexivity.
Qed.

(** The documented edges from 0 to 1 for normalised changes are refused
    whenever the largest change is one watt or more. *)
Theorem C84_unit_edges_refuted : (forall t bins e0 e mx, np_max (changes t) = Ok mx -> 1 <= mx -> last (e0 :: e) e0 == 1 ->
  cumulative_changes t bins true (Some (e0 :: e)) = Err ValueError) /\
  exists t mx, np_max (changes t) = Ok mx /\ 1 <= mx.
Proof.
  split.
  - intros t bins e0 e mx Hm L E. unfold cumulative_changes. rewrite Hm. cbn [bind].
    assert (K : Qle_bool (last (e0 :: e) e0) mx = true) by (apply Qleb_le; lra). rewrite K. reflexivity.
  - exists (mkTable 2 [[0; 5]]), 5. split; [vm_compute; reflexivity|lra].
Qed.

(** With given edges, all changes must lie between them, below the last one; the
    changes above the first edge are then counted up to each edge, as far as
    there are any. *)
Theorem C84_edges_partial : forall w rs bins e0 e, strictly_up (e0 :: e) -> all_steps rs <> [] ->
  ((exists v, In v (all_steps rs) /\ (v < e0 \/ last (e0 :: e) e0 <= v)) -> cumulative_changes (mkTable w rs) bins false (Some (e0 :: e)) = Err ValueError) /\
  ((forall v, In v (all_steps rs) -> e0 <= v < last (e0 :: e) e0) ->
   exists cdf, cumulative_changes (mkTable w rs) bins false (Some (e0 :: e)) = Ok (map Some cdf, e0 :: e) /\ (length cdf <= length e)%nat /\
    (forall i c b, at_ cdf i c -> at_ e i b -> exists n m, how_many (fun v => e0 < v <= b) (all_steps rs) n /\ how_many (fun v => e0 < v) (all_steps rs) m /\
       (0 < m)%nat /\ c == count_of n / count_of m) /\
    (forall v b, In v (all_steps rs) -> at_ (e0 :: e) (length cdf) b -> v <= b) /\
    (forall i b, (i < length cdf)%nat -> at_ (e0 :: e) i b -> exists v, In v (all_steps rs) /\ b < v)).
Proof.
  intros w rs bins e0 e Hu Hne. unfold cumulative_changes. rewrite changes_steps. destruct (np_max_spec _ Hne) as (mx & Em & (x & Hx & Ex) & M). rewrite Em. cbn [bind andb negb].
  destruct (np_min_spec _ Hne) as (mn & En & Hm & N). rewrite En. cbn [bind]. split.
  - intros (v & Hv & Out). destruct (Qle_bool (last (e0 :: e) e0) mx) eqn:E1; [reflexivity|]. apply Qleb_gt in E1.
    destruct (Qltb mn e0) eqn:E2; [reflexivity|]. exfalso. assert (~ mn < e0) by (rewrite <- Qltb_lt; congruence). specialize (M v Hv). specialize (N v Hv). destruct Out; lra.
  - intro R. destruct (Qle_bool (last (e0 :: e) e0) mx) eqn:E1; [exfalso; apply Qleb_le in E1; specialize (R x Hx); lra|].
    destruct (Qltb mn e0) eqn:E2; [exfalso; apply Qltb_lt in E2; specialize (R mn Hm); lra|].
    destruct (given_edges (all_steps rs) e0 e) as (cdf & Ec & Rest); [intros i a b Ha Hb; apply Qlt_le_weak, (Hu i a b Ha Hb)|exact Hne|exact R|].
    exists cdf. rewrite Ec. split; [reflexivity|exact Rest].
Qed.

(** The distribution is therefore shorter than documented where the last bins
    are empty: here one value for three bins. *)
Theorem C84_short_refuted : exists t c, all_steps (rows t) = [3; 4] /\ cumulative_changes t 0 false (Some [0; 10; 20; 30]) = Ok ([Some c], [0; 10; 20; 30]) /\ c == 1.
Proof. exists (mkTable 3 [[0; 3; 7]]). eexists. split; [vm_compute; reflexivity|]. split; [vm_compute; reflexivity|]. vm_compute. reflexivity. Qed.

(** With given edges, changes equal to the first edge are left out: a profile
    that is constant most of the time appears as changing all the time. *)
Theorem C84_zero_changes_refuted : exists t cdf, all_steps (rows t) = [0; 0; 0; 15] /\
  cumulative_changes t 0 false (Some [0; 10; 20]) = Ok (map Some cdf, [0; 10; 20]) /\ Forall2 Qeq cdf [0; 1].
Proof.
  exists (mkTable 5 [[1; 1; 1; 1; 16]]), [0; 1]. split; [vm_compute; reflexivity|]. split; [vm_compute; reflexivity|]. repeat constructor.
Qed.

Example C84_example : all_steps (rows three) = [2; 1; 4; 1; 0; 0] /\
  match cumulative_changes three 4 false None with Ok (c, e) => (map (option_map Qred) c, map Qred e) | Err _ => ([], []) end =
  ([Some (1 # 3); Some (2 # 3); Some (5 # 6); Some 1], [0; 1; 2; 3; 4]).
Proof. conj_vm. Qed.

Print Assumptions C52_value.
Print Assumptions C52_bounds.
Print Assumptions C52_empty.
Print Assumptions C53_counts.
Print Assumptions C53_curve.
Print Assumptions C53_one_profile_refuted.
Print Assumptions C83_energy.
Print Assumptions C83_units.
Print Assumptions C83_coincident.
Print Assumptions C84_distribution_partial.
Print Assumptions C84_normalize_refuted.
Print Assumptions C84_normalize_drops_refuted.
Print Assumptions C84_unit_edges_refuted.
Print Assumptions C84_zero_changes_refuted.
Print Assumptions C84_edges_partial.
Print Assumptions C84_short_refuted.
